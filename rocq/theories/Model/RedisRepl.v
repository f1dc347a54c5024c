(** Model of core/internal/statestore/redis/redis.go, together with the parts
    of a Redis server (streams: XADD, XTRIM MINID, XREAD COUNT) and of the redigo
    client (pool, pipelining) it uses. *)
From Coq Require Import Ascii String ZArith NArith.
From stdpp Require Import prelude strings.
From Verif.Model Require Import GoStrings Types Filter.
Local Open Scope string_scope.
Local Open Scope Z_scope.

(** ** Redis streams *)

(** An entry id: milliseconds and sequence number. *)
Definition sid := (Z * Z)%type.

Definition sid_ltb (a b : sid) : bool :=
  (a.1 <? b.1) || ((a.1 =? b.1) && (a.2 <? b.2)).

(** The textual form, e.g. "1700000000000-0". *)
Definition sid_str (i : sid) : string := format_Z i.1 +:+ "-" +:+ format_Z i.2.

Record entry := Entry { e_id : sid; e_fields : list string }.

(** A stream: its entries in id order and the last id ever generated. *)
Record stream := Stream { st_entries : list entry; st_last : sid }.

Definition empty_stream : stream := Stream [] (0, 0).

(** XADD key * ...: the id is the server's clock in milliseconds, made larger
    than the last id if necessary. (Sequence overflow at 2^64 is not modelled.) *)
Definition next_sid (last : sid) (now_ms : Z) : sid :=
  if last.1 <? now_ms then (now_ms, 0) else (last.1, last.2 + 1).

Definition xadd (s : stream) (now_ms : Z) (fields : list string) : stream * sid :=
  let i := next_sid (st_last s) now_ms in
  (Stream (st_entries s ++ [Entry i fields]) i, i).

(** XTRIM key MINID t: drops the entries whose id is less than t-0, that is
    (sequence numbers being natural numbers) whose milliseconds are below t. A
    negative t is a syntax error and drops nothing. *)
Definition xtrim_minid (s : stream) (t : Z) : stream :=
  if t <? 0 then s
  else Stream (filter (λ e, (e_id e).1 <? t = false) (st_entries s)) (st_last s).

(** XREAD COUNT n STREAMS key cursor: the first n entries after the cursor. *)
Definition xread (s : stream) (n : nat) (cursor : sid) : list entry :=
  take n (filter (λ e, sid_ltb cursor (e_id e) = true) (st_entries s)).

(** ** SendUpdates, redis.go:101-225 *)

(** redis.go:113-166: validation and encoding of one update. *)
Definition redis_encode (u : update) : store_err + list string :=
  match u_cmd u with
  | CmdTicket =>
      if bool_decide (u_value u = "") then inl ENoTicketData
      else inr ["ticket"; u_value u]
  | CmdActivate =>
      if bool_decide (u_key u = "") then inl EMissingKey else inr ["activate"; u_key u]
  | CmdDeactivate =>
      if bool_decide (u_key u = "") then inl EMissingKey else inr ["deactivate"; u_key u]
  | CmdAssign =>
      if bool_decide (u_key u = "") then inl EMissingKey
      else if bool_decide (u_value u = "") then inl EMissingAssignment
      else inr ["assign"; u_key u; "connection"; u_value u]
  | CmdOther => inl EInvalidInput
  end.

(** redis.go:113-177: the errors found locally and the XADD commands queued. *)
Definition local_errs (us : list update) : list (option store_err) :=
  map (λ u, match redis_encode u with inl e => Some e | inr _ => None end) us.

Fixpoint sent_cmds (us : list update) : list (list string) :=
  match us with
  | [] => []
  | u :: us' =>
      match redis_encode u with inl _ => sent_cmds us' | inr a => a :: sent_cmds us' end
  end.

(** What the server does with one XADD: executed at the given server time, or
    answered with an error (out of memory, read-only replica, ...). *)
Inductive xadd_outcome := XaddOk (now_ms : Z) | XaddErr.

(** What happens to the pipelined batch: every reply arrives; or the
    connection breaks (or was never made), in which case the server may still
    have executed a prefix of the commands but Do returns no replies
    (redigo conn.Do with an empty command name returns nil on a read error). *)
Inductive pipe_outcome :=
| PipeOk (os : list xadd_outcome)
| PipeFail (executed : list xadd_outcome).

Fixpoint run_xadds (s : stream) (cmds : list (list string)) (os : list xadd_outcome)
    : stream * list (option sid) :=
  match cmds, os with
  | c :: cmds', XaddOk ms :: os' =>
      let '(s1, i) := xadd s ms c in
      let '(s2, rs) := run_xadds s1 cmds' os' in (s2, Some i :: rs)
  | c :: cmds', XaddErr :: os' =>
      let '(s2, rs) := run_xadds s cmds' os' in (s2, None :: rs)
  | _, _ => (s, [])
  end.

(** redis.go:195-212: the replies are matched to the updates by position in the
    reply array, although only the valid updates were sent. *)
Fixpoint merge_replies (us : list update) (errs : list (option store_err))
    (replies : list (option sid)) : list response :=
  match us, errs with
  | u :: us', e :: errs' =>
      match replies with
      | [] => Response "" e :: merge_replies us' errs' []
      | r :: replies' =>
          match e with
          | None => match r with
                    | Some i => Response (sid_str i) None
                    | None => Response "" (Some EReply)
                    end
          | Some e => Response (u_key u) (Some e)
          end :: merge_replies us' errs' replies'
      end
  | _, _ => []
  end.

(** redis.go:101-225 SendUpdates. [now] is the reading of time.Now() at :180;
    the XTRIM threshold is computed in seconds. *)
Definition redis_send (ttl : Z) (now : instant) (s : stream) (po : pipe_outcome)
    (us : list update) : stream * list response :=
  let cmds := sent_cmds us in
  let thr := unix_secs now - ttl in
  match po with
  | PipeOk os =>
      let '(s', replies) := run_xadds s cmds os in
      (xtrim_minid s' thr, merge_replies us (local_errs us) replies)
  | PipeFail os =>
      let '(s', _) := run_xadds s cmds os in
      (s', merge_replies us (local_errs us) [])
  end.

(** ** GetUpdates, redis.go:232-309 *)

(** redis.go:275-298: decoding one entry; indexing past the end panics. *)
Definition redis_decode (e : entry) : outcome update :=
  match e_fields e with
  | [] => Panic
  | c :: args =>
      if bool_decide (c = "ticket") then
        match args with v :: _ => Done (Update CmdTicket (sid_str (e_id e)) v) | _ => Panic end
      else if bool_decide (c = "activate") then
        match args with k :: _ => Done (Update CmdActivate k "") | _ => Panic end
      else if bool_decide (c = "deactivate") then
        match args with k :: _ => Done (Update CmdDeactivate k "") | _ => Panic end
      else if bool_decide (c = "assign") then
        match args with k :: _ :: v :: _ => Done (Update CmdAssign k v) | _ => Panic end
      else Done (Update CmdTicket "" "")
  end.

Fixpoint decode_all (es : list entry) : outcome (list update) :=
  match es with
  | [] => Done []
  | e :: es' =>
      match redis_decode e, decode_all es' with
      | Done u, Done us => Done (u :: us)
      | _, _ => Panic
      end
  end.

(** redis.go:303-305: the cursor after processing the entries. The code keeps
    it in textual form and hands it back to XREAD unchanged. *)
Definition advance (cursor : sid) (es : list entry) : sid :=
  match last es with Some e => e_id e | None => cursor end.

(** redis.go:232-309. [ok = false]: the command failed, nothing is returned. *)
Definition redis_get (count : nat) (s : stream) (cursor : sid) (ok : bool)
    : outcome (list update) * sid :=
  if ok then let es := xread s count cursor in (decode_all es, advance cursor es)
  else (Done [], cursor).

(** ** The redigo connection pool with Wait = true (redis.go:44-91) *)

Record rpool := RPool { rp_max : nat; rp_in_use : nat }.

(** Pool.Get: takes one of MaxActive tokens, blocking while there is none
    ([None]); MaxActive = 0 means no limit. *)
Definition pool_get (p : rpool) : option rpool :=
  if (rp_max p =? 0)%nat || (rp_in_use p <? rp_max p)%nat
  then Some (RPool (rp_max p) (S (rp_in_use p))) else None.

(** Conn.Close on a pooled connection: gives the token back. *)
Definition pool_put (p : rpool) : rpool := RPool (rp_max p) (pred (rp_in_use p)).

(** The pool after one SendUpdates or GetUpdates call that could connect
    (redis.go:108 / :254: Get, and no Close anywhere in the package). *)
Definition pool_call (p : rpool) : option rpool := pool_get p.

(** n calls one after the other. *)
Fixpoint pool_calls (n : nat) (p : rpool) : option rpool :=
  match n with O => Some p | S n => match pool_call p with Some p' => pool_calls n p' | None => None end end.
