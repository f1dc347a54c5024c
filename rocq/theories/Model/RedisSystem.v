(** Any number of om-core instances replicating through one Redis stream: every
    instance is as in Model/System.v, with SendUpdates and GetUpdates of
    core/internal/statestore/redis/redis.go as its store.

    Not modelled here: running out of pooled connections (see [rpool] and C16),
    and a stream key that is deleted or written by anybody else. *)
From Coq Require Import Ascii String ZArith NArith.
From stdpp Require Import prelude strings gmap relations.
From Verif.Model Require Import GoStrings Types Filter Proto Cache Replica Handlers MemRepl Queues RedisRepl System.
Local Open Scope Z_scope.

(** redis.go:113-177: the XADD commands queued for a batch, each with the request
    it comes from. *)
Fixpoint cmds_of (b : list request) : list (request * list string) :=
  match b with
  | [] => []
  | q :: b' =>
      match redis_encode (rq_update q) with
      | inl _ => cmds_of b'
      | inr c => (q, c) :: cmds_of b'
      end
  end.

(** SendUpdates (redis.go:101-225) in progress: the batch, the commands the server
    has not executed yet, and the replies to those it has. *)
Record redis_call := RedisCall {
  rc_batch : list request; rc_cmds : list (request * list string); rc_replies : list (option sid)
}.

Definition redis_begin (b : list request) : redis_call := RedisCall b (cmds_of b) [].

(** redis.go:195-212. *)
Definition redis_results (b : list request) (replies : list (option sid)) : list response :=
  merge_replies (map rq_update b) (local_errs (map rq_update b)) replies.

(** An instance with its read cursor (redis.go:37 replId). [rx_hist] is history,
    not code: the requests of the batches sent, with the answers SendUpdates
    returned for them. *)
Record rinst := RInst {
  rx_inst : inst redis_call; rx_cursor : sid; rx_hist : list (request * response)
}.

(** redis.go:42. *)
Definition rinst0 : rinst := RInst inst0 (0, 0) [].

(** History, not code: an entry appended to the stream, the request and the
    instance it came from. *)
Record logent := LogEnt { le_id : sid; le_req : request; le_src : nat }.

(** The instances (new ones join at the end; one that is shut down just takes no
    more steps), the stream, the commands of broken connections that the server
    may still execute (with the instance they come from), and as history the
    entries ever appended and the thresholds of the XTRIMs executed. *)
Record rsys := RSys {
  ry_insts : list rinst; ry_stream : stream;
  ry_orphans : list (nat * list (request * list string));
  ry_log : list logent; ry_trims : list Z
}.

Definition rsys0 : rsys := RSys [] empty_stream [] [] [].

Definition set_out (o : out_pc redis_call) (x : inst redis_call) : inst redis_call :=
  Inst (in_calls x) o (in_poll x) (in_stream x) (in_expiring x) (in_cache x) (in_events x).
Definition set_poll (p : poll_pc) (x : inst redis_call) : inst redis_call :=
  Inst (in_calls x) (in_out x) p (in_stream x) (in_expiring x) (in_cache x) (in_events x).

(** The end of SendUpdates. *)
Definition finish_send (b : list request) (replies : list (option sid)) (x : rinst) : rinst :=
  RInst (set_out (to_deliver b (redis_results b replies)) (rx_inst x)) (rx_cursor x)
        (rx_hist x ++ zip b (redis_results b replies)).

(** GetUpdates, redis.go:232-309. *)
Definition poll_redis (cfg : config) (s : stream) (ok : bool) (x : rinst) : rinst :=
  match redis_get (cfg_in_max cfg) s (rx_cursor x) ok with
  | (Done us, c) => RInst (set_poll (PPush us) (rx_inst x)) c (rx_hist x)
  | (Panic, _) => RInst (set_poll PCrash (rx_inst x)) (rx_cursor x) (rx_hist x)
  end.

Inductive ystep (cfg : config) : rsys → rsys → Prop :=
(* an instance starts *)
| Y_join xs s os lg ts :
    ystep cfg (RSys xs s os lg ts) (RSys (xs ++ [rinst0]) s os lg ts)
(* a step inside an instance *)
| Y_local xs s os lg ts n x i' :
    xs !! n = Some x → lstep cfg redis_begin (rx_inst x) i' →
    ystep cfg (RSys xs s os lg ts) (RSys (<[n := RInst i' (rx_cursor x) (rx_hist x)]> xs) s os lg ts)
(* the server executes an XADD *)
| Y_xadd xs s os lg ts n x b q c cmds rs ms :
    xs !! n = Some x → in_out (rx_inst x) = OStore (RedisCall b ((q, c) :: cmds) rs) →
    ystep cfg (RSys xs s os lg ts)
      (RSys (<[n := RInst (set_out (OStore (RedisCall b cmds (rs ++ [Some (xadd s ms c).2]))) (rx_inst x))
                          (rx_cursor x) (rx_hist x)]> xs)
            (xadd s ms c).1 os (lg ++ [LogEnt (xadd s ms c).2 q n]) ts)
(* the server refuses an XADD (out of memory, read-only, ...) *)
| Y_refuse xs s os lg ts n x b q c cmds rs :
    xs !! n = Some x → in_out (rx_inst x) = OStore (RedisCall b ((q, c) :: cmds) rs) →
    ystep cfg (RSys xs s os lg ts)
      (RSys (<[n := RInst (set_out (OStore (RedisCall b cmds (rs ++ [None]))) (rx_inst x))
                          (rx_cursor x) (rx_hist x)]> xs) s os lg ts)
(* the server executes the final XTRIM and all replies arrive *)
| Y_sent xs s os lg ts n x b rs now :
    xs !! n = Some x → in_out (rx_inst x) = OStore (RedisCall b [] rs) →
    ystep cfg (RSys xs s os lg ts)
      (RSys (<[n := finish_send b rs x]> xs)
            (xtrim_minid s (unix_secs now - cfg_ticket_ttl cfg)) os lg
            (ts ++ [unix_secs now - cfg_ticket_ttl cfg]))
(* the connection breaks (or could not be made): there are no replies at all *)
| Y_break xs s os lg ts n x b cmds rs :
    xs !! n = Some x → in_out (rx_inst x) = OStore (RedisCall b cmds rs) →
    ystep cfg (RSys xs s os lg ts)
      (RSys (<[n := finish_send b [] x]> xs) s (os ++ [(n, cmds)]) lg ts)
(* what the server does with the commands of a broken connection *)
| Y_late_xadd xs s os lg ts k n q c cmds ms :
    os !! k = Some (n, (q, c) :: cmds) →
    ystep cfg (RSys xs s os lg ts)
      (RSys xs (xadd s ms c).1 (<[k := (n, cmds)]> os) (lg ++ [LogEnt (xadd s ms c).2 q n]) ts)
| Y_late_trim xs s os lg ts k n now :
    os !! k = Some (n, []) →
    ystep cfg (RSys xs s os lg ts)
      (RSys xs (xtrim_minid s (unix_secs now - cfg_ticket_ttl cfg)) (delete k os) lg
            (ts ++ [unix_secs now - cfg_ticket_ttl cfg]))
| Y_late_lost xs s os lg ts k o :
    os !! k = Some o →
    ystep cfg (RSys xs s os lg ts) (RSys xs s (delete k os) lg ts)
(* XREAD *)
| Y_poll xs s os lg ts n x ok :
    xs !! n = Some x → in_poll (rx_inst x) = PGet [] →
    ystep cfg (RSys xs s os lg ts) (RSys (<[n := poll_redis cfg s ok x]> xs) s os lg ts).

Definition yreach (cfg : config) : rsys → Prop := rtc (ystep cfg) rsys0.
