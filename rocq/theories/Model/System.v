(** One om-core instance as a whole: the gRPC handlers that write state
    (core/main.go:144-353, :733-795), OutgoingReplicationQueue
    (core/internal/statestore/cache/replicatedticketcache.go:74-127), and the two
    goroutines of IncomingReplicationQueue (:134-348: the poller :145-154 and the
    one that applies updates and expires, :157-348), connected by channels; first
    with the in-memory store (core/internal/statestore/memory/main.go).

    Every goroutine is a program counter with its local variables; a step of the
    system is one channel operation, store operation or expiration cycle of one
    goroutine, in any order. *)
From Coq Require Import Ascii String ZArith NArith.
From stdpp Require Import prelude strings gmap relations.
From Verif.Model Require Import GoStrings Types Proto Cache Replica Handlers MemRepl Queues.
Local Open Scope Z_scope.

(** ** Handlers *)

(** What a call to one of the handlers puts on tc.UpRequests (main.go:101,
    unbuffered), and the capacity of its results channel: 0 for CreateTicket
    (main.go:201), the number of ids for updateTicketsActiveState (:238), the
    number of tickets in the roster for CreateAssignments (:750). [Is_match] is the
    deactivation of the tickets of a match by InvokeMatchmakingFunctions
    (:639), whose ids are not validated. Calls that are rejected never touch
    the queue. *)
Inductive issues (cfg : config) : list update → nat → Prop :=
| Is_create now o req us :
    create_ticket (cfg_ticket_ttl cfg) now o req = Send us → issues cfg us 0
| Is_activate ids us :
    activate_start cfg ids = Send us → issues cfg us (length us)
| Is_deactivate ids us :
    deactivate_start cfg ids = Send us → issues cfg us (length us)
| Is_match ids :
    issues cfg (state_updates CmdDeactivate ids) (length ids)
| Is_assign oe r us :
    create_assignments_start oe (Some r) = Send us → issues cfg us (length (ro_tickets r)).

(** A call in progress: the updates it has to send, the capacity of its results
    channel, how many it has sent, the results in the channel, and the results it
    has received. All handlers first send everything and then receive one result
    per update. *)
Record call := Call {
  cl_ups : list update; cl_cap : nat; cl_sent : nat; cl_buf : list response; cl_got : list response
}.

(** All updates sent, waiting for a result. *)
Definition waiting (c : call) : Prop :=
  cl_sent c = length (cl_ups c) ∧ (length (cl_got c) < length (cl_ups c))%nat.

(** All results received: the handler returns. *)
Definition returned (c : call) : Prop :=
  cl_sent c = length (cl_ups c) ∧ length (cl_got c) = length (cl_ups c).

Definition sent_one (c : call) : call :=
  Call (cl_ups c) (cl_cap c) (S (cl_sent c)) (cl_buf c) (cl_got c).
Definition buffer (r : response) (c : call) : call :=
  Call (cl_ups c) (cl_cap c) (cl_sent c) (cl_buf c ++ [r]) (cl_got c).
Definition receive (r : response) (buf : list response) (c : call) : call :=
  Call (cl_ups c) (cl_cap c) (cl_sent c) buf (cl_got c ++ [r]).

(** ** The goroutines of one instance *)

(** OutgoingReplicationQueue: collecting a batch (:94-112), inside SendUpdates
    (:119, the state [S] depends on the store), handing out the results
    (:122-125), or dead after a panic. *)
Inductive out_pc (S : Type) :=
| OCollect (b : list request)
| OStore (s : S)
| ODeliver (l : list (nat * response))
| OCrash.
Arguments OCollect {S} b.
Arguments OStore {S} s.
Arguments ODeliver {S} l.
Arguments OCrash {S}.

(** The poller: inside GetUpdates (:149, with what it has collected so far) or
    pushing into replStream (:150-152). *)
Inductive poll_pc := PGet (l : list update) | PPush (l : list update) | PCrash.

(** An instance. [in_expiring]: the applying goroutine has left its inner loop
    and is about to run the expiration code. [in_events] is history, not code:
    what that goroutine has done to the cache so far. *)
Record inst (S : Type) := Inst {
  in_calls : list call;       (* handlers; call [i] uses results channel [i] *)
  in_out : out_pc S;
  in_poll : poll_pc;
  in_stream : list update;    (* replStream, :144 *)
  in_expiring : bool;
  in_cache : cache;
  in_events : list hev
}.
Arguments Inst {S} in_calls in_out in_poll in_stream in_expiring in_cache in_events.
Arguments in_calls {S}.
Arguments in_out {S}.
Arguments in_poll {S}.
Arguments in_stream {S}.
Arguments in_expiring {S}.
Arguments in_cache {S}.
Arguments in_events {S}.

Definition inst0 {S} : inst S := Inst [] (OCollect []) (PGet []) [] false empty_cache [].

(** What follows one round of the select at :95-111: go on collecting, or (with a
    full batch or after the timeout) call SendUpdates. *)
Definition after_select {S} (begin : list request → S) (q : qstate) : out_pc S :=
  match q_batches q with
  | b :: _ => OStore (begin b)
  | [] => OCollect (q_pending q)
  end.

(** Steps that do not involve the store. [begin] is the state in which SendUpdates
    starts for a batch. *)
Inductive lstep {S} (cfg : config) (begin : list request → S) : inst S → inst S → Prop :=
(* a client calls a handler *)
| L_call cs o p st x c ev us cap :
    issues cfg us cap →
    lstep cfg begin (Inst cs o p st x c ev) (Inst (cs ++ [Call us cap 0 [] []]) o p st x c ev)
(* tc.UpRequests <- ... meets :96 *)
| L_accept cs b p st x c ev i cl u :
    cs !! i = Some cl → cl_ups cl !! cl_sent cl = Some u →
    lstep cfg begin (Inst cs (OCollect b) p st x c ev)
      (Inst (<[i := sent_one cl]> cs)
            (after_select begin (q_step (cfg_out_threshold cfg) (QState b []) (QReq (Request u i)))) p st x c ev)
(* :107 *)
| L_out_timeout cs b p st x c ev :
    lstep cfg begin (Inst cs (OCollect b) p st x c ev)
      (Inst cs (after_select begin (q_step (cfg_out_threshold cfg) (QState b []) QTimeout)) p st x c ev)
(* :124 with an unbuffered results channel: the handler must be receiving *)
| L_deliver_direct cs i r l p st x c ev cl :
    cs !! i = Some cl → cl_cap cl = 0%nat → waiting cl →
    lstep cfg begin (Inst cs (ODeliver ((i, r) :: l)) p st x c ev)
      (Inst (<[i := receive r [] cl]> cs) (ODeliver l) p st x c ev)
(* :124 with a buffered results channel: there must be room *)
| L_deliver_buffered cs i r l p st x c ev cl :
    cs !! i = Some cl → ¬ returned cl → (length (cl_buf cl) < cl_cap cl)%nat →
    lstep cfg begin (Inst cs (ODeliver ((i, r) :: l)) p st x c ev)
      (Inst (<[i := buffer r cl]> cs) (ODeliver l) p st x c ev)
(* :124 after the handler has returned and closed the channel (main.go:239):
   sending on a closed channel panics *)
| L_deliver_closed cs i r l p st x c ev cl :
    cs !! i = Some cl → returned cl →
    lstep cfg begin (Inst cs (ODeliver ((i, r) :: l)) p st x c ev) (Inst cs OCrash p st x c ev)
| L_delivered cs p st x c ev :
    lstep cfg begin (Inst cs (ODeliver []) p st x c ev) (Inst cs (OCollect []) p st x c ev)
(* main.go:220, :275, :780 *)
| L_receive cs o p st x c ev i cl r buf :
    cs !! i = Some cl → waiting cl → cl_buf cl = r :: buf →
    lstep cfg begin (Inst cs o p st x c ev) (Inst (<[i := receive r buf cl]> cs) o p st x c ev)
(* :151 *)
| L_push cs o u l st x c ev :
    (length st < cfg_in_max cfg)%nat →
    lstep cfg begin (Inst cs o (PPush (u :: l)) st x c ev) (Inst cs o (PPush l) (st ++ [u]) x c ev)
| L_pushed cs o st x c ev :
    lstep cfg begin (Inst cs o (PPush []) st x c ev) (Inst cs o (PGet []) st x c ev)
(* :172-221 *)
| L_apply cs o p u st c ev :
    lstep cfg begin (Inst cs o p (u :: st) false c ev)
      (Inst cs o p st false (apply_update c u) (ev ++ [HUpd u]))
(* the same when the poller is blocked on an empty channel (capacity 0) *)
| L_apply_direct cs o u l c ev :
    lstep cfg begin (Inst cs o (PPush (u :: l)) [] false c ev)
      (Inst cs o (PPush l) [] false (apply_update c u) (ev ++ [HUpd u]))
(* :222-230: the channel is empty, or the timer has fired *)
| L_leave_loop cs o p st c ev :
    lstep cfg begin (Inst cs o p st false c ev) (Inst cs o p st true c ev)
(* :267-347 *)
| L_expire cs o p st c ev orders :
    orders_fit cfg orders c →
    lstep cfg begin (Inst cs o p st true c ev)
      (Inst cs o p st false (cycle cfg orders c) (ev ++ [HCycle orders])).

(** ** With the in-memory store *)

(** SendUpdates of memory/main.go:75-94 in progress: the batch, the responses
    so far ([out]), the requests still to be sent, and, between :82 and :88, the
    update about to be written to the channel with its response. *)
Record mem_call := MemCall {
  mc_batch : list request; mc_done : list response; mc_todo : list request;
  mc_offer : option (update * response)
}.

Definition mem_begin (b : list request) : mem_call := MemCall b [] b None.

(** [ms_hist] is history, not code: the requests whose updates have been written
    to replChan, with their answers and the updates as written. *)
Record sent := Sent { sn_req : request; sn_resp : response; sn_upd : update }.

Record msys := MSys {
  ms_inst : inst mem_call; ms_store : mem_state; ms_clock : instant; ms_hist : list sent
}.

Definition msys0 (t0 : instant) : msys := MSys inst0 (mem_new t0) t0 [].

(** :120-125: the result of SendUpdates is handed out by position. *)
Definition to_deliver {S} (b : list request) (rs : list response) : out_pc S :=
  match distribute b rs with Some l => ODeliver l | None => OCrash end.

(** The clock readings of getReplId never go back (see C09 for what happens
    otherwise). *)
Inductive mstep (cfg : config) : msys → msys → Prop :=
| M_local i i' m t h :
    lstep cfg mem_begin i i' → mstep cfg (MSys i m t h) (MSys i' m t h)
(* memory/main.go:82-87 *)
| M_id cs b done q todo p st x c ev m t h t1 t2 u r m' :
    t <= t1 → t1 <= t2 → mem_send1 m (rq_update q) (t1, t2) = (u, r, m') →
    mstep cfg (MSys (Inst cs (OStore (MemCall b done (q :: todo) None)) p st x c ev) m t h)
      (MSys (Inst cs (OStore (MemCall b done (q :: todo) (Some (u, r)))) p st x c ev) m' t2 h)
(* memory/main.go:88 meets :62 *)
| M_give cs b done q todo u r l st x c ev m t h :
    mstep cfg
      (MSys (Inst cs (OStore (MemCall b done (q :: todo) (Some (u, r)))) (PGet l) st x c ev) m t h)
      (MSys (Inst cs (OStore (MemCall b (done ++ [r]) todo None)) (PGet (l ++ [u])) st x c ev) m t
            (h ++ [Sent q r u]))
(* memory/main.go:93 *)
| M_sent cs b done p st x c ev m t h :
    mstep cfg (MSys (Inst cs (OStore (MemCall b done [] None)) p st x c ev) m t h)
      (MSys (Inst cs (to_deliver b done) p st x c ev) m t h)
(* memory/main.go:64 *)
| M_poll_timeout cs o l st x c ev m t h :
    mstep cfg (MSys (Inst cs o (PGet l) st x c ev) m t h)
      (MSys (Inst cs o (PPush l) st x c ev) m t h).

Definition mreach (cfg : config) (t0 : instant) : msys → Prop := rtc (mstep cfg) (msys0 t0).
