(** Model of OutgoingReplicationQueue,
    core/internal/statestore/cache/replicatedticketcache.go:74-127, as a machine
    over the events its select statement can take. *)
From Coq Require Import Ascii String ZArith NArith.
From stdpp Require Import prelude strings.
From Verif.Model Require Import GoStrings Types MemRepl.
Local Open Scope Z_scope.

(** replicatedticketcache.go:36-44; the results channel is identified by a
    number, the context is unused. *)
Record request := Request { rq_update : update; rq_chan : nat }.

(** The select at :95-111. *)
Inductive qevent := QReq (r : request) | QTimeout.

(** The batch being collected, and the batches executed so far (oldest first). *)
Record qstate := QState { q_pending : list request; q_batches : list (list request) }.

Definition q_init : qstate := QState [] [].

(** :115-125: nothing is executed when the batch is empty. *)
Definition q_flush (s : qstate) : qstate :=
  match q_pending s with
  | [] => QState [] (q_batches s)
  | _ => QState [] (q_batches s ++ [q_pending s])
  end.

Definition q_step (thr : Z) (s : qstate) (e : qevent) : qstate :=
  match e with
  | QReq r =>
      let s' := QState (q_pending s ++ [r]) (q_batches s) in
      if thr <=? Z.of_nat (length (q_pending s')) then q_flush s' else s'
  | QTimeout => q_flush s
  end.

Definition q_run (thr : Z) (s : qstate) (es : list qevent) : qstate := foldl (q_step thr) s es.

(** The requests among the events. *)
Fixpoint q_accepted (es : list qevent) : list request :=
  match es with
  | [] => []
  | QReq r :: es' => r :: q_accepted es'
  | QTimeout :: es' => q_accepted es'
  end.

(** :121-124: results are handed out by position. [None]: index out of range
    (a panic), if there were more results than requests. *)
Fixpoint distribute (rs : list request) (res : list response) : option (list (nat * response)) :=
  match res with
  | [] => Some []
  | r :: res' =>
      match rs with
      | [] => None
      | q :: rs' =>
          match distribute rs' res' with
          | Some l => Some ((rq_chan q, r) :: l)
          | None => None
          end
      end
  end.

(** Executing one batch against the in-memory store: the updates replicated,
    the answers delivered, and the new store state. *)
Definition mem_batch (st : mem_state) (b : list request) (clks : list (instant * instant))
    : list update * option (list (nat * response)) * mem_state :=
  let '(us, rs, st') := mem_send st (zip (map rq_update b) clks) in
  (us, distribute b rs, st').

(** Executing a sequence of batches; every request carries the clock readings
    the store makes for it. *)
Fixpoint mem_exec (st : mem_state) (bs : list (list (request * (instant * instant))))
    : list update * option (list (nat * response)) * mem_state :=
  match bs with
  | [] => ([], Some [], st)
  | b :: bs' =>
      let '(us, ds, st1) := mem_batch st b.*1 b.*2 in
      let '(us', ds', st2) := mem_exec st1 bs' in
      (us ++ us',
       match ds, ds' with Some d, Some d' => Some (d ++ d') | _, _ => None end,
       st2)
  end.
