(** Property theorems about the outgoing replication queue: C12, C13. *)
From Coq Require Import Ascii String ZArith NArith.
From stdpp Require Import prelude strings.
From Verif.Model Require Import GoStrings Types MemRepl Queues.
From Verif.Proofs Require Import MemLemmas.
Local Open Scope string_scope.
Local Open Scope Z_scope.

(** C12: at every point, the batches written so far followed by the batch being
    collected are exactly the accepted requests in order, and every written batch
    is non-empty and within the threshold. *)
Theorem C12_batching_exact : ∀ thr es,
  (concat (q_batches (q_run thr q_init es)) ++ q_pending (q_run thr q_init es))%list = q_accepted es ∧
  Forall (λ b, b ≠ [] ∧ Z.of_nat (length b) <= Z.max 1 thr) (q_batches (q_run thr q_init es)) ∧
  (q_pending (q_run thr q_init es) = [] ∨
   Z.of_nat (length (q_pending (q_run thr q_init es))) < Z.max 1 thr).
Proof. exact batching_exact. Qed.
Print Assumptions C12_batching_exact.

(** When the timer fires nothing is left waiting. *)
Theorem C12_timeout_flushes : ∀ thr es,
  concat (q_batches (q_run thr q_init (es ++ [QTimeout])%list)) = q_accepted es.
Proof. exact timeout_flushes. Qed.
Print Assumptions C12_timeout_flushes.

Definition rq (n : nat) : request := Request (Update CmdTicket "" "v") n.
Example C12_example :
  q_batches (q_run 2 q_init [QReq (rq 1); QReq (rq 2); QTimeout; QReq (rq 3); QTimeout])
  = [[rq 1; rq 2]; [rq 3]].
Proof. vm_compute. reflexivity. Qed.

(** C13: executing all batches against the in-memory store, whatever the clock
    readings: the requests written, the answers delivered and the updates
    replicated correspond one to one, in order. Each answer goes to the request's
    own channel, carries no error, and for a new ticket names the id under which
    that ticket is replicated; other updates are replicated unchanged. *)
Theorem C13_own_answer : ∀ thr es bs t0 us ds st',
  map (map fst) bs = q_batches (q_run thr q_init es) →
  mem_exec (mem_new t0) bs = (us, ds, st') →
  ∃ l, ds = Some l ∧
    Forall3 (λ r d u,
      d.1 = rq_chan r ∧ r_err d.2 = None ∧
      u = match u_cmd (rq_update r) with
          | CmdTicket => Update CmdTicket (r_result d.2) (u_value (rq_update r))
          | _ => rq_update r
          end) (concat (q_batches (q_run thr q_init es))) l us.
Proof. exact own_answer. Qed.
Print Assumptions C13_own_answer.

Example C13_example :
  mem_exec (mem_new (5 * giga))
    [[(Request (Update CmdTicket "" "v") 7, (5 * giga, 5 * giga)); (Request (Update CmdActivate "1-1" "") 8, (5 * giga, 5 * giga))]]
  = ([Update CmdTicket "5-1" "v"; Update CmdActivate "1-1" ""],
     Some [(7%nat, Response "5-1" None); (8%nat, Response "5-2" None)], MemState (5 * giga) 2).
Proof. vm_compute. reflexivity. Qed.
