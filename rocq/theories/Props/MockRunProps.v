(** C140: the mock frontend of the example makes the tickets it was told to make, and sends
    the id of each for activation. *)
From Coq Require Import Ascii String ZArith NArith.
From stdpp Require Import prelude strings gmap.
From Verif.Model Require Import GoStrings Types Invoke Matchmaker MockFrontend MockRun.
From Verif.Spec Require Import MatchmakerSpec FairSpec MockRunSpec.
From Verif.Proofs Require Import MatchmakerLemmas MockRunLemmas MockRunLive MockRunFair MockRunEnd MockRunWitness.
Local Open Scope Z_scope.

(** Never more tickets than asked for, and exactly those when the generator has ended. *)
Theorem C140_as_many_as_wanted t0 dur tps s : fe_reach t0 dur tps s →
  Z.of_nat (length (fe_players s)) ≤ Wanted dur tps ∧
  (fe_left s ≤ 0 → Z.of_nat (length (fe_players s)) = Wanted dur tps).
Proof. exact (wanted t0 dur tps s). Qed.
Print Assumptions C140_as_many_as_wanted.

(** In no second are more than [tps] players started, and the [k]th is not started before
    its second. *)
Theorem C140_starts_not_faster t0 dur tps s : fe_reach t0 dur tps s →
  (∀ t, Z.of_nat (Within t giga (starts s)) ≤ Z.max 0 tps) ∧
  (∀ k x, starts s !! k = Some x → t0 + (Z.of_nat k `div` tps) * giga ≤ x).
Proof. exact (not_faster t0 dur tps s). Qed.
Print Assumptions C140_starts_not_faster.

(** The full claim about the rate: tickets are not created faster than configured. False:
    started goroutines may be late. *)
Definition C140_created_not_faster : Prop :=
  ∀ t0 dur tps s t, fe_reach t0 dur tps s → Z.of_nat (Within t giga (creating s)) ≤ Z.max 0 tps.
Theorem C140_created_not_faster_refuted : ¬ C140_created_not_faster.
Proof. exact late_players. Qed.
Print Assumptions C140_created_not_faster_refuted.

(** The calls of ActivateTickets carry, in order and each once, the ids that players put in
    the channel, 1 to 500 in a call; the others are in the channel or about to be sent. *)
Theorem C140_each_id_once t0 dur tps s : fe_reach t0 dur tps s →
  (∃ rest, queued_ids s ≡ₚ activated_ids s ++ rest) ∧ activated_ids s `prefix_of` a_arrived (fe_act s) ∧
  a_arrived (fe_act s) ≡ₚ queued_ids s ∧ Forall LegalBatch (calls_made s).*1.
Proof. exact (each_id_once t0 dur tps s). Qed.
Print Assumptions C140_each_id_once.

(** Whatever has happened, all the work can still be done. *)
Theorem C140_never_stuck t0 dur tps s : fe_reach t0 dur tps s →
  ∃ s', rtc (fe_step tps) s s' ∧ AllDone dur tps s'.
Proof. exact (never_stuck t0 dur tps s). Qed.
Print Assumptions C140_never_stuck.

(** And under fair scheduling, if calls are answered, it is done: all tickets are created,
    the id of each has been sent for activation once, and the calls have ended. *)
Theorem C140_all_sent_for_activation t0 dur tps f :
  Execution (fe_step tps) f → FairFrontend tps f → fe_reach t0 dur tps (f 0%nat) →
  ∃ n, ∀ m, (n <= m)%nat → AllDone dur tps (f m).
Proof. exact (all_done_at_last t0 dur tps f). Qed.
Print Assumptions C140_all_sent_for_activation.

(** There are such executions, from every state that can be reached. *)
Theorem C140_fair_executions t0 dur tps s : fe_reach t0 dur tps s →
  ∃ f, f 0%nat = s ∧ Execution (fe_step tps) f ∧ FairFrontend tps f.
Proof. exact (fair_frontend_exists t0 dur tps s). Qed.
Print Assumptions C140_fair_executions.

(** One player, whose ticket gets the id 1-0. *)
Example C140_example : ∃ s, fe_reach 0 1 1 s ∧ fe_players s = [(0, PQueued "1-0")] ∧
  calls_made s = [(["1-0"%string], CallDone)] ∧ a_phase_of (fe_act s) = AReturned.
Proof. exact one_player. Qed.
