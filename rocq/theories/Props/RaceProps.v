(** C121: the log message about failed deactivations. *)
From Coq Require Import String Lia.
From stdpp Require Import prelude strings list relations.
From Verif.Model Require Import Race.
From Verif.Spec Require Import RaceSpec.
From Verif.Proofs Require Import RaceLemmas.
Local Open Scope string_scope.
Local Open Scope list_scope.

(** First claim: no execution of a function goroutine and its match goroutines has a
    data race. *)
Definition C121_no_race : Prop := ∀ tr s, r_run tr s → ¬ HasRace tr.

(** One match, one of its tickets can not be deactivated; meanwhile the function ends
    its stream. *)
Definition c121_trace : trace :=
  [(Fn, AWr ENil); (Fn, AWr ENil); (Fn, ARd ENil); (Fn, AWr ENil); (Fn, ARd ENil);
   (Fn, AWr ENil); (Fn, ARd ENil); (Fn, AGo 0);
   (Mg 0, ADeact [EErr "no connection"]);
   (Fn, AWr EEof);
   (Mg 0, ARd EEof)].

Lemma c121_trace_runs : r_run c121_trace (RState F_recvd EEof [M_rest]).
Proof.
  unfold c121_trace.
  pose proof R_start as H.
  pose proof (R_more _ _ _ _ H (R_decl _ _)) as H1. clear H.
  pose proof (R_more _ _ _ _ H1 (R_dial _ ENil _)) as H2. clear H1.
  pose proof (R_more _ _ _ _ H2 (R_dialled _ _)) as H3. clear H2.
  pose proof (R_more _ _ _ _ H3 (R_run _ ENil _)) as H4. clear H3.
  pose proof (R_more _ _ _ _ H4 (R_ran _ _)) as H5. clear H4.
  pose proof (R_more _ _ _ _ H5 (R_recv _ ENil _)) as H6. clear H5.
  pose proof (R_more _ _ _ _ H6 (R_recvd _ _)) as H7. clear H6.
  pose proof (R_more _ _ _ _ H7 (R_go _ _)) as H8. clear H7.
  pose proof (R_more _ _ _ _ H8 (R_deact F_recv ENil [M_start] 0 [EErr "no connection"] eq_refl)) as H9. clear H8.
  pose proof (R_more _ _ _ _ H9 (R_recv _ EEof _)) as H10. clear H9.
  exact (R_more _ _ _ _ H10 (R_log F_recvd EEof [M_failed] 0 eq_refl)).
Qed.

Theorem C121_no_race_refuted : ¬ C121_no_race.
Proof.
  intros H. apply (H _ _ c121_trace_runs). apply (race_iff _ _ c121_trace_runs).
  exists 0, 10, EEof, 9, EEof, 7. unfold Logged. repeat split. simpl. lia.
Qed.
Print Assumptions C121_no_race_refuted.

(** Exactly: there is a race if and only if a match goroutine logs a failed
    deactivation and the function goroutine has received again since it started that
    goroutine. *)
Theorem C121_race_iff : ∀ tr s, r_run tr s →
  HasRace tr ↔ ∃ k i v j w g, Logged tr i k v ∧ tr !! g = Some (Fn, AGo k) ∧
    g < j ∧ tr !! j = Some (Fn, AWr w).
Proof. exact race_iff. Qed.
Print Assumptions C121_race_iff.

(** What remains of the claim: without failed deactivations there is no race. Missing:
    executions in which some deactivation failed. *)
Theorem C121_no_race_partial : ∀ tr s, r_run tr s → AllDeactivated tr → ¬ HasRace tr.
Proof. exact no_race_if_deactivated. Qed.
Print Assumptions C121_no_race_partial.

(** And nothing more can be kept: every execution that comes to the end of the
    function goroutine and has such a log message has a race. *)
Theorem C121_every_message_races : ∀ tr s i k v,
  r_run tr s → r_pc s = F_ret → Logged tr i k v → HasRace tr.
Proof. exact race_when_returned. Qed.
Print Assumptions C121_every_message_races.

(** A function goroutine whose stream has ended without an error returns after all
    the match goroutines it started. *)
Theorem C121_waits_for_matches : ∀ tr s g k,
  r_run tr s → r_pc s = F_ret → r_err s = EEof → tr !! g = Some (Fn, AGo k) → ∃ d, tr !! d = Some (Mg k, ADone).
Proof. exact eof_waits. Qed.
Print Assumptions C121_waits_for_matches.

(** Second claim: the message names one of the errors. *)
Definition C121_names_error : Prop := ∀ tr s i k v d errs,
  r_run tr s → Logged tr i k v → tr !! d = Some (Mg k, ADeact errs) → v ∈ errs.

Theorem C121_names_error_refuted : ¬ C121_names_error.
Proof.
  intros H.
  assert (Hin : EEof ∈ [EErr "no connection"])
    by exact (H _ _ 10 0 EEof 8 _ c121_trace_runs eq_refl eq_refl).
  apply elem_of_list_singleton in Hin. done.
Qed.
Print Assumptions C121_names_error_refuted.

(** What it says instead: what was assigned to the function goroutine's [err] last. *)
Theorem C121_message_value : ∀ tr s i k v, r_run tr s → Logged tr i k v →
  ∃ j, j < i ∧ tr !! j = Some (Fn, AWr v) ∧ ∀ x g w, j < x → x < i → tr !! x ≠ Some (g, AWr w).
Proof. exact logged_value. Qed.
Print Assumptions C121_message_value.

(** That is nil, or the outcome of a Recv that came after the one with this match. *)
Theorem C121_nil_or_later_outcome : ∀ tr s i k v, r_run tr s → Logged tr i k v →
  v = ENil ∨ ∃ g j, tr !! g = Some (Fn, AGo k) ∧ g < j ∧ j < i ∧ tr !! j = Some (Fn, AWr v).
Proof. exact logged_nil_or_later. Qed.
Print Assumptions C121_nil_or_later_outcome.

(** What does hold: there is a message only if some deactivation of this match failed. *)
Theorem C121_names_error_partial : ∀ tr s i k v, r_run tr s → Logged tr i k v →
  ∃ d errs, d < i ∧ tr !! d = Some (Mg k, ADeact errs) ∧ errs ≠ [].
Proof. exact logged_after_failure. Qed.
Print Assumptions C121_names_error_partial.

(** The execution above, ended: it has a race, the message says EOF. *)
Definition c121_whole : trace :=
  c121_trace ++ [(Fn, ARd EEof); (Mg 0, ADone); (Fn, AWait); (Fn, ARd EEof)].

Lemma c121_whole_runs : r_run c121_whole (RState F_ret EEof [M_gone]).
Proof.
  pose proof c121_trace_runs as H.
  pose proof (R_more _ _ _ _ H (R_recvd _ _)) as H1. clear H.
  pose proof (R_more _ _ _ _ H1 (R_done F_wait EEof [M_rest] 0 eq_refl)) as H2. clear H1.
  pose proof (R_more _ _ _ _ H2 (R_wait _ [M_gone] (Forall_cons_2 _ _ _ eq_refl (Forall_nil_2 _)))) as H3. clear H2.
  exact (R_more _ _ _ _ H3 (R_end _ _)).
Qed.

Example C121_ex_race : HasRace c121_whole.
Proof. exact (C121_every_message_races _ _ 10 0 EEof c121_whole_runs eq_refl eq_refl). Qed.

(** Its first assignments and everything the match goroutine does are ordered. *)
Example C121_ex_ordered : HappensBefore c121_whole 5 10 ∧ HappensBefore c121_whole 10 14.
Proof.
  split.
  - apply tc_l with 7.
    + split; [lia|]. exists Fn, (AWr ENil), Fn, (AGo 0). auto.
    + apply tc_once. split; [lia|]. exists Fn, (AGo 0), (Mg 0), (ARd EEof).
      split; [done|]. split; [done|]. right. left. by exists 0.
  - apply tc_l with 12.
    + split; [lia|]. exists (Mg 0), (ARd EEof), (Mg 0), ADone. auto.
    + apply tc_l with 13.
      * split; [lia|]. exists (Mg 0), ADone, Fn, AWait. auto 10.
      * apply tc_once. split; [lia|]. exists Fn, AWait, Fn, (ARd EEof). auto.
Qed.

(** A match whose tickets were all deactivated: no race. *)
Definition c121_good : trace :=
  [(Fn, AWr ENil); (Fn, AWr ENil); (Fn, ARd ENil); (Fn, AWr ENil); (Fn, ARd ENil);
   (Fn, AWr ENil); (Fn, ARd ENil); (Fn, AGo 0); (Fn, AWr EEof); (Mg 0, ADeact [])].

Example C121_ex_good : (∃ s, r_run c121_good s) ∧ ¬ HasRace c121_good.
Proof.
  assert (HH : r_run c121_good (RState F_recvd EEof [M_rest])).
  { pose proof R_start as H.
    pose proof (R_more _ _ _ _ H (R_decl _ _)) as H1. clear H.
    pose proof (R_more _ _ _ _ H1 (R_dial _ ENil _)) as H2. clear H1.
    pose proof (R_more _ _ _ _ H2 (R_dialled _ _)) as H3. clear H2.
    pose proof (R_more _ _ _ _ H3 (R_run _ ENil _)) as H4. clear H3.
    pose proof (R_more _ _ _ _ H4 (R_ran _ _)) as H5. clear H4.
    pose proof (R_more _ _ _ _ H5 (R_recv _ ENil _)) as H6. clear H5.
    pose proof (R_more _ _ _ _ H6 (R_recvd _ _)) as H7. clear H6.
    pose proof (R_more _ _ _ _ H7 (R_go _ _)) as H8. clear H7.
    pose proof (R_more _ _ _ _ H8 (R_recv _ EEof _)) as H9. clear H8.
    exact (R_more _ _ _ _ H9 (R_deact F_recvd EEof [M_start] 0 [] eq_refl)). }
  split; [by eexists|]. apply (C121_no_race_partial _ _ HH).
  intros i g errs Hi. do 10 (destruct i as [|i]; [by inversion Hi|]). done.
Qed.
