(** The theorems about the mock frontend as they are stated, and two runs. *)
From Coq Require Import Ascii String ZArith NArith Lia ZifyBool.
From stdpp Require Import prelude strings gmap.
From Verif.Model Require Import GoStrings Types Invoke Matchmaker MockFrontend MockRun.
From Verif.Spec Require Import MatchmakerSpec FairSpec MockRunSpec.
From Verif.Proofs Require Import WatchLemmas MatchmakerLemmas MockRunLemmas MockRunLive.
Local Open Scope Z_scope.

Lemma wanted t0 dur tps s : fe_reach t0 dur tps s →
  Z.of_nat (length (fe_players s)) ≤ Wanted dur tps ∧
  (fe_left s ≤ 0 → Z.of_nat (length (fe_players s)) = Wanted dur tps).
Proof.
  intros Hr. pose proof (gen_reach t0 dur tps s Hr) as [G1 G2 G3 G4 G5 G6 G7]. unfold Wanted.
  destruct (decide (0 < dur)) as [Hd|Hd].
  - specialize (G3 Hd). rewrite (G7 Hd), (Z.max_r 0 dur) by lia. split.
    + destruct (decide (fe_left s ≤ 0)) as [Hl|Hl]; [destruct (G5 Hl)|]; nia.
    + intros Hl. destruct (G5 Hl) as [-> _]. replace (fe_left s) with 0 by lia. lia.
  - destruct (G2 ltac:(lia)) as [_ ->]. rewrite (Z.max_l 0 dur) by lia. cbn. lia.
Qed.

Lemma not_faster t0 dur tps s : fe_reach t0 dur tps s →
  (∀ t, Z.of_nat (Within t giga (starts s)) ≤ Z.max 0 tps) ∧
  (∀ k x, starts s !! k = Some x → t0 + (Z.of_nat k `div` tps) * giga ≤ x).
Proof. intros Hr. split; [intros t; by apply (rate t0 dur)|apply (ti_pace _ _ _ _ (time_reach _ _ _ _ Hr))]. Qed.

Lemma each_id_once t0 dur tps s : fe_reach t0 dur tps s →
  (∃ rest, queued_ids s ≡ₚ activated_ids s ++ rest) ∧ activated_ids s `prefix_of` a_arrived (fe_act s) ∧
  a_arrived (fe_act s) ≡ₚ queued_ids s ∧ Forall LegalBatch (calls_made s).*1.
Proof.
  intros Hr. pose proof (id_reach t0 dur tps s Hr) as [H1 H2 _ _ H5 _ _]. split_and!; try done.
  - exists (held (fe_act s) ++ a_queue (fe_act s))%list. by rewrite <-H2, <-H1.
  - rewrite H1. by eexists.
Qed.

Lemma never_stuck t0 dur tps s : fe_reach t0 dur tps s →
  ∃ s', rtc (fe_step tps) s s' ∧ AllDone dur tps s'.
Proof. intros Hr. destruct (fe_can_finish t0 dur tps s Hr) as (s' & Hs & Hd & _). by exists s'. Qed.

Lemma late_players : ¬ ∀ t0 dur tps s t, fe_reach t0 dur tps s → Z.of_nat (Within t giga (creating s)) ≤ Z.max 0 tps.
Proof.
  intros H.
  assert (∃ s, fe_reach 0 2 1 s ∧ creating s = [giga; giga]) as (s & Hr & Hc).
  { eexists. split.
    - eapply rtc_l; [apply F_start; cbn; [lia|done|lia]|]. cbn.
      eapply rtc_l; [apply F_sleep; cbn; [lia|done|lia]|]. cbn.
      eapply rtc_l; [apply (F_time _ giga); unfold giga; lia|]. cbn.
      eapply rtc_l; [eapply F_wake; cbn; [done|unfold giga; lia]|]. cbn.
      eapply rtc_l; [apply F_start; cbn; [lia|done|lia]|]. cbn.
      eapply rtc_l; [apply (F_create _ _ 0%nat 0 0%N 0); [done|lia]|].
      eapply rtc_l; [eapply (F_create _ _ 1%nat _ 0%N 1); [cbn -[mock_ticket]; done|lia]|]. apply rtc_refl.
    - vm_compute. done. }
  specialize (H 0 2 1 s giga Hr). rewrite Hc in H. vm_compute in H. done.
Qed.

Lemma one_player : ∃ s, fe_reach 0 1 1 s ∧ fe_players s = [(0, PQueued "1-0")] ∧
  calls_made s = [(["1-0"%string], CallDone)] ∧ a_phase_of (fe_act s) = AReturned.
Proof.
  eexists. split.
  - eapply rtc_l; [apply F_start; cbn; [lia|done|lia]|]. cbn.
    eapply rtc_l; [apply (F_create _ _ 0%nat 0 0%N 0); [done|lia]|]. cbn -[mock_ticket].
    eapply rtc_l; [eapply (F_answer _ _ 0%nat _ _ (Some "1-0"%string)); cbn -[mock_ticket]; done|]. cbn -[mock_ticket].
    eapply rtc_l; [eapply (F_queue _ _ 0%nat); cbn; [done|done|reflexivity]|]. cbn.
    eapply rtc_l; [eapply F_activate; cbn; [apply A_recv|done]|]. cbn.
    eapply rtc_l; [eapply F_activate; cbn; [apply A_default|done]|]. cbn.
    eapply rtc_l; [eapply F_activate; cbn; [by apply A_send|done]|]. cbn.
    eapply rtc_l; [eapply F_activate; cbn; [by apply (A_start 0%nat)|done]|]. cbn.
    eapply rtc_l; [eapply F_activate; cbn; [by apply (A_finish 0%nat)|done]|]. cbn.
    eapply rtc_l; [eapply F_activate; cbn; [apply A_return; by repeat constructor|done]|]. apply rtc_refl.
  - by split_and!.
Qed.
