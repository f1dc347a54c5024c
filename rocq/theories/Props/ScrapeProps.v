(** C136: a scrape of the metrics reports one expiration cycle. *)
From Coq Require Import ZArith NArith Lia.
From stdpp Require Import prelude relations.
From Verif.Model Require Import Scrape.
From Verif.Spec Require Import ScrapeSpec.
From Verif.Proofs Require Import ScrapeLemmas.
Local Open Scope Z_scope.

(** False: the variables of two cycles are mixed. *)
Definition gx_mixed : report := Report (- 5) 5 0.
Lemma gx_possible : ∃ s, greach s ∧ g_cycles s = [Counts 5 5 0] ∧ gx_mixed ∈ g_reports s.
Proof. apply mixed_possible. exists 0%nat, 1%nat, 1%nat, 1%nat. split; [cbn; lia|reflexivity]. Qed.
Theorem C136_one_cycle_refuted : ¬ ReportsOneCycle.
Proof.
  intros H. destruct gx_possible as (s & Hr & Hc & Ho). destruct (H s _ Hr Ho) as (k & Hk & E). rewrite Hc in *.
  destruct k as [|[|k]]; [done|done|cbn in Hk; lia].
Qed.
Print Assumptions C136_one_cycle_refuted.
(** A number of active tickets below zero is reported although there are never more
    inactive ids than tickets. *)
Theorem C136_not_negative_refuted : ¬ ReportsNotNegative.
Proof.
  intros H. destruct gx_possible as (s & Hr & Hc & Ho). specialize (H s _ Hr Ho). rewrite Hc in H.
  assert (0 <= rp_active gx_mixed); [|done]. apply H. intros c [-> | []%elem_of_nil]%elem_of_cons. cbn. lia.
Qed.
Print Assumptions C136_not_negative_refuted.
(** A data race: TicketCount is about to be written and about to be read. *)
Theorem C136_no_race_refuted : ¬ NoRace.
Proof.
  intros H. apply (H (Gauges 0 0 0 (WTickets (Counts 5 5 0)) RIdle [Counts 5 5 0] [])); [|done].
  eapply rtc_once, (G_assignments 0 0 0 RIdle [] [] (Counts 5 5 0)).
Qed.
Print Assumptions C136_no_race_refuted.

(** Exactly which reports are possible. *)
Theorem C136_reports_exactly : ∀ cs o, (∃ s, greach s ∧ g_cycles s = cs ∧ o ∈ g_reports s) ↔ Mixed cs o.
Proof. exact reports_exactly. Qed.
Print Assumptions C136_reports_exactly.

(** A scrape between two cycles reports the last one. *)
Theorem C136_quiet_partial : ∀ s, greach s → g_w s = WIdle → g_r s = RIdle → ∃ s', rtc gstep s s' ∧ g_cycles s' = g_cycles s ∧
  g_reports s' = g_reports s ++ [ReportOf (cycle (g_cycles s) (length (g_cycles s)))].
Proof. exact report_quiet. Qed.
Print Assumptions C136_quiet_partial.

(** If all cycles tally the same, a wrong report can only come from a scrape that began
    before the first was finished. *)
Theorem C136_steady : ∀ s o c, greach s → o ∈ g_reports s →
  (∀ k, (1 ≤ k ≤ length (g_cycles s))%nat → cycle (g_cycles s) k = c) →
  (rp_inactive o = 0 ∨ rp_inactive o = n_inactive c) ∧ (rp_assignments o = 0 ∨ rp_assignments o = n_assignments c) ∧
  (rp_active o = 0 ∨ rp_active o = n_tickets c ∨ rp_active o = - n_inactive c ∨ rp_active o = n_tickets c - n_inactive c).
Proof. exact reports_still. Qed.
Print Assumptions C136_steady.

Example C136_example :
  Mixed [Counts 10 2 0; Counts 8 7 3] (Report 3 7 3) ∧ Mixed [Counts 10 2 0; Counts 8 7 3] (Report 6 2 3) ∧
  Mixed [Counts 10 2 0; Counts 8 7 3] (Report 1 7 3) ∧ ¬ Mixed [Counts 10 2 0; Counts 8 7 3] (Report 1 7 0).
Proof.
  split; [exists 1%nat, 2%nat, 2%nat, 2%nat; split; [cbn; lia|reflexivity]|].
  split; [exists 2%nat, 1%nat, 1%nat, 2%nat; split; [cbn; lia|reflexivity]|].
  split; [exists 2%nat, 2%nat, 2%nat, 2%nat; split; [cbn; lia|reflexivity]|].
  intros (a & b & b' & c & H & E). injection E as E1 E2 E3.
  destruct b' as [|[|[|]]]; cbn in *; try lia. destruct c as [|[|[|]]]; cbn in *; try lia.
Qed.
