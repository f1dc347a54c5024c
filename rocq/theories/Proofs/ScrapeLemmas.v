(** Scrapes of the gauges. *)
From Coq Require Import ZArith NArith Lia.
From stdpp Require Import prelude relations.
From Verif.Model Require Import Scrape.
From Verif.Spec Require Import ScrapeSpec.
Local Open Scope Z_scope.

(** The position of the writer is the number of its writes. After [w] writes the
    variables have the values of these cycles. *)
Definition ta (w : nat) : nat := (w + 1) / 3.
Definition ia (w : nat) : nat := w / 3.
Definition aa (w : nat) : nat := (w + 2) / 3.

Lemma cycle_app cs c k : (k ≤ length cs)%nat → cycle (cs ++ [c]) k = cycle cs k.
Proof. intros H. unfold cycle. rewrite app_comm_cons, app_nth1; [done|]. cbn. lia. Qed.
Lemma cycle_last cs c : cycle (cs ++ [c]) (S (length cs)) = c.
Proof. unfold cycle. cbn [nth]. rewrite app_nth2 by lia. by rewrite Nat.sub_diag. Qed.

Definition read_ok (cs : list counts) (w : nat) (r : reader) : Prop :=
  match r with
  | RIdle => True
  | RTickets t => ∃ w1, (w1 ≤ w)%nat ∧ t = n_tickets (cycle cs (ta w1))
  | RActive t i => ∃ w1 w2, (w1 ≤ w2 ≤ w)%nat ∧ t = n_tickets (cycle cs (ta w1)) ∧ i = n_inactive (cycle cs (ia w2))
  | RInactive t i i' => ∃ w1 w2 w3, (w1 ≤ w2 ∧ w2 ≤ w3 ≤ w)%nat ∧ t = n_tickets (cycle cs (ta w1)) ∧
      i = n_inactive (cycle cs (ia w2)) ∧ i' = n_inactive (cycle cs (ia w3))
  end.
Definition report_ok (cs : list counts) (w : nat) (o : report) : Prop := ∃ w1 w2 w3 w4,
  (w1 ≤ w2 ∧ w2 ≤ w3 ∧ w3 ≤ w4 ≤ w)%nat ∧
  o = Report (n_tickets (cycle cs (ta w1)) - n_inactive (cycle cs (ia w2))) (n_inactive (cycle cs (ia w3))) (n_assignments (cycle cs (aa w4))).
Definition writes_ok (cs : list counts) (w : nat) (g : writer) : Prop :=
  match g with
  | WIdle => ∃ k, w = (3 * k)%nat
  | WTickets c => ∃ k, w = (3 * k + 1)%nat ∧ c = cycle cs (S k)
  | WInactive c => ∃ k, w = (3 * k + 2)%nat ∧ c = cycle cs (S k)
  end.
Record ginv (s : gauges) (w : nat) : Prop := {
  gi_len : length (g_cycles s) = aa w;
  gi_t : g_tickets s = n_tickets (cycle (g_cycles s) (ta w));
  gi_i : g_inactive s = n_inactive (cycle (g_cycles s) (ia w));
  gi_a : g_assignments s = n_assignments (cycle (g_cycles s) (aa w));
  gi_w : writes_ok (g_cycles s) w (g_w s);
  gi_r : read_ok (g_cycles s) w (g_r s);
  gi_o : ∀ o, o ∈ g_reports s → report_ok (g_cycles s) w o
}.

Lemma read_ok_mono cs w w' r : (w ≤ w')%nat → read_ok cs w r → read_ok cs w' r.
Proof.
  intros Hw. destruct r; cbn [read_ok]; [done| | |].
  - intros (w1 & ? & ?). exists w1. split; [lia|done].
  - intros (w1 & w2 & ? & ?). exists w1, w2. split; [lia|done].
  - intros (w1 & w2 & w3 & ? & ?). exists w1, w2, w3. split; [lia|done].
Qed.
Lemma report_ok_mono cs w w' o : (w ≤ w')%nat → report_ok cs w o → report_ok cs w' o.
Proof. intros Hw (w1 & w2 & w3 & w4 & ? & ?). exists w1, w2, w3, w4. split; [lia|done]. Qed.
Lemma idx_le w w' : (w' ≤ w → ta w' ≤ aa w ∧ ia w' ≤ aa w ∧ aa w' ≤ aa w)%nat.
Proof.
  intros H. unfold ta, ia, aa. repeat split; apply Nat.div_le_mono; lia.
Qed.
Lemma read_ok_app cs c w r : length cs = aa w → read_ok cs w r → read_ok (cs ++ [c]) w r.
Proof.
  intros Hl. destruct r; cbn [read_ok]; [done| | |].
  - intros (w1 & ? & ->). exists w1. split; [done|]. destruct (idx_le w w1); [lia|]. by rewrite cycle_app by lia.
  - intros (w1 & w2 & ? & -> & ->). exists w1, w2. split; [done|]. destruct (idx_le w w1) as [? _]; [lia|].
    destruct (idx_le w w2) as (_ & ? & _); [lia|]. by rewrite !cycle_app by lia.
  - intros (w1 & w2 & w3 & ? & -> & -> & ->). exists w1, w2, w3. split; [done|]. destruct (idx_le w w1) as [? _]; [lia|].
    destruct (idx_le w w2) as (_ & ? & _); [lia|]. destruct (idx_le w w3) as (_ & ? & _); [lia|]. by rewrite !cycle_app by lia.
Qed.
Lemma report_ok_app cs c w o : length cs = aa w → report_ok cs w o → report_ok (cs ++ [c]) w o.
Proof.
  intros Hl (w1 & w2 & w3 & w4 & ? & ->). exists w1, w2, w3, w4. split; [done|]. destruct (idx_le w w1) as [? _]; [lia|].
  destruct (idx_le w w2) as (_ & ? & _); [lia|]. destruct (idx_le w w3) as (_ & ? & _); [lia|].
  destruct (idx_le w w4) as (_ & _ & ?); [lia|]. by rewrite !cycle_app by lia.
Qed.
Lemma at0 k : (ta (3 * k) = k ∧ ia (3 * k) = k ∧ aa (3 * k) = k)%nat.
Proof. unfold ta, ia, aa. repeat split; symmetry; [apply (Nat.div_unique _ 3 _ 1)|apply (Nat.div_unique _ 3 _ 0)|apply (Nat.div_unique _ 3 _ 2)]; lia. Qed.
Lemma at1 k : (ta (3 * k + 1) = k ∧ ia (3 * k + 1) = k ∧ aa (3 * k + 1) = S k)%nat.
Proof. unfold ta, ia, aa. repeat split; symmetry; [apply (Nat.div_unique _ 3 _ 2)|apply (Nat.div_unique _ 3 _ 1)|apply (Nat.div_unique _ 3 _ 0)]; lia. Qed.
Lemma at2 k : (ta (3 * k + 2) = S k ∧ ia (3 * k + 2) = k ∧ aa (3 * k + 2) = S k)%nat.
Proof. unfold ta, ia, aa. repeat split; symmetry; [apply (Nat.div_unique _ 3 _ 0)|apply (Nat.div_unique _ 3 _ 2)|apply (Nat.div_unique _ 3 _ 1)]; lia. Qed.

Lemma gstep_inv s s' w : gstep s s' → ginv s w → ∃ w', ginv s' w' ∧ (w ≤ w')%nat.
Proof.
  destruct 1 as [t i a r cs rs c|t i a r cs rs c|t i a r cs rs c|t i a g cs rs|t i a g cs rs x|t i a g cs rs x y|t i a g cs rs x y z];
    intros [I1 I2 I3 I4 I5 I6 I7]; cbn [g_tickets g_inactive g_assignments g_w g_r g_cycles g_reports] in *.
  - destruct I5 as [k ->]. destruct (at0 k) as (E1 & E2 & E3). destruct (at1 k) as (F1 & F2 & F3). rewrite E1, E2, E3 in *.
    exists (3 * k + 1)%nat. split; [|lia]. split; cbn [g_tickets g_inactive g_assignments g_w g_r g_cycles g_reports]; rewrite ?F1, ?F2, ?F3.
    + rewrite app_length. cbn. lia.
    + by rewrite cycle_app by lia.
    + by rewrite cycle_app by lia.
    + by rewrite <-I1, cycle_last.
    + exists k. split; [done|]. by rewrite <-I1, cycle_last.
    + eapply read_ok_mono; [|apply read_ok_app; [|exact I6]]; [lia|congruence].
    + intros o Ho. eapply report_ok_mono; [|apply report_ok_app; [|exact (I7 o Ho)]]; [lia|congruence].
  - destruct I5 as (k & -> & Ec). destruct (at1 k) as (E1 & E2 & E3). destruct (at2 k) as (F1 & F2 & F3). rewrite E1, E2, E3 in *.
    exists (3 * k + 2)%nat. split; [|lia]. split; cbn [g_tickets g_inactive g_assignments g_w g_r g_cycles g_reports]; rewrite ?F1, ?F2, ?F3; try done.
    + by rewrite Ec.
    + by exists k.
    + eapply read_ok_mono; [|exact I6]. lia.
    + intros o Ho. eapply report_ok_mono; [|exact (I7 o Ho)]. lia.
  - destruct I5 as (k & -> & Ec). destruct (at2 k) as (E1 & E2 & E3). destruct (at0 (S k)) as (F1 & F2 & F3). rewrite E1, E2, E3 in *.
    exists (3 * S k)%nat. split; [|lia]. split; cbn [g_tickets g_inactive g_assignments g_w g_r g_cycles g_reports]; rewrite ?F1, ?F2, ?F3; try done.
    + by rewrite Ec.
    + by exists (S k).
    + eapply read_ok_mono; [|exact I6]. lia.
    + intros o Ho. eapply report_ok_mono; [|exact (I7 o Ho)]. lia.
  - exists w. split; [|lia]. split; cbn [g_tickets g_inactive g_assignments g_w g_r g_cycles g_reports]; try done.
    exists w. by split.
  - exists w. split; [|lia]. split; cbn [g_tickets g_inactive g_assignments g_w g_r g_cycles g_reports]; try done.
    destruct I6 as (w1 & ? & ?). by exists w1, w.
  - exists w. split; [|lia]. split; cbn [g_tickets g_inactive g_assignments g_w g_r g_cycles g_reports]; try done.
    destruct I6 as (w1 & w2 & ? & ? & ?). exists w1, w2, w. repeat split; try lia; done.
  - exists w. split; [|lia]. split; cbn [g_tickets g_inactive g_assignments g_w g_r g_cycles g_reports]; try done.
    intros o [Ho|Ho%elem_of_list_singleton]%elem_of_app; [by apply I7|]. subst o.
    destruct I6 as (w1 & w2 & w3 & ? & -> & -> & ->). exists w1, w2, w3, w. split; [lia|]. by rewrite I4.
Qed.
Lemma greach_inv s : greach s → ∃ w, ginv s w.
Proof.
  revert s. apply rtc_ind_r.
  - exists 0%nat. split; cbn; try done; try (by exists 0%nat). intros o Ho. by apply elem_of_nil in Ho.
  - intros y z _ Hs [w I]. destruct (gstep_inv _ _ _ Hs I) as (w' & I' & _). by exists w'.
Qed.

Lemma reports_mixed s o : greach s → o ∈ g_reports s → Mixed (g_cycles s) o.
Proof.
  intros [w I]%greach_inv Ho. destruct (gi_o _ _ I o Ho) as (w1 & w2 & w3 & w4 & Hw & ->).
  exists (ta w1), (ia w2), (ia w3), (aa w4). split; [|done]. rewrite (gi_len _ _ I). unfold ta, ia, aa.
  assert ((w1 + 1) / 3 ≤ S (w2 / 3))%nat.
  { change (S (w2 / 3)) with (1 + w2 / 3)%nat. rewrite <-Nat.div_add_l by lia. apply Nat.div_le_mono; lia. }
  repeat split; try done; apply Nat.div_le_mono; lia.
Qed.

(** ** Every such report can be made *)

(** The writer goes on to write number [w] of the cycles [cs]. *)
Definition at_pos (cs : list counts) (w : nat) (r : reader) (rs : list report) : gauges :=
  Gauges (n_tickets (cycle cs (ta w))) (n_inactive (cycle cs (ia w))) (n_assignments (cycle cs (aa w)))
    (match (w mod 3)%nat with O => WIdle | 1%nat => WTickets (cycle cs (aa w)) | _ => WInactive (cycle cs (aa w)) end)
    r (take (aa w) cs) rs.
Lemma mods k : ((3 * k) mod 3 = 0 ∧ (3 * k + 1) mod 3 = 1 ∧ (3 * k + 2) mod 3 = 2)%nat.
Proof. repeat split; symmetry; [apply (Nat.mod_unique _ 3 k 0)|apply (Nat.mod_unique _ 3 k 1)|apply (Nat.mod_unique _ 3 k 2)]; lia. Qed.
Lemma writer_step cs w r rs : (w < 3 * length cs)%nat → gstep (at_pos cs w r rs) (at_pos cs (S w) r rs).
Proof.
  intros Hw. pose proof (Nat.div_mod_eq w 3) as E. pose proof (Nat.mod_upper_bound w 3 ltac:(lia)) as Hm.
  set (k := (w / 3)%nat) in *. clearbody k. unfold at_pos.
  destruct (mods k) as (M0 & M1 & M2). destruct (mods (S k)) as (M3 & _).
  destruct (at0 k) as (A1 & A2 & A3). destruct (at1 k) as (B1 & B2 & B3). destruct (at2 k) as (C1 & C2 & C3). destruct (at0 (S k)) as (D1 & D2 & D3).
  assert (w mod 3 = 0 ∨ w mod 3 = 1 ∨ w mod 3 = 2)%nat as [Er|[Er|Er]] by lia; rewrite Er in E.
  - replace (S w) with (3 * k + 1)%nat by lia. replace w with (3 * k)%nat by lia.
    rewrite M0, M1, A1, A2, A3, B1, B2, B3.
    destruct (lookup_lt_is_Some_2 cs k) as [c Hc]; [lia|].
    rewrite (take_S_r _ _ _ Hc). replace (cycle cs (S k)) with c; [apply G_assignments|].
    unfold cycle. cbn [nth]. by rewrite (nth_lookup_Some _ _ _ _ Hc).
  - replace (S w) with (3 * k + 2)%nat by lia. replace w with (3 * k + 1)%nat by lia.
    rewrite M1, M2, B1, B2, B3, C1, C2, C3. apply G_tickets.
  - replace (S w) with (3 * S k)%nat by lia. replace w with (3 * k + 2)%nat by lia.
    rewrite M2, M3, C1, C2, C3, D1, D2, D3. apply G_inactive.
Qed.
Lemma writer_steps cs w w' r rs : (w ≤ w' ≤ 3 * length cs)%nat → rtc gstep (at_pos cs w r rs) (at_pos cs w' r rs).
Proof.
  intros [H1 H2]. induction H1 as [|w' H1 IH]; [done|]. eapply rtc_r; [apply IH; lia|]. apply writer_step. lia.
Qed.
Lemma report_possible cs w1 w2 w3 w4 : (w1 ≤ w2 ∧ w2 ≤ w3 ∧ w3 ≤ w4 ∧ w4 ≤ 3 * length cs)%nat →
  ∃ s, greach s ∧ g_cycles s = cs ∧
    Report (n_tickets (cycle cs (ta w1)) - n_inactive (cycle cs (ia w2))) (n_inactive (cycle cs (ia w3))) (n_assignments (cycle cs (aa w4))) ∈ g_reports s.
Proof.
  intros H. exists (at_pos cs (3 * length cs) RIdle
    [Report (n_tickets (cycle cs (ta w1)) - n_inactive (cycle cs (ia w2))) (n_inactive (cycle cs (ia w3))) (n_assignments (cycle cs (aa w4)))]).
  destruct (at0 (length cs)) as (_ & _ & E). split; [|split].
  - unfold greach. change gauges0 with (at_pos cs 0 RIdle []).
    etrans; [apply (writer_steps cs 0 w1); lia|]. eapply rtc_l; [apply G_read_tickets|].
    etrans; [apply (writer_steps cs w1 w2 (RTickets _)); lia|]. eapply rtc_l; [apply G_read_inactive|].
    etrans; [apply (writer_steps cs w2 w3 (RActive _ _)); lia|]. eapply rtc_l; [apply G_read_inactive2|].
    etrans; [apply (writer_steps cs w3 w4 (RInactive _ _ _)); lia|]. eapply rtc_l; [apply G_read_assignments|].
    apply (writer_steps cs w4). lia.
  - cbn [at_pos g_cycles]. by rewrite E, take_ge.
  - cbn [at_pos g_reports]. by left.
Qed.
Lemma mixed_possible cs o : Mixed cs o → ∃ s, greach s ∧ g_cycles s = cs ∧ o ∈ g_reports s.
Proof.
  intros (a & b & b' & c & H & ->).
  set (w1 := if decide (a = 0)%nat then 0%nat else (3 * (a - 1) + 2)%nat).
  set (w2 := Nat.max w1 (3 * b)). set (w3 := Nat.max w2 (3 * b')). set (w4 := Nat.max w3 (3 * c - 2)).
  assert (E1 : ta w1 = a).
  { unfold w1. destruct (decide (a = 0)%nat) as [->|Ha]; [done|]. destruct (at2 (a - 1)) as (E & _). rewrite E. lia. }
  assert (Hw1 : (w1 = 0 ∧ a = 0 ∨ w1 = 3 * (a - 1) + 2 ∧ a ≠ 0)%nat) by (unfold w1; destruct (decide (a = 0)%nat); lia).
  assert (E2 : ia w2 = b).
  { destruct (decide (3 * b < w1)%nat) as [Hlt|Hge].
    - replace w2 with (3 * b + 2)%nat by lia. apply at2.
    - replace w2 with (3 * b)%nat by lia. apply at0. }
  assert (E3 : ia w3 = b').
  { destruct (decide (3 * b' < w2)%nat) as [Hlt|Hge].
    - replace w3 with w2 by lia. rewrite E2. lia.
    - replace w3 with (3 * b')%nat by lia. apply at0. }
  assert (E4 : aa w4 = c).
  { destruct (decide (c = 0)%nat) as [->|Hc]; [replace w4 with 0%nat by lia; done|].
    destruct (decide (3 * c - 2 < w3)%nat) as [Hlt|Hge].
    - assert (w4 = 3 * c ∨ w4 = 3 * (c - 1) + 2)%nat as [-> | ->] by lia; [apply at0|]. destruct (at2 (c - 1)) as (_ & _ & E). rewrite E. lia.
    - replace w4 with (3 * (c - 1) + 1)%nat by lia. destruct (at1 (c - 1)) as (_ & _ & E). rewrite E. lia. }
  destruct (report_possible cs w1 w2 w3 w4) as (s & Hr & Hc & Ho); [lia|]. rewrite E1, E2, E3, E4 in Ho. by exists s.
Qed.
Lemma reports_exactly cs o : (∃ s, greach s ∧ g_cycles s = cs ∧ o ∈ g_reports s) ↔ Mixed cs o.
Proof. split; [|apply mixed_possible]. intros (s & Hr & <- & Ho). by apply reports_mixed. Qed.

(** If nothing changed, the report is right. *)
Lemma reports_still s o c : greach s → o ∈ g_reports s → (∀ k, (1 ≤ k ≤ length (g_cycles s))%nat → cycle (g_cycles s) k = c) →
  (rp_inactive o = 0 ∨ rp_inactive o = n_inactive c) ∧ (rp_assignments o = 0 ∨ rp_assignments o = n_assignments c) ∧
  (rp_active o = 0 ∨ rp_active o = n_tickets c ∨ rp_active o = - n_inactive c ∨ rp_active o = n_tickets c - n_inactive c).
Proof.
  intros Hr Ho Hc. destruct (reports_mixed _ _ Hr Ho) as (a & b & b' & d & H & ->). cbn [rp_active rp_inactive rp_assignments].
  assert (Hz : ∀ k, (k ≤ length (g_cycles s))%nat → cycle (g_cycles s) k = c ∨ cycle (g_cycles s) k = Counts 0 0 0).
  { intros [|k] Hk; [by right|]. left. apply Hc. lia. }
  destruct (Hz a ltac:(lia)) as [-> | ->], (Hz b ltac:(lia)) as [-> | ->], (Hz b' ltac:(lia)) as [-> | ->], (Hz d ltac:(lia)) as [-> | ->];
    cbn; repeat split; lia.
Qed.

(** A scrape between two cycles reports the last one. *)
Lemma report_quiet s : greach s → g_w s = WIdle → g_r s = RIdle → ∃ s', rtc gstep s s' ∧ g_cycles s' = g_cycles s ∧
  g_reports s' = g_reports s ++ [ReportOf (cycle (g_cycles s) (length (g_cycles s)))].
Proof.
  intros [w I]%greach_inv Hw Hr. destruct s as [t i a g r cs rs]. cbn [g_w g_r g_cycles g_reports] in *. subst g r.
  destruct I as [I1 I2 I3 I4 [k ->] _ _]. cbn [g_tickets g_inactive g_assignments g_w g_r g_cycles g_reports] in *.
  destruct (at0 k) as (E1 & E2 & E3). rewrite E1 in I2. rewrite E2 in I3. rewrite E3 in I1, I4. subst t i a.
  eexists. split; [|split].
  - eapply rtc_l; [apply G_read_tickets|]. eapply rtc_l; [apply G_read_inactive|]. eapply rtc_l; [apply G_read_inactive2|].
    eapply rtc_l; [apply G_read_assignments|]. apply rtc_refl.
  - done.
  - cbn [g_reports]. by rewrite I1.
Qed.
