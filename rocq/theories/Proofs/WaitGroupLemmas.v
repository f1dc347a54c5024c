(** Lemmas for C130. *)
From Coq Require Import Ascii String ZArith NArith Lia.
From stdpp Require Import prelude strings relations.
From Verif.Model Require Import GoStrings Types Matchmaker WaitGroup.
From Verif.Spec Require Import MatchmakerSpec WaitGroupSpec.
From Verif.Proofs Require Import WatchLemmas MatchmakerLemmas.
Local Open Scope nat_scope.

Global Instance g_pc_eq_dec : EqDecision g_pc.
Proof. solve_decision. Defined.

(** ** One waiting goroutine *)
Definition busy (gs : list g_pc) : nat := length (filter (λ g, g = GBusy) gs).
Definition calm (g : g_pc) : Prop := g = GNew ∨ g = GBusy ∨ g = GOver.
Definition all_calm (gs : list g_pc) : Prop := ∀ i g, gs !! i = Some g → calm g.
Definition calm_but (gs : list g_pc) (i : nat) : Prop := ∀ j g, j ≠ i → gs !! j = Some g → calm g.
Definition has (g : g_pc) (gs : list g_pc) : Prop := ∃ i, gs !! i = Some g.

Definition wg_inv (m : m_pc) (gs : list g_pc) (w : wg) : Prop :=
  wg_count w = busy gs ∧
  match m with
  | MAsleep =>
      (wg_waiters w = 1 ∧ wg_sema w = 0 ∧ 0 < wg_count w ∧ all_calm gs) ∨
      (w = WG 0 1 0 ∧ ∃ i, (gs !! i = Some (GZero 1) ∨ gs !! i = Some (GReset 1)) ∧ calm_but gs i) ∨
      (wg_waiters w = 0 ∧ wg_sema w = 0 ∧ ∃ i, gs !! i = Some (GRelease 1) ∧ calm_but gs i) ∨
      (wg_waiters w = 0 ∧ wg_sema w = 1 ∧ all_calm gs ∧ has GOver gs)
  | MAwake => wg_waiters w = 0 ∧ wg_sema w = 0 ∧ all_calm gs ∧ has GOver gs
  | _ => wg_waiters w = 0 ∧ wg_sema w = 0 ∧ all_calm gs
  end.

Lemma busy_insert gs i g g' : gs !! i = Some g →
  busy (<[i := g']> gs) + (if decide (g = GBusy) then 1 else 0) = busy gs + (if decide (g' = GBusy) then 1 else 0).
Proof.
  intros H. destruct (insert_split gs i g g' H) as [E ->].
  assert (busy gs = busy (take i gs ++ g :: drop (S i) gs)) as -> by (by f_equal).
  unfold busy. rewrite !filter_app, !app_length, !filter_cons.
  destruct (decide (g = GBusy)), (decide (g' = GBusy)); cbn [length]; lia.
Qed.
Lemma busy_some gs : busy gs ≠ 0 → has GBusy gs.
Proof.
  unfold busy. intros H. destruct (filter _ gs) as [|g r] eqn:E; [done|].
  assert (g ∈ filter (λ g, g = GBusy) gs) as Hin by (rewrite E; by left).
  apply elem_of_list_filter in Hin as [-> Hin]. by apply elem_of_list_lookup in Hin.
Qed.
Lemma busy_none gs : busy gs = 0 → ¬ has GBusy gs.
Proof.
  unfold busy. intros H [i Hi]. apply length_zero_iff_nil in H.
  assert (GBusy ∈ filter (λ g, g = GBusy) gs) as Hin by (apply elem_of_list_filter; split; [done|by eapply elem_of_list_lookup_2]).
  rewrite H in Hin. by apply elem_of_nil in Hin.
Qed.

Lemma calm_insert gs i g : calm g → all_calm gs → all_calm (<[i := g]> gs).
Proof. intros Hg H j x Hj. destruct (insert_lookup_inv _ _ _ _ _ Hj) as [->|Hj']; [done|by eapply H]. Qed.
Lemma calm_but_insert gs i g : calm g → calm_but gs i → all_calm (<[i := g]> gs).
Proof.
  intros Hg H j x Hj. destruct (decide (j = i)) as [->|Hne].
  - destruct (insert_lookup_inv _ _ _ _ _ Hj) as [->|Hj']; [done|].
    assert (i < length gs) by (by eapply lookup_lt_Some). rewrite list_lookup_insert in Hj by done. by injection Hj as <-.
  - rewrite list_lookup_insert_ne in Hj by done. by eapply H.
Qed.
Lemma all_calm_but gs i g : all_calm gs → calm_but (<[i := g]> gs) i.
Proof. intros H j x Hne Hj. rewrite list_lookup_insert_ne in Hj by done. by eapply H. Qed.
Lemma calm_but_same gs i g : calm_but gs i → calm_but (<[i := g]> gs) i.
Proof. intros H j x Hne Hj. rewrite list_lookup_insert_ne in Hj by done. by eapply H. Qed.
Lemma calm_but_other gs i j g : calm g → j ≠ i → calm_but gs i → calm_but (<[j := g]> gs) i.
Proof.
  intros Hg Hji H k x Hne Hk. destruct (insert_lookup_inv _ _ _ _ _ Hk) as [->|Hk']; [done|by eapply H].
Qed.
Lemma has_insert gs i j g g' : gs !! i = Some g → has g gs → i ≠ j → has g (<[j := g']> gs).
Proof. intros Hi _ Hne. exists i. by rewrite list_lookup_insert_ne. Qed.
Lemma has_over_insert gs i g g' : gs !! i = Some g → g ≠ GOver → has GOver gs → has GOver (<[i := g']> gs).
Proof. intros Hi Hg [j Hj]. exists j. rewrite list_lookup_insert_ne; [done|]. intros ->. congruence. Qed.
Lemma has_put gs i g g' : gs !! i = Some g → has g' (<[i := g']> gs).
Proof. intros Hi. exists i. apply list_lookup_insert. by eapply lookup_lt_Some. Qed.

(** The goroutines keep the invariant; only an Add can panic, with "misuse". *)
Lemma wg_inv_g m gs w i g w' g' p : wg_inv m gs w → gs !! i = Some g → g_step w g w' g' p →
  (p = None → wg_inv m (<[i := g']> gs) w') ∧
  (p ≠ None → p = Some Misuse ∧ g = GNew ∧ m = MAsleep ∧ ∃ j, j ≠ i ∧ (gs !! j = Some (GZero 1) ∨ gs !! j = Some (GReset 1))).
Proof.
  intros [Hc Hm] Hi Hs. pose proof (busy_insert gs i g g' Hi) as Hb.
  destruct Hs as [w|k s|v k s|k s|v k' k s Hne|v k' k s|v k' k s]; cbn [wg_count wg_waiters wg_sema] in *.
  - (* Add *)
    destruct (decide (GNew = GBusy)); [done|]. destruct (decide (GBusy = GBusy)); [|done].
    destruct w as [v k s]. unfold wg_add. cbn [fst snd wg_count wg_waiters wg_sema] in *. split.
    + intros Hp. split; [cbn; lia|]. destruct m; cbn [wg_count wg_waiters wg_sema].
      * destruct Hm as (-> & -> & Ha). split; [done|]. split; [done|]. apply calm_insert; [by right; left|done].
      * destruct Hm as [(-> & -> & Hv & Ha)|[(E & j & Hj & Ha)|[(-> & -> & j & Hj & Ha)|(-> & -> & Ha & Ho)]]].
        -- left. split; [done|]. split; [done|]. split; [lia|]. apply calm_insert; [by right; left|done].
        -- injection E as -> -> ->. discriminate Hp.
        -- right; right; left. split; [done|]. split; [done|]. exists j. assert (j ≠ i) as Hji by (intros ->; congruence).
           split; [by rewrite list_lookup_insert_ne|]. apply calm_but_other; [by right; left|done|done].
        -- right; right; right. split; [done|]. split; [done|]. split; [apply calm_insert; [by right; left|done]|].
           by eapply has_over_insert.
      * destruct Hm as (-> & -> & Ha & Ho). split; [done|]. split; [done|]. split; [apply calm_insert; [by right; left|done]|].
        by eapply has_over_insert.
      * destruct Hm as (-> & -> & Ha). split; [done|]. split; [done|]. apply calm_insert; [by right; left|done].
    + intros Hp. destruct (negb (k =? 0) && (S v =? 1)) eqn:E; [|done]. apply andb_true_iff in E as [E1 E2].
      apply negb_true_iff, Nat.eqb_neq in E1. apply Nat.eqb_eq in E2. assert (v = 0) as -> by lia.
      split; [done|]. split; [done|]. destruct m; cbn in Hm; [lia| |lia|lia]. split; [done|].
      destruct Hm as [(_ & _ & Hv & _)|[(_ & j & Hj & _)|[(? & _)|(? & _)]]]; [lia| |lia|lia].
      exists j. split; [|done]. intros ->. destruct Hj; congruence.
  - (* negative: impossible *)
    exfalso. apply (busy_none gs); [done|by exists i].
  - (* Done *)
    remember (if (0 <? v) || (k =? 0) then GOver else GZero k) as g' eqn:Eg'.
    destruct (decide (GBusy = GBusy)); [|done]. split; [intros _|done].
    assert (g' = GOver ∨ g' = GZero k) as Hg' by (subst g'; destruct ((0 <? v) || (k =? 0)); auto).
    destruct (decide (g' = GBusy)) as [E|_]; [destruct Hg'; congruence|].
    split; [cbn; lia|]. destruct m; cbn [wg_count wg_waiters wg_sema] in *.
    + destruct Hm as (-> & -> & Ha). subst g'. rewrite orb_true_r. split; [done|]. split; [done|]. apply calm_insert; [by right; right|done].
    + destruct Hm as [(-> & -> & Hv & Ha)|[(E & _)|[(-> & -> & j & Hj & Ha)|(-> & -> & Ha & Ho)]]].
      * subst g'. destruct v as [|v].
        -- right; left. split; [done|]. exists i. split; [left|by apply all_calm_but].
           cbn. apply list_lookup_insert. by eapply lookup_lt_Some.
        -- left. split; [done|]. split; [done|]. split; [lia|]. apply calm_insert; [by right; right|done].
      * discriminate E.
      * right; right; left. split; [done|]. split; [done|]. exists j. assert (j ≠ i) as Hji by (intros ->; congruence).
        split; [by rewrite list_lookup_insert_ne|]. apply calm_but_other; [subst g'; rewrite orb_true_r; by right; right|done|done].
      * right; right; right. split; [done|]. split; [done|]. subst g'. rewrite orb_true_r.
        split; [apply calm_insert; [by right; right|done]|by eapply has_put].
    + destruct Hm as (-> & -> & Ha & Ho). subst g'. rewrite orb_true_r. split; [done|]. split; [done|].
      split; [apply calm_insert; [by right; right|done]|by eapply has_put].
    + destruct Hm as (-> & -> & Ha). subst g'. rewrite orb_true_r. split; [done|]. split; [done|]. apply calm_insert; [by right; right|done].
  - (* the check succeeds *)
    split; [intros _|done]. destruct (decide (GZero k = GBusy)); [done|]. destruct (decide (GReset k = GBusy)); [done|].
    split; [cbn; lia|]. destruct m; cbn [wg_count wg_waiters wg_sema] in *.
    + destruct Hm as (_ & _ & Ha). destruct (Ha i _ Hi) as [?|[?|?]]; done.
    + destruct Hm as [(_ & _ & _ & Ha)|[(E & j & Hj & Ha)|[(_ & _ & j & Hj & Ha)|(_ & _ & Ha & _)]]].
      * destruct (Ha i _ Hi) as [?|[?|?]]; done.
      * right; left. split; [done|]. exists i. injection E as -> ->. split; [right; apply list_lookup_insert; by eapply lookup_lt_Some|].
        destruct (decide (j = i)) as [->|Hne]; [by apply calm_but_same|]. destruct (Ha i _ ltac:(done) Hi) as [?|[?|?]]; done.
      * destruct (Ha i (GZero k)) as [?|[?|?]]; [intros ->; congruence|done|done|done|done].
      * destruct (Ha i _ Hi) as [?|[?|?]]; done.
    + destruct Hm as (_ & _ & Ha & _). destruct (Ha i _ Hi) as [?|[?|?]]; done.
    + destruct Hm as (_ & _ & Ha). destruct (Ha i _ Hi) as [?|[?|?]]; done.
  - (* the check fails: impossible *)
    exfalso. destruct m; cbn in Hm.
    + destruct Hm as (_ & _ & Ha). destruct (Ha i _ Hi) as [?|[?|?]]; done.
    + destruct Hm as [(_ & _ & _ & Ha)|[(E & j & Hj & Ha)|[(_ & _ & j & Hj & Ha)|(_ & _ & Ha & _)]]].
      * destruct (Ha i _ Hi) as [?|[?|?]]; done.
      * injection E as -> -> _. destruct (decide (j = i)) as [->|Hji].
        -- rewrite Hi in Hj. destruct Hj as [Hj|Hj]; [injection Hj as ->; done|done].
        -- destruct (Ha i _ ltac:(done) Hi) as [?|[?|?]]; done.
      * destruct (Ha i (GZero k)) as [?|[?|?]]; [intros ->; congruence|done|done|done|done].
      * destruct (Ha i _ Hi) as [?|[?|?]]; done.
    + destruct Hm as (_ & _ & Ha & _). destruct (Ha i _ Hi) as [?|[?|?]]; done.
    + destruct Hm as (_ & _ & Ha). destruct (Ha i _ Hi) as [?|[?|?]]; done.
  - (* Store(0) *)
    split; [intros _|done]. destruct (decide (GReset k = GBusy)); [done|]. destruct (decide (GRelease k = GBusy)); [done|].
    destruct m; cbn [wg_count wg_waiters wg_sema] in *.
    + destruct Hm as (_ & _ & Ha). destruct (Ha i _ Hi) as [?|[?|?]]; done.
    + destruct Hm as [(_ & _ & _ & Ha)|[(E & j & Hj & Ha)|[(_ & _ & j & Hj & Ha)|(_ & _ & Ha & _)]]].
      * destruct (Ha i _ Hi) as [?|[?|?]]; done.
      * injection E as -> -> ->. destruct (decide (j = i)) as [->|Hne].
        -- rewrite Hi in Hj. destruct Hj as [Hj|Hj]; [done|injection Hj as ->]. split; [cbn; lia|].
           right; right; left. split; [done|]. split; [done|]. exists i. split; [apply list_lookup_insert; by eapply lookup_lt_Some|by apply calm_but_same].
        -- destruct (Ha i _ ltac:(done) Hi) as [?|[?|?]]; done.
      * destruct (Ha i (GReset k)) as [?|[?|?]]; [intros ->; congruence|done|done|done|done].
      * destruct (Ha i _ Hi) as [?|[?|?]]; done.
    + destruct Hm as (_ & _ & Ha & _). destruct (Ha i _ Hi) as [?|[?|?]]; done.
    + destruct Hm as (_ & _ & Ha). destruct (Ha i _ Hi) as [?|[?|?]]; done.
  - (* release *)
    split; [intros _|done]. destruct (decide (GRelease k = GBusy)); [done|]. destruct (decide (GOver = GBusy)); [done|].
    split; [cbn; lia|]. destruct m; cbn [wg_count wg_waiters wg_sema] in *.
    + destruct Hm as (_ & _ & Ha). destruct (Ha i _ Hi) as [?|[?|?]]; done.
    + destruct Hm as [(_ & _ & _ & Ha)|[(E & j & Hj & Ha)|[(-> & -> & j & Hj & Ha)|(_ & _ & Ha & _)]]].
      * destruct (Ha i _ Hi) as [?|[?|?]]; done.
      * destruct (Ha i (GRelease k)) as [?|[?|?]]; [intros ->; rewrite Hi in Hj; destruct Hj; done|done|done|done|done].
      * destruct (decide (j = i)) as [->|Hne].
        -- rewrite Hi in Hj. injection Hj as ->. right; right; right. split; [done|]. split; [done|].
           split; [apply calm_but_insert; [by right; right|done]|by eapply has_put].
        -- destruct (Ha i _ ltac:(done) Hi) as [?|[?|?]]; done.
      * destruct (Ha i _ Hi) as [?|[?|?]]; done.
    + destruct Hm as (_ & _ & Ha & _). destruct (Ha i _ Hi) as [?|[?|?]]; done.
    + destruct Hm as (_ & _ & Ha). destruct (Ha i _ Hi) as [?|[?|?]]; done.
Qed.

(** So does the one that waits; it panics only with "reused". *)
Lemma wg_inv_m m gs w w' m' p : wg_inv m gs w → m_step w m w' m' p →
  (p = None → wg_inv m' gs w') ∧ (m' = MBack → p = None → wg_count w' = 0) ∧
  (p ≠ None → p = Some Reused ∧ m = MAwake ∧ has GOver gs ∧ has GBusy gs).
Proof.
  intros [Hc Hm] Hs. destruct Hs as [k s|v k s|v k s|s|v k s Hne]; cbn [wg_count wg_waiters wg_sema] in *.
  - split; [intros _; by split|]. split; [done|done].
  - destruct Hm as (-> & -> & Ha). split; [|by split]. intros _. split; [done|]. left. cbn. split; [done|]. split; [done|]. split; [lia|done].
  - split; [|by split]. intros _.
    destruct Hm as [(_ & ? & _)|[(E & _)|[(_ & ? & _)|(-> & E & Ha & Ho)]]]; try lia; [discriminate E|].
    injection E as ->. by split.
  - destruct Hm as (_ & -> & Ha & _). split; [by intros _|]. split; [done|done].
  - split; [done|]. split; [done|]. intros _. destruct Hm as (-> & _ & _ & Ho). split; [done|]. split; [done|]. split; [done|].
    apply busy_some. intros E. apply Hne. f_equal. lia.
Qed.

(** ** mmfwg and tdwg *)
Record c_inv (s : cstate) : Prop := {
  ci_panic : c_panic s = None;
  ci_wg : wg_inv (c_main s) (c_gs s) (c_wg s);
  ci_new : ¬ has GNew (c_gs s);
  ci_main : c_main s ≠ MEnter → c_adding s = false ∧ (wg_waiters (c_wg s) = 0 → wg_count (c_wg s) = 0)
}.
Lemma c_inv_reach s : c_later c_init s → c_inv s.
Proof.
  revert s. apply (rtc_ind_r (λ s, c_inv s)).
  { split; cbn; [done|split; [done|split; [done|split; [done|]]]|by intros [i Hi]|done]. intros i g Hg. done. }
  intros s s' _ Hs [I1 I2 I3 I4].
  destruct Hs as [gs w|gs w|m gs w w' m' p Hs|a m gs w i g w' g' p Hi Hs]; cbn [c_panic c_main c_gs c_wg c_adding] in *.
  - destruct w as [v k s]. destruct I2 as [Hc (Hw & Hse & Ha)]. cbn in Hw, Hse, Hc. subst k s. unfold wg_add. split; cbn; [done| | |done].
    + split.
      * cbn. unfold busy in *. rewrite filter_app, app_length. cbn. rewrite decide_True by done. cbn. lia.
      * cbn. split; [done|]. split; [done|]. intros i g Hg. apply lookup_app_Some in Hg as [Hg|[_ Hg]]; [by eapply Ha|].
        destruct (i - length gs); [injection Hg as <-; by right; left|done].
    + intros [i Hg]. apply lookup_app_Some in Hg as [Hg|[_ Hg]]; [apply I3; by exists i|]. by destruct (i - length gs).
  - split; cbn; done.
  - destruct (wg_inv_m _ _ _ _ _ _ I2 Hs) as (Hn & Hb & Hp).
    assert (p = None) as ->.
    { destruct p as [p|]; [|done]. destruct (Hp ltac:(done)) as (_ & -> & _ & Hbusy). exfalso.
      destruct (I4 ltac:(done)) as [_ H0]. destruct I2 as [Hc (Hw & _)]. specialize (H0 Hw). rewrite Hc in H0.
      by apply (busy_none gs). }
    split; cbn; [done|by apply Hn|done|]. intros Hm'. split; [done|].
    destruct Hs; cbn in *; try done; try (by apply I4).
  - destruct (wg_inv_g _ _ _ _ _ _ _ _ I2 Hi Hs) as (Hn & Hp).
    assert (g ≠ GNew) as Hg by (intros ->; apply I3; by exists i).
    assert (p = None) as ->.
    { destruct p as [p|]; [|done]. destruct (Hp ltac:(done)) as (_ & ? & _). done. }
    split; cbn; [done|by apply Hn| |].
    + intros [j Hj]. destruct (insert_lookup_inv _ _ _ _ _ Hj) as [E|Hj']; [|apply I3; by exists j].
      subst g'. clear -Hs Hg. inversion Hs; subst; try done. by destruct ((0 <? v) || (k =? 0)).
    + intros Hm'. destruct (I4 Hm') as [Ha H0]. split; [done|]. destruct I2 as [Hc Hm].
      destruct Hs as [w|k s|v k s|k s|v k' k s Hne|v k' k s|v k' k s]; cbn in *; try done.
      intros ->. exfalso. specialize (H0 eq_refl). lia.
Qed.

Lemma core_never_panics s : c_later c_init s → c_panic s = None.
Proof. intros H. apply (c_inv_reach s H). Qed.
Lemma core_waits_for_all s g : c_later c_init s → c_main s = MBack → g ∈ c_gs s → g = GOver.
Proof.
  intros H Hm Hg. apply elem_of_list_lookup in Hg as [i Hi]. destruct (c_inv_reach s H) as [_ I2 I3 I4].
  destruct I2 as [Hc I2]. rewrite Hm in *. destruct I2 as (Hw & _ & Ha). destruct (I4 ltac:(done)) as [_ H0]. specialize (H0 Hw).
  destruct (Ha i g Hi) as [->|[->| ->]]; [exfalso; apply I3; by exists i| |done].
  exfalso. rewrite Hc in H0. apply (busy_none _ H0). by exists i.
Qed.

(** Wait always comes back. *)
Definition g_weight (g : g_pc) : nat :=
  match g with GNew => 5 | GBusy => 4 | GZero _ => 3 | GReset _ => 2 | GRelease _ => 1 | GOver => 0 end.
Definition m_weight (m : m_pc) : nat := match m with MEnter => 3 | MAsleep => 2 | MAwake => 1 | MBack => 0 end.
Definition c_weight (s : cstate) : nat :=
  (if c_adding s then 1 else 0) + m_weight (c_main s) + sum_list_with g_weight (c_gs s).
Lemma gs_weight_insert gs i g g' : gs !! i = Some g →
  sum_list_with g_weight (<[i := g']> gs) + g_weight g = sum_list_with g_weight gs + g_weight g'.
Proof.
  intros H. destruct (insert_split gs i g g' H) as [E ->]. apply (f_equal (sum_list_with g_weight)) in E. rewrite E.
  rewrite !sum_list_with_app. cbn [sum_list_with]. lia.
Qed.
Lemma c_progress s : c_inv s → c_main s ≠ MBack → ∃ s', c_step s s' ∧ c_weight s' < c_weight s ∧ length (c_gs s') = length (c_gs s).
Proof.
  intros [I1 I2 I3 I4] Hm. destruct s as [a m gs w p]. cbn in *. subst p. destruct m; [| | |done].
  - destruct a.
    + eexists. split; [apply C_wait|]. split; [unfold c_weight; cbn; lia|done].
    + destruct w as [[|v] k s].
      * eexists. split; [apply C_main, MS_nothing|]. split; [unfold c_weight; cbn; lia|done].
      * eexists. split; [apply C_main, MS_sleep|]. split; [unfold c_weight; cbn; lia|done].
  - destruct I2 as [Hc I2]. destruct (I4 ltac:(done)) as [-> H0].
    destruct I2 as [(_ & _ & Hv & _)|[(-> & i & Hi & _)|[(_ & _ & i & Hi & _)|(_ & Hs & _)]]].
    + destruct (busy_some gs) as [i Hi]; [lia|]. destruct w as [[|v] k s]; [cbn in Hv; lia|].
      eexists. split; [eapply C_go; [exact Hi|apply GS_done]|]. split; [|cbn; by rewrite insert_length].
      unfold c_weight. cbn [c_adding c_main c_gs].
      pose proof (gs_weight_insert gs i GBusy (if (0 <? v) || (k =? 0) then GOver else GZero k) Hi) as Hw.
      destruct ((0 <? v) || (k =? 0)); cbn [g_weight] in Hw; lia.
    + destruct Hi as [Hi|Hi].
      * eexists. split; [eapply C_go; [exact Hi|apply GS_check_ok]|]. split; [|cbn; by rewrite insert_length].
        unfold c_weight. cbn [c_adding c_main c_gs]. pose proof (gs_weight_insert gs i _ (GReset 1) Hi) as Hw. cbn [g_weight] in Hw. lia.
      * eexists. split; [eapply C_go; [exact Hi|apply GS_reset]|]. split; [|cbn; by rewrite insert_length].
        unfold c_weight. cbn [c_adding c_main c_gs]. pose proof (gs_weight_insert gs i _ (GRelease 1) Hi) as Hw. cbn [g_weight] in Hw. lia.
    + destruct w as [v k s]. eexists. split; [eapply C_go; [exact Hi|apply GS_release]|]. split; [|cbn; by rewrite insert_length].
      unfold c_weight. cbn [c_adding c_main c_gs]. pose proof (gs_weight_insert gs i _ GOver Hi) as Hw. cbn [g_weight] in Hw. lia.
    + destruct w as [v k s]. cbn in Hs. subst s. eexists. split; [apply C_main, MS_wake|]. split; [unfold c_weight; cbn; lia|done].
  - destruct I2 as [Hc (Hw & Hs & _)]. destruct (I4 ltac:(done)) as [-> H0]. specialize (H0 Hw). destruct w as [v k s]. cbn in *. subst k s v. rewrite H0.
    eexists. split; [apply C_main, MS_back|]. split; [unfold c_weight; cbn; lia|done].
Qed.
Lemma core_wait_returns s : c_later c_init s → ∃ s', c_later s s' ∧ c_main s' = MBack ∧ length (c_gs s') = length (c_gs s).
Proof.
  remember (c_weight s) as n eqn:Hn. revert s Hn. induction (lt_wf n) as [n _ IH]. intros s -> H.
  assert (c_main s = MBack ∨ c_main s ≠ MBack) as [Hm|Hm] by (destruct (c_main s); auto); [exists s; by split; [constructor|]|].
  destruct (c_progress s (c_inv_reach s H) Hm) as (s1 & Hs & Hw & Hl).
  destruct (IH _ Hw s1 eq_refl) as (s' & H1 & H2 & H3); [by eapply rtc_r|].
  exists s'. split; [by eapply rtc_l|]. split; [done|lia].
Qed.

(** ** activationWg *)
Definition gs_of (s : bstate) : list g_pc := map snd (b_calls s).
Lemma gs_insert (calls : list (list string * g_pc)) n b g' : map snd (<[n := (b, g')]> calls) = <[n := g']> (map snd calls).
Proof. exact (list_fmap_insert snd calls n (b, g')). Qed.
Lemma gs_lookup (calls : list (list string * g_pc)) n b g : calls !! n = Some (b, g) → map snd calls !! n = Some g.
Proof. intros H. change (map snd calls) with (snd <$> calls). rewrite list_lookup_fmap, H. done. Qed.

Record b_inv (q0 : list string) (s : bstate) : Prop := {
  bi_wg : wg_inv (b_main s) (gs_of s) (b_wg s);
  bi_phase : match b_phase s with AWaiting => b_main s ≠ MBack | AReturned => b_main s = MBack | _ => b_main s = MEnter end;
  bi_out : a_later (a_init q0) (outside s)
}.

Lemma new_calm gs w m : wg_inv m gs w → m = MEnter → wg_inv m (gs ++ [GNew]) w.
Proof.
  intros [Hc Hm] ->. destruct Hm as (H1 & H2 & Ha). split.
  - unfold busy in *. rewrite filter_app, app_length. cbn. rewrite decide_False by done. cbn. lia.
  - split; [done|]. split; [done|]. intros i g Hg. apply lookup_app_Some in Hg as [Hg|[_ Hg]]; [by eapply Ha|].
    destruct (i - length gs); [injection Hg as <-; by left|done].
Qed.

Lemma b_inv_step q0 s s' : b_inv q0 s → b_step s s' → b_panic s' = None → b_inv q0 s'.
Proof.
  intros [I1 I2 I3] Hs Hp.
  destruct Hs as [id p m q cur calls arr w Hq|id m q cur calls arr w|m cur calls arr w|m q cur calls arr w Hne|m q calls arr w
    |n b g p m q cur calls arr w w' g' x Hn Hs|m q cur calls arr w w' m' x Hs]; cbn [b_main b_phase b_wg b_panic] in *; unfold gs_of, outside in *;
    cbn [b_main b_phase b_wg b_panic b_calls b_queue b_cur b_arrived] in *.
  - split; cbn; [done|done|]. eapply rtc_r; [exact I3|]. by apply A_arrive.
  - split; cbn; [done|by destruct (is_full _)|]. eapply rtc_r; [exact I3|]. apply A_recv.
  - split; cbn; [done|done|]. eapply rtc_r; [exact I3|]. apply A_default.
  - destruct (is_full cur) eqn:E; split; unfold gs_of, outside; cbn [b_main b_phase b_wg b_panic b_calls b_queue b_cur b_arrived].
    + rewrite map_app. by apply new_calm.
    + done.
    + rewrite map_app. eapply rtc_r; [exact I3|]. pose proof (A_send q cur (map (λ c, (c.1, call_of c.2)) calls) arr Hne) as HA.
      rewrite E in HA. exact HA.
    + rewrite map_app. by apply new_calm.
    + by rewrite I2.
    + rewrite map_app. eapply rtc_r; [exact I3|]. pose proof (A_send q cur (map (λ c, (c.1, call_of c.2)) calls) arr Hne) as HA.
      rewrite E in HA. exact HA.
  - split; cbn; [done|by rewrite I2|]. eapply rtc_r; [exact I3|]. apply A_nothing.
  - subst x. pose proof (gs_lookup _ _ _ _ Hn) as Hg. destruct (wg_inv_g _ _ _ _ _ _ _ _ I1 Hg Hs) as [Hk _].
    split; unfold gs_of, outside; cbn [b_main b_phase b_wg b_panic b_calls b_queue b_cur b_arrived].
    + rewrite gs_insert. by apply Hk.
    + done.
    + change (map ?f (<[n := (b, g')]> calls)) with (f <$> <[n := (b, g')]> calls). rewrite list_fmap_insert. cbn [fst snd].
      assert (Hn' : map (λ c, (c.1, call_of c.2)) calls !! n = Some (b, call_of g)) by (change (map ?f calls) with (f <$> calls); rewrite list_lookup_fmap, Hn; done).
      assert (call_of g' = call_of g ∨ g = GNew ∧ g' = GBusy ∨ g = GBusy ∧ call_of g' = CallDone) as Hcase.
      { inversion Hs; subst; auto. right; right. split; [done|]. by destruct ((0 <? v) || (k =? 0)). }
      destruct Hcase as [E|[[-> ->]|[-> E]]].
      * rewrite E, list_insert_id by done. exact I3.
      * eapply rtc_r; [exact I3|]. by apply A_start.
      * rewrite E. eapply rtc_r; [exact I3|]. by apply A_finish.
  - subst x. destruct (wg_inv_m _ _ _ _ _ _ I1 Hs) as (Hk & Hb & _).
    split; unfold gs_of, outside; cbn [b_main b_phase b_wg b_panic b_calls b_queue b_cur b_arrived].
    + by apply Hk.
    + by destruct m'.
    + destruct m'; cbn [after_wait]; try exact I3. eapply rtc_r; [exact I3|]. apply A_return.
      apply Forall_forall. intros [b x] Hin. apply elem_of_list_fmap in Hin as ([b' g] & [= -> ->] & Hin). cbn [snd].
      intros E. destruct g; try done. apply elem_of_list_lookup in Hin as [i Hi].
      destruct (Hk eq_refl) as [Hc _]. rewrite (Hb eq_refl eq_refl) in Hc. apply (busy_none _ (eq_sym Hc)). exists i. by eapply gs_lookup.
Qed.

Lemma b_inv_reach q0 s : b_later (b_init q0) s → b_panic s = None → b_inv q0 s.
Proof.
  revert s. apply (rtc_ind_r (λ s, b_panic s = None → b_inv q0 s)).
  - intros _. split; cbn; [|done|constructor]. split; [done|]. split; [done|]. split; [done|]. intros i g Hg. done.
  - intros s s' _ Hs IH Hp. apply (b_inv_step q0 s s'); [|done|done]. apply IH. by destruct Hs.
Qed.

(** A panic needs two calls. *)
Lemma panic_two_calls q0 s : b_later (b_init q0) s → b_panic s ≠ None → 2 <= length (b_calls s) ∧
  ∃ s1, b_inv q0 s1 ∧ length (b_calls s1) = length (b_calls s) ∧ b_arrived s1 = b_arrived s.
Proof.
  intros H. apply rtc_inv_r in H as [<-|(s1 & H & Hs)]; [done|]. intros Hp.
  assert (Hn : b_panic s1 = None) by (by destruct Hs). pose proof (b_inv_reach q0 s1 H Hn) as HI.
  pose proof HI as [I1 _ _].
  destruct Hs as [id p m q cur calls arr w Hq|id m q cur calls arr w|m cur calls arr w|m q cur calls arr w Hne|m q calls arr w
    |n b g p m q cur calls arr w w' g' x Hc Hs|m q cur calls arr w w' m' x Hs]; try done; [by destruct (is_full cur)| |];
    unfold gs_of in I1; cbn [b_main b_phase b_wg b_panic b_calls b_queue b_cur b_arrived] in *.
  - pose proof (gs_lookup _ _ _ _ Hc) as Hg. destruct (wg_inv_g _ _ _ _ _ _ _ _ I1 Hg Hs) as [_ Hk].
    destruct (Hk Hp) as (_ & _ & _ & j & Hj & Hz). split.
    + rewrite insert_length. assert (n < length calls) by (by eapply lookup_lt_Some).
      assert (j < length (map snd calls)) as Hl by (destruct Hz as [Hz|Hz]; by eapply lookup_lt_Some). rewrite map_length in Hl. lia.
    + eexists. split; [exact HI|]. cbn. by rewrite insert_length.
  - destruct (wg_inv_m _ _ _ _ _ _ I1 Hs) as (_ & _ & Hk). destruct (Hk Hp) as (_ & _ & [i Hi] & [j Hj]). split.
    + assert (i ≠ j) by congruence. assert (i < length (map snd calls)) as H1 by (by eapply lookup_lt_Some).
      assert (j < length (map snd calls)) as H2 by (by eapply lookup_lt_Some). rewrite map_length in H1, H2. lia.
    + eexists. split; [exact HI|done].
Qed.

Lemma panic_needs_many q0 s : b_later (b_init q0) s → b_panic s ≠ None → (500 < Z.of_nat (length (b_arrived s)))%Z.
Proof.
  intros H Hp. destruct (panic_two_calls q0 s H Hp) as (H2 & s1 & HI & El & <-).
  destruct (activation_batches q0 _ (bi_out _ _ HI)) as (Hlegal & Hfull & Hpre & _).
  assert (Hb : batches (outside s1) = map fst (b_calls s1)).
  { unfold batches, outside. cbn. rewrite <-list_fmap_compose. done. }
  rewrite Hb in *. destruct (b_calls s1) as [|c0 [|c1 cs]]; [cbn in El; lia|cbn in El; lia|].
  pose proof (Hfull 0 c0.1 eq_refl ltac:(cbn; lia)) as E0. cbn [map] in Hlegal.
  apply Forall_cons in Hlegal as [_ Hlegal]. apply Forall_cons in Hlegal as [L1 _]. unfold LegalBatch in L1.
  apply prefix_length in Hpre. cbn [map concat] in Hpre. rewrite !app_length in Hpre. cbn in Hpre. lia.
Qed.

(** And many ids are enough. *)
Lemma fill q2 : ∀ rest cur m calls arr w, q2 ≠ [] → (Z.of_nat (length cur + length q2) = 500)%Z →
  b_later (BState ACollect m (q2 ++ rest) cur calls arr w None) (BState ASend m rest (cur ++ q2) calls arr w None).
Proof.
  induction q2 as [|id q2 IH]; intros rest cur m calls arr w Hne Hl; [done|]. cbn [app].
  eapply rtc_l; [apply B_recv|]. destruct q2 as [|id' q2].
  - assert (is_full (cur ++ [id]) = true) as -> by (apply full_iff; unfold batch_full; rewrite app_length; cbn in *; lia). constructor.
  - assert (is_full (cur ++ [id]) = false) as ->.
    { apply not_true_iff_false. rewrite full_iff. unfold batch_full. rewrite app_length. cbn in *. lia. }
    replace (cur ++ id :: id' :: q2) with ((cur ++ [id]) ++ id' :: q2) by (by rewrite <-app_assoc).
    apply IH; [done|]. rewrite app_length. cbn in *. lia.
Qed.

Lemma drain q : ∀ cur m calls arr w, (Z.of_nat (length cur) < 500)%Z →
  ∃ cur' extra, b_later (BState ACollect m q cur calls arr w None) (BState AWaiting m [] cur' (calls ++ extra) arr w None) ∧
    (∀ i c, extra !! i = Some c → c.2 = GNew) ∧ (cur ++ q ≠ [] → extra ≠ []).
Proof.
  induction q as [|id q IH]; intros cur m calls arr w Hc.
  - assert (is_full cur = false) as Hf by (apply not_true_iff_false; rewrite full_iff; unfold batch_full; lia).
    destruct cur as [|x cur].
    + exists [], []. split; [|done]. rewrite app_nil_r. eapply rtc_l; [apply B_default|]. apply rtc_once, B_nothing.
    + exists (x :: cur), [(x :: cur, GNew)]. split; [|split; [|done]].
      * eapply rtc_l; [apply B_default|]. apply rtc_once. pose proof (B_send m [] (x :: cur) calls arr w ltac:(done)) as HB.
        rewrite Hf in HB. exact HB.
      * intros [|i] c Hi; [by injection Hi as <-|done].
  - destruct (is_full (cur ++ [id])) eqn:E.
    + destruct (IH [] m (calls ++ [(cur ++ [id], GNew)]) arr w ltac:(cbn; lia)) as (cur' & extra & Hr & Hn & _).
      exists cur', ((cur ++ [id], GNew) :: extra). split; [|split; [|done]].
      * eapply rtc_l; [apply B_recv|]. rewrite E. eapply rtc_l.
        -- pose proof (B_send m q (cur ++ [id]) calls arr w ltac:(by destruct cur)) as HB. rewrite E in HB. exact HB.
        -- rewrite <-app_assoc in Hr. exact Hr.
      * intros [|i] c Hi; [by injection Hi as <-|]. by eapply Hn.
    + assert (Hl : (Z.of_nat (length (cur ++ [id])) < 500)%Z).
      { apply not_true_iff_false in E. rewrite full_iff in E. unfold batch_full in E. rewrite app_length in *. cbn in *. lia. }
      destruct (IH (cur ++ [id]) m calls arr w Hl) as (cur' & extra & Hr & Hn & Hx). exists cur', extra. split; [|split; [done|]].
      * eapply rtc_l; [apply B_recv|]. rewrite E. exact Hr.
      * intros _. apply Hx. by destruct cur.
Qed.

Lemma two_waiting q0 : (500 < Z.of_nat (length q0))%Z → ∃ cur b0 b1 cs,
  b_later (b_init q0) (BState AWaiting MEnter [] cur ((b0, GNew) :: (b1, GNew) :: cs) q0 wg0 None).
Proof.
  intros Hl. set (n := Z.to_nat 500). assert (Hn : Z.of_nat n = 500%Z) by (unfold n; apply Z2Nat.id; lia). clearbody n.
  assert (E1 : length (take n q0) = n) by (rewrite take_length; lia).
  assert (E2 : length (drop n q0) ≠ 0) by (rewrite drop_length; lia).
  destruct (drain (drop n q0) [] MEnter [(take n q0, GNew)] q0 wg0 ltac:(cbn; lia)) as (cur' & extra & Hr & Hx & Hne).
  destruct extra as [|[b1 g1] cs]; [exfalso; apply Hne; [|done]; intros E; cbn in E; rewrite E in E2; done|].
  assert (g1 = GNew) as -> by (exact (Hx 0 (b1, g1) eq_refl)).
  exists cur', (take n q0), b1, cs. unfold b_init. eapply rtc_transitive; [|exact Hr].
  assert (Hne0 : take n q0 ≠ []) by (intros E; rewrite E in E1; cbn in E1; lia).
  eapply rtc_r.
  - rewrite <-(take_drop n q0) at 1. apply fill; [done|]. rewrite E1. cbn. lia.
  - cbn [app]. pose proof (B_send MEnter (drop n q0) (take n q0) [] q0 wg0 Hne0) as HB.
    assert (is_full (take n q0) = true) as HF by (apply full_iff; unfold batch_full; lia). rewrite HF in HB. exact HB.
Qed.

(** Both panics: the first call begins and Wait goes to sleep; the second call begins
    while the first one is ending. *)
Lemma many_can_misuse q0 : (500 < Z.of_nat (length q0))%Z → ∃ s, b_later (b_init q0) s ∧ b_arrived s = q0 ∧ b_panic s = Some Misuse.
Proof.
  intros Hl. destruct (two_waiting q0 Hl) as (cur & b0 & b1 & cs & Hr). eexists. split.
  { eapply rtc_transitive; [exact Hr|].
    eapply rtc_l; [eapply (B_go 0); [reflexivity|apply GS_add]|]. cbn.
    eapply rtc_l; [eapply B_wait, MS_sleep|]. cbn.
    eapply rtc_l; [eapply (B_go 0); [reflexivity|apply GS_done]|]. cbn.
    apply rtc_once. eapply (B_go 1); [reflexivity|apply GS_add]. }
  cbn. done.
Qed.
Lemma many_can_reuse q0 : (500 < Z.of_nat (length q0))%Z → ∃ s, b_later (b_init q0) s ∧ b_arrived s = q0 ∧ b_panic s = Some Reused.
Proof.
  intros Hl. destruct (two_waiting q0 Hl) as (cur & b0 & b1 & cs & Hr). eexists. split.
  { eapply rtc_transitive; [exact Hr|].
    eapply rtc_l; [eapply (B_go 0); [reflexivity|apply GS_add]|]. cbn.
    eapply rtc_l; [eapply B_wait, MS_sleep|]. cbn.
    eapply rtc_l; [eapply (B_go 0); [reflexivity|apply GS_done]|]. cbn.
    eapply rtc_l; [eapply (B_go 0); [reflexivity|apply GS_check_ok]|]. cbn.
    eapply rtc_l; [eapply (B_go 0); [reflexivity|apply GS_reset]|]. cbn.
    eapply rtc_l; [eapply (B_go 0); [reflexivity|apply GS_release]|]. cbn.
    eapply rtc_l; [eapply B_wait, MS_wake|]. cbn.
    eapply rtc_l; [eapply (B_go 1); [reflexivity|apply GS_add]|]. cbn.
    apply rtc_once. eapply B_wait, MS_reused. done. }
  cbn. done.
Qed.

Lemma crash_iff q0 : (∃ s, b_later (b_init q0) s ∧ b_arrived s = q0 ∧ b_panic s ≠ None) ↔ (500 < Z.of_nat (length q0))%Z.
Proof.
  split.
  - intros (s & H & E & Hp). rewrite <-E. by eapply panic_needs_many.
  - intros Hl. destruct (many_can_misuse q0 Hl) as (s & H & E & Hp). exists s. split; [done|]. split; [done|]. by rewrite Hp.
Qed.

Lemma no_panic_refines q0 s : b_later (b_init q0) s → b_panic s = None → a_later (a_init q0) (outside s).
Proof. intros H Hp. apply (b_inv_reach q0 s H Hp). Qed.
Lemma panic_kinds q0 s : b_later (b_init q0) s → b_panic s ≠ Some Negative.
Proof.
  intros H. apply rtc_inv_r in H as [<-|(s1 & H & Hs)]; [done|].
  assert (Hn : b_panic s1 = None) by (by destruct Hs). pose proof (b_inv_reach q0 s1 H Hn) as [I1 _ _].
  destruct Hs as [id p m q cur calls arr w Hq|id m q cur calls arr w|m cur calls arr w|m q cur calls arr w Hne|m q calls arr w
    |n b g p m q cur calls arr w w' g' x Hc Hs|m q cur calls arr w w' m' x Hs]; try done; [by destruct (is_full cur)| |];
    unfold gs_of in I1; cbn [b_main b_phase b_wg b_panic b_calls b_queue b_cur b_arrived] in *; intros ->.
  - pose proof (gs_lookup _ _ _ _ Hc) as Hg. destruct (wg_inv_g _ _ _ _ _ _ _ _ I1 Hg Hs) as [_ Hk]. by destruct (Hk ltac:(done)).
  - destruct (wg_inv_m _ _ _ _ _ _ I1 Hs) as (_ & _ & Hk). by destruct (Hk ltac:(done)).
Qed.
Lemma few_never_panic q0 s : b_later (b_init q0) s → (Z.of_nat (length (b_arrived s)) <= 500)%Z → b_panic s = None.
Proof.
  intros H Hl. destruct (b_panic s) as [p|] eqn:E; [|done]. exfalso.
  assert (500 < Z.of_nat (length (b_arrived s)))%Z; [|lia]. eapply panic_needs_many; [exact H|by rewrite E].
Qed.
