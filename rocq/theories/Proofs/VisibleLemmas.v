(** Lemmas for C152. *)
From Coq Require Import ZArith Lia.
From stdpp Require Import prelude strings gmap relations.
From Verif.Model Require Import GoStrings Types Cache MemRepl Queues Timing Visible.
From Verif.Spec Require Import VisibleSpec.
Local Open Scope Z_scope.

Section bound.
  Variables (p : iparams) (cap : nat).
  Hypothesis sane : SaneVisible p cap.
  Let c := ip_apply p.
  Let w := ip_wait p.
  Let y := ip_cycle p.

  Definition after (k : nat) : Z := (Z.of_nat k + 1) * c + Z.of_nat (k / cap) * (c + y + w).
  Lemma after_step k : after k + c <= after (S k).
  Proof.
    destruct sane as (? & ? & ? & ?). unfold after.
    assert (k / cap <= S k / cap)%nat by (apply Nat.div_le_mono; lia). unfold c, y, w in *. nia.
  Qed.
  Lemma after_split l k : (l <= k)%nat → Z.of_nat l * c + after (k - l) <= after k.
  Proof.
    intros Hl. destruct sane as (? & ? & ? & ?). unfold after.
    assert ((k - l) / cap <= k / cap)%nat by (apply Nat.div_le_mono; lia). unfold c, y, w in *. nia.
  Qed.
  Lemma after_cap k : (cap <= k)%nat → Z.of_nat cap * c + after (k - cap) + (c + y + w) = after k.
  Proof.
    intros Hl. destruct sane as (? & ? & ? & ?). unfold after.
    assert (k / cap = S ((k - cap) / cap))%nat as ->.
    { replace k with ((k - cap) + 1 * cap)%nat at 1 by lia. rewrite Nat.div_add by lia. lia. }
    unfold c, y, w in *. nia.
  Qed.
  Lemma after_pos k : c <= after k.
  Proof. destruct sane as (? & ? & ? & ?). unfold after, c, y, w in *. nia. Qed.

  (** By when the update with [k] before it in the line is applied. *)
  Definition line_by (ph : iphase) (now : instant) (l : nat) (k : nat) : Z :=
    match ph with
    | ISleep s => if bool_decide (l <= k ∧ l < cap)%nat && (s <? now) then now + after k + (c + y + w) else s + w + after k
    | ICycle s => s + y + w + after k
    | IApply _ r _ _ _ => if bool_decide (k < l)%nat then r + (Z.of_nat k + 1) * c
        else r + c + Z.of_nat l * c + y + w + after (k - l)
    end.
  Definition by_ (ph : iphase) (now : instant) (r : rphase) (l : nat) (k : nat) : Z :=
    match r with
    | RPoll s _ => if bool_decide (k < l)%nat then line_by ph now l k else s + w + after k + (c + y + w)
    | RPut _ => line_by ph now l k
    end.
  Definition phase_ok (now : instant) (ph : iphase) : Prop :=
    match ph with
    | ISleep s => s <= now <= s + w
    | ICycle s => s <= now <= s + y
    | IApply _ r _ _ _ => r <= now <= r + c
    end.
  Definition reader_ok (now : instant) (r : rphase) : Prop :=
    match r with RPoll s _ => s <= now <= s + w | RPut _ => True end.
  Record vinv (s : vstate) : Prop := VInv {
    vi_chan : v_upd <$> vs_chan s = is_chan (vs_loop s);
    vi_cap : (length (vs_chan s) <= cap)%nat;
    vi_phase : phase_ok (is_now (vs_loop s)) (is_phase (vs_loop s));
    vi_reader : reader_ok (is_now (vs_loop s)) (vs_reader s);
    vi_all : vs_all s = (vs_done s).*1 ++ on_the_way s;
    vi_at : Forall (λ x, v_at x <= is_now (vs_loop s)) (on_the_way s);
    vi_by : ∀ k x, on_the_way s !! k = Some x →
      by_ (is_phase (vs_loop s)) (is_now (vs_loop s)) (vs_reader s) (length (vs_chan s)) k <= visible_by p cap x;
    vi_done : ∀ x t, (x, t) ∈ vs_done s → v_at x <= t <= visible_by p cap x
  }.
  Lemma line_by_now ph now l k : phase_ok now ph → now <= line_by ph now l k.
  Proof.
    pose proof sane as (? & ? & ? & ?). pose proof (after_pos k). pose proof (after_pos (k - l)). destruct ph; simpl; intros Hp; unfold c, y, w in *.
    - destruct (bool_decide _ && _); lia.
    - case_bool_decide; nia.
    - lia.
  Qed.
  Lemma by_now ph now r l k : phase_ok now ph → reader_ok now r → now <= by_ ph now r l k.
  Proof.
    pose proof sane as (? & ? & ? & ?). pose proof (after_pos k). intros Hp Hr. pose proof (line_by_now ph now l k Hp).
    destruct r; simpl in *; [|done]. case_bool_decide; [done|]. unfold c, y, w in *. lia.
  Qed.
  Lemma arrive_inv cfg i i' u : istep cfg p i i' → is_chan i' = is_chan i ++ [u] →
    is_now i' = is_now i ∧ is_phase i' = i_came (is_phase i).
  Proof.
    intros Hs E. destruct Hs; simpl in *; try (by split);
      apply (f_equal length) in E; simpl in E; rewrite ?app_length in E; simpl in E; exfalso; lia.
  Qed.
  Lemma update_inv cfg i i' u : istep cfg p i i' → is_chan i = u :: is_chan i' →
    is_now i' = is_now i ∧ ∃ s r h m a, is_phase i = IApply s r h m a ∧ is_phase i' = IApply s (is_now i) h m (S a).
  Proof.
    intros Hs E. destruct Hs; simpl in *;
      try (exfalso; apply (f_equal length) in E; simpl in E; rewrite ?app_length in E; simpl in E; lia).
    split; [done|]. exists s, r, h, m, a. done.
  Qed.
  Lemma came_ok now ph : phase_ok now (i_came ph) ↔ phase_ok now ph.
  Proof. by destruct ph. Qed.

  Lemma vinv_step cfg s s' : vinv s → vstep cfg p cap s s' → vinv s'.
  Proof.
    pose proof sane as (Hw & Hc & Hy & Hcap). intros [Hch Hcp Hph Hrd Hall Hat Hby Hdn] Hs.
    destruct Hs as [u i since out ch dn al x|i since out ch dn al Hf|i i' x out ch dn al Hr Hs E En|i ch dn al|i i' r x ch dn al Hs E|i i' r ch dn al Hs E Hwt];
      unfold on_the_way in *; simpl in *.
    - (* VTake *) split; unfold on_the_way; simpl; try done.
      + by rewrite Hall, !app_assoc.
      + rewrite app_assoc. apply Forall_app. split; [done|]. apply Forall_cons_2; [simpl; lia|constructor].
      + intros k z Hk. rewrite app_assoc in Hk. apply lookup_app_Some in Hk as [Hk|[Hk1 Hk2]]; [by apply Hby|].
        apply list_lookup_singleton_Some in Hk2 as [Hk2 <-]. rewrite app_length in Hk1, Hk2.
        rewrite bool_decide_eq_false_2 by lia. assert (k = length ch + length out)%nat as -> by lia.
        unfold visible_by, after, x; simpl. unfold c, y, w in *. nia.
    - (* VFire *) split; unfold on_the_way; simpl; try done. intros k z Hk. specialize (Hby k z Hk).
      case_bool_decide as Hkl; [done|]. etrans; [|exact Hby].
      pose proof (after_split (length ch) k ltac:(lia)). pose proof (after_pos k).
      unfold line_by. destruct (is_phase i) as [s0|s0 r0 h0 m0 a0|s0]; simpl in Hph.
      + destruct (bool_decide _ && _); unfold c, y, w in *; lia.
      + rewrite bool_decide_eq_false_2 by lia. unfold c, y, w in *. lia.
      + unfold c, y, w in *. lia.
    - (* VPut *) destruct (arrive_inv _ _ _ _ Hs E) as [_ Ep]. split; unfold on_the_way; simpl; rewrite ?En, ?Ep.
      + by rewrite fmap_app, Hch, E.
      + rewrite app_length. simpl. lia.
      + by apply came_ok.
      + done.
      + by rewrite Hall, <-app_assoc.
      + by rewrite <-app_assoc.
      + intros k z Hk. rewrite <-app_assoc in Hk. specialize (Hby k z Hk). etrans; [|exact Hby].
        rewrite app_length. simpl. rewrite (Nat.add_1_r (length ch)).
        assert (ISL : ∀ l, (length ch < cap)%nat → (l <= k)%nat → True) by done. clear ISL.
        destruct (is_phase i) as [s0|s0 r0 h0 m0 a0|s0]; simpl in *.
        * pose proof (after_pos k).
          destruct (Z.ltb_spec s0 (is_now i)); rewrite ?andb_true_r, ?andb_false_r; [|lia].
          do 2 case_bool_decide; unfold c, y, w in *; lia.
        * do 2 case_bool_decide; try lia.
          -- assert (k = length ch) as -> by lia. rewrite Nat.sub_diag. pose proof (after_pos 0). unfold c, y, w in *. nia.
          -- pose proof (after_step (k - S (length ch))) as Ha. replace (S (k - S (length ch))) with (k - length ch)%nat in Ha by lia.
             unfold c, y, w in *. nia.
        * lia.
      + done.
    - (* VNext *) split; unfold on_the_way; simpl; try done.
      + unfold w. lia.
      + intros k z Hk. specialize (Hby k z Hk). rewrite app_nil_r in Hk. apply lookup_lt_Some in Hk.
        by rewrite bool_decide_eq_true_2.
    - (* VApply *) destruct (update_inv _ _ _ _ Hs E) as (En & s0 & r0 & h0 & m0 & a0 & Ep & Ep').
      rewrite Ep in *. apply Forall_cons in Hat as [Hx Hat]. split; unfold on_the_way; simpl; rewrite ?En, ?Ep'.
      + rewrite E in Hch. by injection Hch as Hch.
      + lia.
      + simpl. unfold c. lia.
      + done.
      + by rewrite Hall, fmap_app, <-app_assoc.
      + done.
      + intros k z Hk. specialize (Hby (S k) z Hk). etrans; [|exact Hby].
        assert (line_by (IApply s0 (is_now i) h0 m0 (S a0)) (is_now i) (length ch) k <=
          line_by (IApply s0 r0 h0 m0 a0) (is_now i) (S (length ch)) (S k)) as Hl.
        { unfold line_by. do 2 case_bool_decide; try lia; simpl in Hph; unfold c, y, w in *; simpl; nia. }
        destruct r as [s1 out|out]; cbn [by_]; [|done]. do 2 case_bool_decide; try done; try lia.
        pose proof (after_step k). unfold c, y, w in *. lia.
      + intros z t [Hz|Hz]%elem_of_app; [by apply Hdn|]. apply elem_of_list_singleton in Hz.
        injection Hz as -> ->. split; [done|]. specialize (Hby 0%nat x eq_refl). simpl in Hph.
        destruct r as [s1 out|out]; simpl in Hby; unfold c, y, w in *; lia.
    - (* VLoop *)
      assert (length (is_chan i) = length ch) as El by by rewrite <-Hch, fmap_length.
      assert (∀ k, (length ch <= k)%nat → is_Some ((ch ++ r_items r) !! k) → ∀ out, r = RPut out → out ≠ []) as Hpend.
      { intros k Hk [z Hz] out -> ->. simpl in Hz. rewrite app_nil_r in Hz. apply lookup_lt_Some in Hz. lia. }
      assert (is_now i <= is_now i' ∧ phase_ok (is_now i') (is_phase i') ∧
        ∀ k, is_Some ((ch ++ r_items r) !! k) → (∀ s out, r = RPoll s out → k < length ch)%nat →
          line_by (is_phase i') (is_now i') (length ch) k <= line_by (is_phase i) (is_now i) (length ch) k) as (Hn & Hp & Hl).
      { destruct Hs as [u n ch0 ca ph to|d n ch0 ca s0 to Hd Hle|n ch0 ca s0 to Hle|d n ch0 ca s0 r0 h m a to Hd Hle|u n ch0 ca s0 r0 h m a to
          |n ch0 ca s0 r0 h m a to Hle|n ca s0 r0 h m a to|d n ch0 ca s0 to Hd Hle|o n ch0 ca s0 to Ho Hv]; simpl in *.
        - exfalso. apply (f_equal length) in E. rewrite app_length in E. simpl in E. lia.
        - split; [lia|]. split; [unfold w; lia|]. intros k Hk Hr. destruct (decide (d = 0)) as [-> |]; [by rewrite Z.add_0_r|].
          assert (length ch <= k → length ch < cap → False)%nat as Hfull.
          { intros Hk1 Hk2. specialize (Hwt ltac:(lia)). destruct r as [s1 out|[|z out]]; simpl in Hwt.
            - specialize (Hr s1 out eq_refl). lia.
            - done.
            - lia. }
          rewrite bool_decide_eq_false_2 by lia. simpl. lia.
        - split; [lia|]. split; [unfold c; lia|]. intros k Hk Hr. pose proof (after_pos k).
          assert (n = s0 + w) as -> by (unfold w in *; lia). replace (s0 <? s0 + w) with true by (symmetry; apply Z.ltb_lt; unfold w; lia).
          rewrite andb_true_r. case_bool_decide as H1; [rewrite bool_decide_eq_false_2 by lia|].
          + unfold after. unfold c, y, w in *. nia.
          + case_bool_decide as H2.
            * pose proof (after_split (length ch) k ltac:(lia)). unfold c, y, w in *. lia.
            * assert (length ch = cap) as -> by lia. pose proof (after_cap k ltac:(lia)). unfold c, y, w in *. lia.
        - split; [lia|]. split; [unfold c; lia|]. done.
        - exfalso. apply (f_equal length) in E. simpl in E. lia.
        - unfold lock_limit, c in *. lia.
        - split; [lia|]. split; [unfold y; lia|]. intros k Hk Hr. rewrite <-El. rewrite bool_decide_eq_false_2 by lia.
          rewrite Nat.sub_0_r. unfold c, y, w in *. lia.
        - split; [lia|]. split; [unfold y; lia|]. done.
        - split; [lia|]. split; [unfold w; lia|]. intros k Hk Hr. rewrite Z.ltb_irrefl, andb_false_r. unfold y in *. lia. }
      split; unfold on_the_way; simpl.
      + by rewrite Hch, E.
      + done.
      + done.
      + destruct r as [s1 out|out]; simpl in *; [|done]. destruct (decide (is_now i < is_now i')) as [Hlt|Hlt]; [|lia].
        specialize (Hwt Hlt). unfold w. lia.
      + done.
      + eapply Forall_impl; [exact Hat|]. simpl. intros z Hz. lia.
      + intros k z Hk. specialize (Hby k z Hk). destruct r as [s1 out|out]; simpl in *.
        * case_bool_decide; [|done]. etrans; [|exact Hby]. apply Hl; [by eexists|done].
        * etrans; [|exact Hby]. apply Hl; [by eexists|done].
      + done.
  Qed.
  Lemma vinv_init t : vinv (v_init t).
  Proof.
    pose proof sane as (Hw & Hc & Hy & Hcap). split; unfold on_the_way; simpl; try done; try lia; unfold w; try lia.
    by intros x u ?%elem_of_nil.
  Qed.
  Lemma vinv_reach cfg t s : rtc (vstep cfg p cap) (v_init t) s → vinv s.
  Proof.
    intros Hr. pose proof (vinv_init t) as H0. induction Hr as [|a b z Hs Hr IH]; [done|]. apply IH. by eapply vinv_step.
  Qed.
End bound.

Lemma visible_in_time cfg p cap t s : SaneVisible p cap → rtc (vstep cfg p cap) (v_init t) s →
  (∀ x t', (x, t') ∈ vs_done s → v_at x <= t' <= visible_by p cap x) ∧
  (∀ x, x ∈ vs_all s → x ∉ (vs_done s).*1 → is_now (vs_loop s) <= visible_by p cap x).
Proof.
  intros Hs Hr. destruct (vinv_reach p cap Hs cfg t s Hr) as [Hch Hcp Hph Hrd Hall Hat Hby Hdn]. split; [exact Hdn|].
  intros x Hx Hn. rewrite Hall in Hx. apply elem_of_app in Hx as [|Hx]; [done|].
  apply elem_of_list_lookup in Hx as [k Hk]. specialize (Hby k x Hk).
  pose proof (by_now p cap Hs (is_phase (vs_loop s)) (is_now (vs_loop s)) (vs_reader s) (length (vs_chan s)) k Hph Hrd). lia.
Qed.
Lemma visible_in_order cfg p cap t s : SaneVisible p cap → rtc (vstep cfg p cap) (v_init t) s →
  vs_all s = (vs_done s).*1 ++ on_the_way s ∧ v_upd <$> vs_chan s = is_chan (vs_loop s).
Proof. intros Hs Hr. by destruct (vinv_reach p cap Hs cfg t s Hr). Qed.
Lemma poll_length cfg p cap t s s' since out out' : SaneVisible p cap → rtc (vstep cfg p cap) (v_init t) s → vstep cfg p cap s s' →
  vs_reader s = RPoll since out → vs_reader s' = RPut out' → out' = out ∧ vs_chan s' = vs_chan s ∧ is_now (vs_loop s') = since + ip_wait p.
Proof.
  intros Hs Hr Hst E E'. destruct (vinv_reach p cap Hs cfg t s Hr) as [_ _ _ Hrd _ _ _ _].
  destruct Hst; simpl in *; try congruence. injection E as -> ->. injection E' as ->. simpl in Hrd. split; [done|]. split; [done|]. lia.
Qed.
Lemma visible_loop cfg p cap s s' : rtc (vstep cfg p cap) s s' → rtc (istep cfg p) (vs_loop s) (vs_loop s').
Proof.
  induction 1 as [|a b z Hs Hr IH]; [done|]. etrans; [|exact IH].
  destruct Hs; simpl; try done; by apply rtc_once.
Qed.

(** Twice the waiting time. *)
Lemma twice_the_wait cfg p cap t u : SaneVisible p cap → ∃ s,
  rtc (vstep cfg p cap) (v_init t) s ∧ vs_done s = [(VItem u t 0, t + 2 * ip_wait p)].
Proof.
  intros (Hw & Hc & Hy & Hcap). set (x := VItem u t 0). set (w := ip_wait p) in *.
  eexists. split.
  - eapply rtc_l; [exact (VTake cfg p cap u (i_init t) t [] [] [] [])|]. cbn [length Nat.add app]. fold x.
    eapply rtc_l.
    { apply (VLoop cfg p cap (i_init t) (IState (t + w) [] empty_cache (ISleep t) ∅)); [|done|simpl; lia].
      apply ISleeping; lia. }
    eapply rtc_l.
    { eapply (VLoop cfg p cap _ (IState (t + w) [] empty_cache (IApply (t + w) (t + w) 0 0 0) ∅)); [|done|simpl; lia].
      apply (IWake cfg p (t + w) [] empty_cache t ∅). unfold w. lia. }
    eapply rtc_l.
    { eapply (VLoop cfg p cap _ (IState (t + w) [] empty_cache (ICycle (t + w)) ∅)); [|done|simpl; lia]. apply IEmpty. }
    eapply rtc_l.
    { eapply (VLoop cfg p cap _ (IState (t + w) [] empty_cache (ISleep (t + w)) ∅)); [|done|simpl; lia].
      refine (ICycled cfg p (CycleOrders [] [] []) (t + w) [] empty_cache (t + w) ∅ _ _).
      - repeat split; simpl; by rewrite ?elements_empty, ?map_to_list_empty.
      - simpl. by intros v ?%elem_of_nil. }
    eapply rtc_l; [apply VFire; simpl; unfold w; lia|].
    eapply rtc_l.
    { eapply (VPut cfg p cap _ (IState (t + w) [u] empty_cache (ISleep (t + w)) ∅)); [simpl; lia| |done|done].
      apply (IArrive cfg p u (t + w) [] empty_cache (ISleep (t + w)) ∅). }
    eapply rtc_l; [apply VNext|].
    eapply rtc_l.
    { eapply (VLoop cfg p cap _ (IState (t + w + w) [u] empty_cache (ISleep (t + w)) ∅)); [|done|simpl; lia].
      apply ISleeping; unfold w; lia. }
    eapply rtc_l.
    { eapply (VLoop cfg p cap _ (IState (t + w + w) [u] empty_cache (IApply (t + w + w) (t + w + w) 1 0 0) ∅)); [|done|simpl; lia].
      apply (IWake cfg p (t + w + w) [u] empty_cache (t + w) ∅). unfold w. lia. }
    eapply rtc_l; [|apply rtc_refl].
    eapply (VApply cfg p cap _ (IState (t + w + w) [] (apply_update empty_cache u) (IApply (t + w + w) (t + w + w) 1 0 1) (<[u_key u := t + w + w]> ∅)) _ x);
      [|done]. apply IUpdate.
  - cbn. do 2 f_equal. lia.
Qed.
