(** Lemmas for C153. *)
From Coq Require Import ZArith Lia.
From stdpp Require Import prelude strings gmap relations.
From Verif.Model Require Import GoStrings Types Cache MemRepl Queues Timing Visible RedisVisible.
From Verif.Spec Require Import VisibleSpec RedisVisibleSpec.
From Verif.Proofs Require Import VisibleLemmas.
Local Open Scope Z_scope.

Section bound.
  Variables (p : iparams) (net : Z) (cap : nat).
  Hypothesis sane : SaneVisible p cap.
  Hypothesis sane_net : 0 <= net.
  Let c := ip_apply p.
  Let w := ip_wait p.
  Let y := ip_cycle p.
  Notation after := (after p cap).
  Notation line_by := (line_by p cap).
  Notation phase_ok := (phase_ok p).

  Lemma line_fire ph now l k : phase_ok now ph → line_by ph now l k <= now + (c + y + w) + after k.
  Proof.
    pose proof sane as (? & ? & ? & ?). pose proof (after_pos p cap sane k). intros Hp.
    destruct ph as [s0|s0 r0 h0 m0 a0|s0]; simpl in *.
    - destruct (bool_decide _ && _); unfold c, y, w in *; lia.
    - case_bool_decide.
      + unfold VisibleLemmas.after. unfold c, y, w in *. nia.
      + pose proof (after_split p cap sane l k ltac:(lia)). unfold c, y, w in *. lia.
    - unfold c, y, w in *. lia.
  Qed.
  Lemma line_put ph now l k : phase_ok now ph → (l < cap)%nat → line_by (i_came ph) now (S l) k <= line_by ph now l k.
  Proof.
    pose proof sane as (? & ? & ? & ?). intros Hph Hl. destruct ph as [s0|s0 r0 h0 m0 a0|s0]; simpl in *.
    - pose proof (after_pos p cap sane k).
      destruct (Z.ltb_spec s0 now); rewrite ?andb_true_r, ?andb_false_r; [|lia].
      do 2 case_bool_decide; unfold c, y, w in *; lia.
    - do 2 case_bool_decide; try lia.
      + assert (k = l) as -> by lia. rewrite Nat.sub_diag. pose proof (after_pos p cap sane 0). unfold c, y, w in *. nia.
      + pose proof (after_step p cap sane (k - S l)) as Ha. replace (S (k - S l)) with (k - l)%nat in Ha by lia.
        unfold c, y, w in *. nia.
    - lia.
  Qed.
  Lemma line_apply s0 r0 h m a now l k : r0 <= now <= r0 + c →
    line_by (IApply s0 now h m (S a)) now l k <= line_by (IApply s0 r0 h m a) now (S l) (S k).
  Proof.
    pose proof sane as (? & ? & ? & ?). intros Hph. unfold VisibleLemmas.line_by.
    do 2 case_bool_decide; try lia; unfold c, y, w in *; simpl; nia.
  Qed.
  Lemma loop_now cfg i i' : istep cfg p i i' → phase_ok (is_now i) (is_phase i) →
    is_now i <= is_now i' ∧ phase_ok (is_now i') (is_phase i').
  Proof.
    pose proof sane as (? & ? & ? & ?). intros Hs Hp. destruct Hs; simpl in *; try (unfold c, y, w in *; lia).
    split; [lia|]. by apply came_ok.
  Qed.
  Lemma line_loop cfg i i' k : istep cfg p i i' → is_chan i' = is_chan i → (length (is_chan i) <= cap)%nat →
    phase_ok (is_now i) (is_phase i) →
    (is_now i < is_now i' → (length (is_chan i) <= k)%nat → (cap <= length (is_chan i))%nat) →
    line_by (is_phase i') (is_now i') (length (is_chan i)) k <= line_by (is_phase i) (is_now i) (length (is_chan i)) k.
  Proof.
    pose proof sane as (Hw & Hc & Hy & Hcap). intros Hs E Hcp Hph Hfull. pose proof (after_pos p cap sane k).
    destruct Hs as [u n ch0 ca ph to|d n ch0 ca s0 to Hd Hle|n ch0 ca s0 to Hle|d n ch0 ca s0 r0 h m a to Hd Hle|u n ch0 ca s0 r0 h m a to
      |n ch0 ca s0 r0 h m a to Hle|n ca s0 r0 h m a to|d n ch0 ca s0 to Hd Hle|o n ch0 ca s0 to Ho Hv]; simpl in *; try done.
    - exfalso. apply (f_equal length) in E. rewrite app_length in E. simpl in E. lia.
    - destruct (decide (d = 0)) as [-> |]; [by rewrite Z.add_0_r|]. rewrite bool_decide_eq_false_2; [simpl; lia|]. intros [H1 H2]. specialize (Hfull ltac:(lia) H1). lia.
    - assert (n = s0 + w) as -> by (unfold w in *; lia). replace (s0 <? s0 + w) with true by (symmetry; apply Z.ltb_lt; unfold w; lia).
      rewrite andb_true_r. case_bool_decide as H1; [rewrite bool_decide_eq_false_2 by lia|].
      + unfold VisibleLemmas.after. unfold c, y, w in *. nia.
      + case_bool_decide as H2.
        * pose proof (after_split p cap sane (length ch0) k ltac:(lia)). unfold c, y, w in *. lia.
        * assert (length ch0 = cap) as -> by lia. pose proof (after_cap p cap sane k ltac:(lia)). unfold c, y, w in *. lia.
    - exfalso. apply (f_equal length) in E. simpl in E. lia.
    - unfold lock_limit, c in *. lia.
    - rewrite Nat.sub_0_r. unfold c, y, w in *. lia.
    - rewrite Z.ltb_irrefl, andb_false_r. unfold y in *. lia.
  Qed.

  (** By when the update with [k] before it is applied. *)
  Definition wby (ph : iphase) (now : instant) (r : qphase) (st : list vitem) (l k : nat) : Z :=
    if bool_decide (k < l)%nat then line_by ph now l k
    else if bool_decide (k < l + length (q_items r))%nat then
      match r with QReply s _ => s + net + (c + y + w) + after k | _ => line_by ph now l k end
    else match r with
      | QAsk s => Z.max s (match st with x :: _ => v_at x | [] => s end) + 2 * net + (c + y + w) + after k
      | QReply s _ => s + 3 * net + (c + y + w) + after k
      | QPut _ => now + 2 * net + (c + y + w) + after k
      end.
  Definition reader_fine (now : instant) (r : qphase) (st : list vitem) : Prop :=
    match r, st with
    | QAsk s, [] => s <= now
    | QAsk s, x :: _ => s <= now <= Z.max s (v_at x) + net
    | QReply s _, _ => s <= now <= s + net
    | QPut _, _ => True
    end.
  Record winv (s : wstate) : Prop := WInv {
    wi_chan : v_upd <$> ws_chan s = is_chan (ws_loop s);
    wi_cap : (length (ws_chan s) <= cap)%nat;
    wi_phase : phase_ok (is_now (ws_loop s)) (is_phase (ws_loop s));
    wi_reader : reader_fine (is_now (ws_loop s)) (ws_reader s) (ws_stream s);
    wi_all : ws_all s = (ws_done s).*1 ++ on_the_way_redis s;
    wi_at : Forall (λ x, v_at x <= is_now (ws_loop s)) (on_the_way_redis s);
    wi_pos : ∀ k x, on_the_way_redis s !! k = Some x → (k <= v_ahead x)%nat;
    wi_by : ∀ k x, on_the_way_redis s !! k = Some x → (v_ahead x < cap)%nat →
      wby (is_phase (ws_loop s)) (is_now (ws_loop s)) (ws_reader s) (ws_stream s) (length (ws_chan s)) k <= redis_visible_by p net x;
    wi_done : ∀ x t, (x, t) ∈ ws_done s → v_at x <= t ∧ ((v_ahead x < cap)%nat → t <= redis_visible_by p net x)
  }.
  Lemma after_small k : (k < cap)%nat → after k = (Z.of_nat k + 1) * c.
  Proof. intros Hk. unfold VisibleLemmas.after. rewrite (Nat.div_small _ _ Hk). unfold c. lia. Qed.
  Lemma wby_now ph now r st l k : phase_ok now ph → reader_fine now r st →
    (l + length (q_items r) <= k → st ≠ [])%nat → now <= wby ph now r st l k.
  Proof.
    pose proof sane as (? & ? & ? & ?). pose proof (after_pos p cap sane k). intros Hp Hr Hst. pose proof (line_by_now p cap sane ph now l k Hp).
    unfold wby. case_bool_decide; [done|]. case_bool_decide.
    - destruct r as [s|s got|got]; simpl in *; [lia| |done]. unfold c, y, w in *. lia.
    - specialize (Hst ltac:(lia)). destruct r as [s|s got|got]; simpl in Hr; [|unfold c, y, w in *; lia|unfold c, y, w in *; lia].
      destruct st as [|x st]; [done|]. unfold c, y, w in *. lia.
  Qed.

  Lemma winv_step cfg s s' : winv s → wstep cfg p net cap s s' → winv s'.
  Proof.
    pose proof sane as (Hw & Hc & Hy & Hcap). intros [Hch Hcp Hph Hrd Hall Hat Hpos Hby Hdn] Hs.
    destruct Hs as [u i r st ch dn al x|i since st ch dn al Hne|i since ch dn al Hf|i since got st ch dn al|i i' x got st ch dn al Hr Hs E En
      |i st ch dn al|i i' r st x ch dn al Hs E|i i' r st ch dn al Hs E Hwt];
      unfold on_the_way_redis in *; cbn [ws_loop ws_reader ws_stream ws_chan ws_done ws_all q_items] in *.
    - (* WAdd *) assert (∀ k z, (ch ++ q_items r ++ st ++ [x]) !! k = Some z →
        (ch ++ q_items r ++ st) !! k = Some z ∨ k = (length ch + length (q_items r) + length st)%nat ∧ z = x) as Hin.
      { intros k z Hk. rewrite !app_assoc in Hk. rewrite <-(app_assoc ch) in Hk. apply lookup_app_Some in Hk as [Hk|[Hk1 Hk2]]; [by left|].
        apply list_lookup_singleton_Some in Hk2 as [Hk2 <-]. rewrite !app_length in Hk1, Hk2. right. split; [lia|done]. }
      split; unfold on_the_way_redis; cbn [ws_loop ws_reader ws_stream ws_chan ws_done ws_all]; try done.
      + destruct r as [s|s got|got]; simpl in *; try done. destruct st as [|z st]; simpl in *; [|done]. lia.
      + by rewrite Hall, !app_assoc.
      + rewrite !app_assoc. apply Forall_app. rewrite <-(app_assoc ch). split; [done|]. apply Forall_cons_2; [simpl; lia|constructor].
      + intros k z [Hk|[-> ->]]%Hin; [by apply Hpos|]. simpl. lia.
      + intros k z Hk Ha. destruct (Hin k z Hk) as [Hk'|[-> ->]].
        * specialize (Hby k z Hk' Ha). etrans; [|exact Hby]. unfold wby. case_bool_decide; [done|]. case_bool_decide; [done|].
          destruct r as [s|s got|got]; try done. destruct st as [|z' st]; simpl; [|done]. exfalso.
          apply lookup_lt_Some in Hk'. rewrite app_length in Hk'. simpl in *. lia.
        * unfold wby. rewrite !bool_decide_eq_false_2 by lia. simpl in Ha. rewrite after_small by lia.
          unfold redis_visible_by, x; simpl. destruct r as [s|s got|got]; simpl in *; unfold c, y, w in *; [|lia|lia].
          destruct st as [|z' st]; simpl in *; [lia|]. apply Forall_app in Hat as [_ Hat]. apply Forall_cons in Hat as [Hz _]. lia.
    - (* WAnswer *) cbn [app] in *.
      split; unfold on_the_way_redis; cbn [ws_loop ws_reader ws_stream ws_chan ws_done ws_all q_items]; rewrite ?take_drop; try done.
      + simpl. lia.
      + intros k z Hk Ha. pose proof (Hpos k z Hk) as Hkp. specialize (Hby k z Hk Ha). etrans; [|exact Hby].
        unfold wby. case_bool_decide as H1; [done|]. cbn [q_items length]. rewrite Nat.add_0_r, (bool_decide_eq_false_2 (k < length ch)%nat) by lia.
        pose proof (lookup_lt_Some _ _ _ Hk) as Hlt. rewrite app_length in Hlt.
        rewrite bool_decide_eq_true_2 by (rewrite take_length; lia). destruct st as [|z' st]; [done|]. simpl in Hrd. lia.
    - (* WNone *) split; unfold on_the_way_redis; cbn [ws_loop ws_reader ws_stream ws_chan ws_done ws_all q_items app]; try done.
      + simpl. lia.
      + intros k z Hk Ha. specialize (Hby k z Hk Ha). rewrite !app_nil_r in Hk. apply lookup_lt_Some in Hk.
        unfold wby in *. by rewrite bool_decide_eq_true_2 in * by lia.
    - (* WReturn *) split; unfold on_the_way_redis; cbn [ws_loop ws_reader ws_stream ws_chan ws_done ws_all q_items]; try done.
      intros k z Hk Ha. specialize (Hby k z Hk Ha). etrans; [|exact Hby]. unfold wby. cbn [q_items]. simpl in Hrd.
      case_bool_decide; [done|]. pose proof (line_fire (is_phase i) (is_now i) (length ch) k Hph). case_bool_decide; unfold c, y, w in *; lia.
    - (* WPut *) destruct (arrive_inv p cfg _ _ _ Hs E) as [_ Ep].
      split; unfold on_the_way_redis; cbn [ws_loop ws_reader ws_stream ws_chan ws_done ws_all q_items]; rewrite ?En, ?Ep, <-?app_assoc; try done.
      + by rewrite fmap_app, Hch, E.
      + rewrite app_length. simpl. lia.
      + by apply came_ok.
      + intros k z Hk Ha. specialize (Hby k z Hk Ha). etrans; [|exact Hby].
        rewrite app_length. cbn [length]. rewrite (Nat.add_1_r (length ch)).
        pose proof (line_put (is_phase i) (is_now i) (length ch) k Hph Hr). unfold wby. cbn [q_items length].
        repeat case_bool_decide; try lia.
    - (* WNext *) cbn [app] in *. split; unfold on_the_way_redis; cbn [ws_loop ws_reader ws_stream ws_chan ws_done ws_all q_items app]; try done.
      + destruct st as [|z st]; simpl; lia.
      + intros k z Hk Ha. specialize (Hby k z Hk Ha). etrans; [|exact Hby]. unfold wby. cbn [q_items length].
        case_bool_decide; [done|]. case_bool_decide; [done|]. destruct st as [|z' st]; [lia|].
        apply Forall_app in Hat as [_ Hat]. apply Forall_cons in Hat as [Hz _]. lia.
    - (* WApply *) destruct (update_inv p cfg _ _ _ Hs E) as (En & s0 & r0 & h0 & m0 & a0 & Ep & Ep').
      rewrite Ep in *. simpl in Hph. cbn [app] in *. apply Forall_cons in Hat as [Hx Hat].
      split; unfold on_the_way_redis; cbn [ws_loop ws_reader ws_stream ws_chan ws_done ws_all q_items]; rewrite ?En, ?Ep'; try done.
      + rewrite E in Hch. by injection Hch as Hch.
      + simpl in Hcp. lia.
      + simpl. lia.
      + by rewrite Hall, fmap_app, <-app_assoc.
      + intros k z Hk. specialize (Hpos (S k) z Hk). lia.
      + intros k z Hk Ha. specialize (Hby (S k) z Hk Ha). etrans; [|exact Hby].
        pose proof (line_apply s0 r0 h0 m0 a0 (is_now i) (length ch) k Hph) as Hl. pose proof (after_step p cap sane k).
        unfold wby. cbn [length]. destruct r as [s|s got|got]; repeat case_bool_decide; unfold c, y, w in *; simpl in *; try lia.
      + intros z t [Hz|Hz]%elem_of_app; [by apply Hdn|]. apply elem_of_list_singleton in Hz.
        injection Hz as -> ->. split; [done|]. intros Ha. specialize (Hby 0%nat x eq_refl Ha).
        unfold wby in Hby. rewrite bool_decide_eq_true_2 in Hby by (simpl; lia). simpl in Hby. unfold c, y, w in *. lia.
    - (* WLoop *)
      assert (length (is_chan i) = length ch) as El by by rewrite <-Hch, fmap_length.
      destruct (loop_now cfg i i' Hs Hph) as [Hn Hp].
      split; unfold on_the_way_redis; cbn [ws_loop ws_reader ws_stream ws_chan ws_done ws_all q_items]; try done.
      + by rewrite Hch, E.
      + destruct (decide (is_now i < is_now i')) as [Hlt|Hlt].
        * specialize (Hwt Hlt). destruct r as [s|s got|got]; simpl in *; [destruct st; lia|lia|done].
        * assert (is_now i' = is_now i) as -> by lia. done.
      + eapply Forall_impl; [exact Hat|]. simpl. intros z Hz. lia.
      + intros k z Hk Ha. pose proof (Hpos k z Hk) as Hkp. specialize (Hby k z Hk Ha). etrans; [|exact Hby].
        assert (is_now i < is_now i' → (length ch <= k)%nat → (k < length ch + length (q_items r))%nat → (cap <= length ch)%nat ∨ ∃ s got, r = QReply s got) as Hfull.
        { intros Hlt H1 H2. specialize (Hwt Hlt). destruct r as [s|s got|[|z' got]]; simpl in *; [lia|right; by eexists _, _|done|]. rewrite E in Hwt. lia. }
        unfold wby. case_bool_decide as H1; [|case_bool_decide as H2].
        * rewrite <-El. apply (line_loop cfg); rewrite ?El; try done. lia.
        * destruct r as [s|s got|got]; [simpl in H2; lia|done|].
          rewrite <-El. apply (line_loop cfg); rewrite ?El; try done. intros Hlt H3.
          destruct (Hfull Hlt H3 H2) as [|(? & ? & ?)]; [done|discriminate].
        * destruct r as [s|s got|got]; try done. destruct (decide (is_now i < is_now i')) as [Hlt|Hlt]; [|lia].
          specialize (Hwt Hlt). destruct got as [|z' got]; simpl in *; [done|]. rewrite E in Hwt. lia.
  Qed.
  Lemma winv_init t : winv (w_init t).
  Proof.
    pose proof sane as (Hw & Hc & Hy & Hcap). split; unfold on_the_way_redis; simpl; try done; try lia; unfold w; try lia.
    by intros x u ?%elem_of_nil.
  Qed.
  Lemma winv_reach cfg t s : rtc (wstep cfg p net cap) (w_init t) s → winv s.
  Proof.
    intros Hr. pose proof (winv_init t) as H0. induction Hr as [|a b z Hs Hr IH]; [done|]. apply IH. by eapply winv_step.
  Qed.

  (** ** Any number of updates ahead *)
  Definition polls (j : nat) : Z := (Z.of_nat (j / cap) + 1) * (2 * net + 2 * (c + y + w)).
  Lemma polls_cap j : (cap <= j)%nat → polls j = polls (j - cap) + (2 * net + 2 * (c + y + w)).
  Proof.
    intros Hl. pose proof sane as (? & ? & ? & ?). unfold polls.
    assert (j / cap = S ((j - cap) / cap))%nat as ->.
    { replace j with ((j - cap) + 1 * cap)%nat at 1 by lia. rewrite Nat.div_add by lia. lia. }
    lia.
  Qed.
  Lemma polls_mono i j : (i <= j)%nat → polls i <= polls j.
  Proof.
    intros Hl. pose proof sane as (? & ? & ? & ?). unfold polls.
    assert (i / cap <= j / cap)%nat by (apply Nat.div_le_mono; lia). unfold c, y, w in *. nia.
  Qed.
  Lemma polls_pos j : 2 * net + 2 * (c + y + w) <= polls j.
  Proof. pose proof sane as (? & ? & ? & ?). unfold polls, c, y, w in *. nia. Qed.
  Lemma after_gap l k : (l <= cap)%nat → (l <= k)%nat → after k <= Z.of_nat l * c + (c + y + w) + after (k - l).
  Proof.
    intros Hl Hk. pose proof sane as (? & ? & ? & ?). unfold VisibleLemmas.after.
    assert (k / cap <= S ((k - l) / cap))%nat as Hd.
    { replace (S ((k - l) / cap)) with ((k - l + 1 * cap) / cap)%nat by (rewrite Nat.div_add by lia; lia).
      apply Nat.div_le_mono; lia. }
    unfold c, y, w in *. nia.
  Qed.
  Lemma line_back ph now l k : phase_ok now ph → (l <= cap)%nat → (l <= k)%nat → now + after k <= line_by ph now l k + (c + y + w).
  Proof.
    pose proof sane as (? & ? & ? & ?). intros Hp Hl Hk. pose proof (after_gap l k Hl Hk). destruct ph as [s0|s0 r0 h0 m0 a0|s0]; simpl in *.
    - destruct (bool_decide _ && _); unfold c, y, w in *; lia.
    - rewrite bool_decide_eq_false_2 by lia. unfold c, y, w in *. lia.
    - unfold c, y, w in *. lia.
  Qed.
  (** By when the update with [k] before it is applied. *)
  Definition gby (ph : iphase) (now : instant) (r : qphase) (st : list vitem) (l k : nat) : Z :=
    if bool_decide (k < l)%nat then line_by ph now l k
    else if bool_decide (k < l + length (q_items r))%nat then
      match r with QReply s _ => s + net + (c + y + w) + after k | _ => line_by ph now l k end
    else match r with
      | QAsk s => Z.max s (match st with x :: _ => v_at x | [] => s end) + polls (k - l) + after k
      | QReply s got => s + net + polls (k - l - length got) + 2 * (c + y + w) + after k
      | QPut got => line_by ph now l k + polls (k - l - length got) + (c + y + w)
      end.
  Record ginv (s : wstate) : Prop := GInv {
    gi_chan : v_upd <$> ws_chan s = is_chan (ws_loop s);
    gi_cap : (length (ws_chan s) <= cap)%nat;
    gi_phase : phase_ok (is_now (ws_loop s)) (is_phase (ws_loop s));
    gi_reader : reader_fine (is_now (ws_loop s)) (ws_reader s) (ws_stream s);
    gi_all : ws_all s = (ws_done s).*1 ++ on_the_way_redis s;
    gi_at : Forall (λ x, v_at x <= is_now (ws_loop s)) (on_the_way_redis s);
    gi_pos : ∀ k x, on_the_way_redis s !! k = Some x → (k <= v_ahead x)%nat;
    gi_by : ∀ k x, on_the_way_redis s !! k = Some x →
      gby (is_phase (ws_loop s)) (is_now (ws_loop s)) (ws_reader s) (ws_stream s) (length (ws_chan s)) k <= redis_visible_by_any p net cap x;
    gi_done : ∀ x t, (x, t) ∈ ws_done s → v_at x <= t <= redis_visible_by_any p net cap x
  }.
  Lemma by_any x : redis_visible_by_any p net cap x = v_at x + net + 2 * (c + y + w) + polls (v_ahead x) + after (v_ahead x).
  Proof. unfold redis_visible_by_any, polls, VisibleLemmas.after. unfold c, y, w. lia. Qed.
  Lemma gby_now ph now r st l k : phase_ok now ph → reader_fine now r st →
    (l + length (q_items r) <= k → st ≠ [])%nat → now <= gby ph now r st l k.
  Proof.
    pose proof sane as (? & ? & ? & ?). pose proof (after_pos p cap sane k). intros Hp Hr Hst. pose proof (line_by_now p cap sane ph now l k Hp).
    unfold gby. case_bool_decide; [done|]. case_bool_decide.
    - destruct r as [s|s got|got]; simpl in *; [lia| |done]. unfold c, y, w in *. lia.
    - specialize (Hst ltac:(lia)). pose proof (polls_pos (k - l)). destruct r as [s|s got|got]; simpl in Hr; [|pose proof (polls_pos (k - l - length got)); unfold c, y, w in *; lia|pose proof (polls_pos (k - l - length got)); unfold c, y, w in *; lia].
      destruct st as [|x st]; [done|]. unfold c, y, w in *. lia.
  Qed.

  Lemma ginv_step cfg s s' : ginv s → wstep cfg p net cap s s' → ginv s'.
  Proof.
    pose proof sane as (Hw & Hc & Hy & Hcap). intros [Hch Hcp Hph Hrd Hall Hat Hpos Hby Hdn] Hs.
    destruct Hs as [u i r st ch dn al x|i since st ch dn al Hne|i since ch dn al Hf|i since got st ch dn al|i i' x got st ch dn al Hr Hs E En
      |i st ch dn al|i i' r st x ch dn al Hs E|i i' r st ch dn al Hs E Hwt];
      unfold on_the_way_redis in *; cbn [ws_loop ws_reader ws_stream ws_chan ws_done ws_all q_items] in *.
    - (* WAdd *) assert (∀ k z, (ch ++ q_items r ++ st ++ [x]) !! k = Some z →
        (ch ++ q_items r ++ st) !! k = Some z ∨ k = (length ch + length (q_items r) + length st)%nat ∧ z = x) as Hin.
      { intros k z Hk. rewrite !app_assoc in Hk. rewrite <-(app_assoc ch) in Hk. apply lookup_app_Some in Hk as [Hk|[Hk1 Hk2]]; [by left|].
        apply list_lookup_singleton_Some in Hk2 as [Hk2 <-]. rewrite !app_length in Hk1, Hk2. right. split; [lia|done]. }
      split; unfold on_the_way_redis; cbn [ws_loop ws_reader ws_stream ws_chan ws_done ws_all]; try done.
      + destruct r as [s|s got|got]; simpl in *; try done. destruct st as [|z st]; simpl in *; [|done]. lia.
      + by rewrite Hall, !app_assoc.
      + rewrite !app_assoc. apply Forall_app. rewrite <-(app_assoc ch). split; [done|]. apply Forall_cons_2; [simpl; lia|constructor].
      + intros k z [Hk|[-> ->]]%Hin; [by apply Hpos|]. simpl. lia.
      + intros k z Hk. destruct (Hin k z Hk) as [Hk'|[-> ->]].
        * specialize (Hby k z Hk'). etrans; [|exact Hby]. unfold gby. case_bool_decide; [done|]. case_bool_decide; [done|].
          destruct r as [s|s got|got]; try done. destruct st as [|z' st]; simpl; [|done]. exfalso.
          apply lookup_lt_Some in Hk'. rewrite app_length in Hk'. simpl in *. lia.
        * unfold gby. rewrite !bool_decide_eq_false_2 by lia. rewrite by_any. change (v_at x) with (is_now i). change (v_ahead x) with (length ch + length (q_items r) + length st)%nat. set (k := (length ch + length (q_items r) + length st)%nat) in *.
          pose proof (line_fire (is_phase i) (is_now i) (length ch) k Hph).
          destruct r as [s|s got|got]; simpl in Hrd; cbn [q_items length] in *.
          -- pose proof (polls_mono (k - length ch) k ltac:(lia)). destruct st as [|z' st]; simpl in *; [unfold x, c, y, w in *; simpl; lia|].
             apply Forall_app in Hat as [_ Hat]. apply Forall_cons in Hat as [Hz _]. unfold c, y, w in *. lia.
          -- pose proof (polls_mono (k - length ch - length got) k ltac:(lia)). unfold c, y, w in *. lia.
          -- pose proof (polls_mono (k - length ch - length got) k ltac:(lia)). unfold c, y, w in *. lia.
    - (* WAnswer *) cbn [app] in *.
      split; unfold on_the_way_redis; cbn [ws_loop ws_reader ws_stream ws_chan ws_done ws_all q_items]; rewrite ?take_drop; try done.
      + simpl. lia.
      + intros k z Hk. pose proof (Hpos k z Hk) as Hkp. specialize (Hby k z Hk). etrans; [|exact Hby].
        unfold gby. case_bool_decide as H1; [done|]. cbn [q_items length]. rewrite Nat.add_0_r, (bool_decide_eq_false_2 (k < length ch)%nat) by lia.
        pose proof (lookup_lt_Some _ _ _ Hk) as Hlt. rewrite app_length in Hlt.
        pose proof (polls_pos (k - length ch)). rewrite take_length. destruct st as [|z' st]; [done|]. simpl in Hrd. case_bool_decide as H2.
        * unfold c, y, w in *. lia.
        * rewrite Nat.min_l by (simpl in *; lia). pose proof (polls_cap (k - length ch)). unfold c, y, w in *. lia.
    - (* WNone *) split; unfold on_the_way_redis; cbn [ws_loop ws_reader ws_stream ws_chan ws_done ws_all q_items app]; try done.
      + simpl. lia.
      + intros k z Hk. specialize (Hby k z Hk). rewrite !app_nil_r in Hk. apply lookup_lt_Some in Hk.
        unfold gby in *. by rewrite bool_decide_eq_true_2 in * by lia.
    - (* WReturn *) split; unfold on_the_way_redis; cbn [ws_loop ws_reader ws_stream ws_chan ws_done ws_all q_items]; try done.
      intros k z Hk. specialize (Hby k z Hk). etrans; [|exact Hby]. unfold gby. cbn [q_items]. simpl in Hrd.
      case_bool_decide; [done|]. pose proof (line_fire (is_phase i) (is_now i) (length ch) k Hph). case_bool_decide; unfold c, y, w in *; lia.
    - (* WPut *) destruct (arrive_inv p cfg _ _ _ Hs E) as [_ Ep].
      split; unfold on_the_way_redis; cbn [ws_loop ws_reader ws_stream ws_chan ws_done ws_all q_items]; rewrite ?En, ?Ep, <-?app_assoc; try done.
      + by rewrite fmap_app, Hch, E.
      + rewrite app_length. simpl. lia.
      + by apply came_ok.
      + intros k z Hk. specialize (Hby k z Hk). etrans; [|exact Hby].
        rewrite app_length. cbn [length]. rewrite (Nat.add_1_r (length ch)).
        pose proof (line_put (is_phase i) (is_now i) (length ch) k Hph Hr). unfold gby. cbn [q_items length].
        replace (k - S (length ch) - length got)%nat with (k - length ch - S (length got))%nat by lia. repeat case_bool_decide; try lia.
    - (* WNext *) cbn [app] in *. split; unfold on_the_way_redis; cbn [ws_loop ws_reader ws_stream ws_chan ws_done ws_all q_items app]; try done.
      + destruct st as [|z st]; simpl; lia.
      + intros k z Hk. specialize (Hby k z Hk). etrans; [|exact Hby]. unfold gby. cbn [q_items length].
        case_bool_decide; [done|]. rewrite Nat.add_0_r, Nat.sub_0_r, bool_decide_eq_false_2 by lia.
        pose proof (line_back (is_phase i) (is_now i) (length ch) k Hph Hcp ltac:(lia)). destruct st as [|z' st]; [lia|].
        apply Forall_app in Hat as [_ Hat]. apply Forall_cons in Hat as [Hz _]. lia.
    - (* WApply *) destruct (update_inv p cfg _ _ _ Hs E) as (En & s0 & r0 & h0 & m0 & a0 & Ep & Ep').
      rewrite Ep in *. simpl in Hph. cbn [app] in *. apply Forall_cons in Hat as [Hx Hat].
      split; unfold on_the_way_redis; cbn [ws_loop ws_reader ws_stream ws_chan ws_done ws_all q_items]; rewrite ?En, ?Ep'; try done.
      + rewrite E in Hch. by injection Hch as Hch.
      + simpl in Hcp. lia.
      + simpl. lia.
      + by rewrite Hall, fmap_app, <-app_assoc.
      + intros k z Hk. specialize (Hpos (S k) z Hk). lia.
      + intros k z Hk. specialize (Hby (S k) z Hk). etrans; [|exact Hby].
        pose proof (line_apply s0 r0 h0 m0 a0 (is_now i) (length ch) k Hph) as Hl. pose proof (after_step p cap sane k).
        unfold gby. cbn [length]. destruct r as [s|s got|got]; repeat case_bool_decide; unfold c, y, w in *; simpl in *; try lia.
      + intros z t [Hz|Hz]%elem_of_app; [by apply Hdn|]. apply elem_of_list_singleton in Hz.
        injection Hz as -> ->. split; [done|]. specialize (Hby 0%nat x eq_refl).
        unfold gby in Hby. rewrite bool_decide_eq_true_2 in Hby by (simpl; lia). simpl in Hby. unfold c, y, w in *. lia.
    - (* WLoop *)
      assert (length (is_chan i) = length ch) as El by by rewrite <-Hch, fmap_length.
      destruct (loop_now cfg i i' Hs Hph) as [Hn Hp].
      split; unfold on_the_way_redis; cbn [ws_loop ws_reader ws_stream ws_chan ws_done ws_all q_items]; try done.
      + by rewrite Hch, E.
      + destruct (decide (is_now i < is_now i')) as [Hlt|Hlt].
        * specialize (Hwt Hlt). destruct r as [s|s got|got]; simpl in *; [destruct st; lia|lia|done].
        * assert (is_now i' = is_now i) as -> by lia. done.
      + eapply Forall_impl; [exact Hat|]. simpl. intros z Hz. lia.
      + intros k z Hk. pose proof (Hpos k z Hk) as Hkp. specialize (Hby k z Hk). etrans; [|exact Hby].
        assert (is_now i < is_now i' → (length ch <= k)%nat → (k < length ch + length (q_items r))%nat → (cap <= length ch)%nat ∨ ∃ s got, r = QReply s got) as Hfull.
        { intros Hlt H1 H2. specialize (Hwt Hlt). destruct r as [s|s got|[|z' got]]; simpl in *; [lia|right; by eexists _, _|done|]. rewrite E in Hwt. lia. }
        unfold gby. case_bool_decide as H1; [|case_bool_decide as H2].
        * rewrite <-El. apply (line_loop cfg); rewrite ?El; try done. lia.
        * destruct r as [s|s got|got]; [simpl in H2; lia|done|].
          rewrite <-El. apply (line_loop cfg); rewrite ?El; try done. intros Hlt H3.
          destruct (Hfull Hlt H3 H2) as [|(? & ? & ?)]; [done|discriminate].
        * destruct r as [s|s got|got]; try done. apply Z.add_le_mono_r, Z.add_le_mono_r.
          rewrite <-El. apply (line_loop cfg); rewrite ?El; try done. intros Hlt _.
          specialize (Hwt Hlt). destruct got as [|z' got]; simpl in *; [done|]. rewrite E in Hwt. lia.
  Qed.
  Lemma ginv_init t : ginv (w_init t).
  Proof.
    pose proof sane as (Hw & Hc & Hy & Hcap). split; unfold on_the_way_redis; simpl; try done; try lia; unfold w; try lia.
    by intros x u ?%elem_of_nil.
  Qed.
  Lemma ginv_reach cfg t s : rtc (wstep cfg p net cap) (w_init t) s → ginv s.
  Proof.
    intros Hr. pose proof (ginv_init t) as H0. induction Hr as [|a b z Hs Hr IH]; [done|]. apply IH. by eapply ginv_step.
  Qed.
End bound.

Lemma redis_in_time cfg p net cap t s : SaneVisible p cap → 0 <= net → rtc (wstep cfg p net cap) (w_init t) s →
  (∀ x t', (x, t') ∈ ws_done s → (v_ahead x < cap)%nat → v_at x <= t' <= redis_visible_by p net x) ∧
  (∀ x, x ∈ ws_all s → x ∉ (ws_done s).*1 → (v_ahead x < cap)%nat → is_now (ws_loop s) <= redis_visible_by p net x).
Proof.
  intros Hs Hnet Hr. destruct (winv_reach p net cap Hs Hnet cfg t s Hr) as [Hch Hcp Hph Hrd Hall Hat Hpos Hby Hdn]. split.
  - intros x t' Hx Ha. destruct (Hdn x t' Hx) as [H1 H2]. by specialize (H2 Ha).
  - intros x Hx Hn Ha. rewrite Hall in Hx. apply elem_of_app in Hx as [|Hx]; [done|].
    apply elem_of_list_lookup in Hx as [k Hk]. specialize (Hby k x Hk Ha).
    enough (is_now (ws_loop s) <= wby p net cap (is_phase (ws_loop s)) (is_now (ws_loop s)) (ws_reader s) (ws_stream s) (length (ws_chan s)) k) by lia.
    apply wby_now; try done. intros Hle E. apply lookup_lt_Some in Hk. unfold on_the_way_redis in Hk. rewrite E, !app_length in Hk. simpl in Hk. lia.
Qed.
Lemma redis_in_time_any cfg p net cap t s : SaneVisible p cap → 0 <= net → rtc (wstep cfg p net cap) (w_init t) s →
  (∀ x t', (x, t') ∈ ws_done s → v_at x <= t' <= redis_visible_by_any p net cap x) ∧
  (∀ x, x ∈ ws_all s → x ∉ (ws_done s).*1 → is_now (ws_loop s) <= redis_visible_by_any p net cap x).
Proof.
  intros Hs Hnet Hr. destruct (ginv_reach p net cap Hs Hnet cfg t s Hr) as [Hch Hcp Hph Hrd Hall Hat Hpos Hby Hdn]. split; [done|].
  intros x Hx Hn. rewrite Hall in Hx. apply elem_of_app in Hx as [|Hx]; [done|].
  apply elem_of_list_lookup in Hx as [k Hk]. specialize (Hby k x Hk).
  enough (is_now (ws_loop s) <= gby p net cap (is_phase (ws_loop s)) (is_now (ws_loop s)) (ws_reader s) (ws_stream s) (length (ws_chan s)) k) by lia.
  apply gby_now; try done. intros Hle E. apply lookup_lt_Some in Hk. unfold on_the_way_redis in Hk. rewrite E, !app_length in Hk. simpl in Hk. lia.
Qed.
Lemma redis_in_order cfg p net cap t s : SaneVisible p cap → 0 <= net → rtc (wstep cfg p net cap) (w_init t) s →
  ws_all s = (ws_done s).*1 ++ on_the_way_redis s ∧ v_upd <$> ws_chan s = is_chan (ws_loop s).
Proof. intros Hs Hn Hr. by destruct (winv_reach p net cap Hs Hn cfg t s Hr). Qed.
Lemma redis_loop cfg p net cap s s' : rtc (wstep cfg p net cap) s s' → rtc (istep cfg p) (ws_loop s) (ws_loop s').
Proof.
  induction 1 as [|a b z Hs Hr IH]; [done|]. etrans; [|exact IH].
  destruct Hs; simpl; try done; by apply rtc_once.
Qed.

(** ** Questions to Redis *)
Definition ask_fine (p : iparams) (net : Z) (s : wstate) : Prop :=
  match ws_reader s, ws_stream s with QAsk since, [] => is_now (ws_loop s) <= since + ip_wait p + net | _, _ => True end.
Lemma ask_fine_reach cfg p net cap t s : SaneVisible p cap → 0 <= net → rtc (wstep cfg p net cap) (w_init t) s → ask_fine p net s.
Proof.
  intros (Hw & _) Hn Hr. assert (ask_fine p net (w_init t)) as H0 by (unfold ask_fine; simpl; lia).
  induction Hr as [|a b z Hs Hr IH]; [done|]. apply IH. clear IH Hr.
  destruct Hs as [u i r st ch dn al x|i since st ch dn al Hne|i since ch dn al Hf|i since got st ch dn al|i i' x got st ch dn al Hr Hs E En
      |i st ch dn al|i i' r st x ch dn al Hs E|i i' r st ch dn al Hs E Hwt]; unfold ask_fine in *; cbn [ws_loop ws_reader ws_stream] in *; try done.
  - destruct r, st; done.
  - destruct st; [lia|done].
  - destruct (update_inv p cfg _ _ _ Hs E) as (En & _). by rewrite En.
  - destruct r as [since|since got|got]; try done. destruct st; [|done].
    destruct (decide (is_now i < is_now i')) as [Hlt|Hlt]; [by apply Hwt|]. lia.
Qed.
Lemma question_length cfg p net cap t s s' since since' got : SaneVisible p cap → 0 <= net → rtc (wstep cfg p net cap) (w_init t) s → wstep cfg p net cap s s' →
  ws_reader s = QAsk since → ws_reader s' = QReply since' got →
  since' = is_now (ws_loop s) ∧ got = take cap (ws_stream s) ∧ ws_stream s' = drop cap (ws_stream s) ∧
  match ws_stream s with
  | [] => since + ip_wait p <= since' <= since + ip_wait p + net
  | x :: _ => since <= since' <= Z.max since (v_at x) + net
  end.
Proof.
  intros Hs Hn Hr Hst E E'. pose proof (ask_fine_reach cfg p net cap t s Hs Hn Hr) as Ha.
  destruct (winv_reach p net cap Hs Hn cfg t s Hr) as [_ _ _ Hrd _ _ _ _ _].
  destruct Hst as [| i s0 st ch dn al Hne|i s0 ch dn al Hf| | | | |]; cbn [ws_loop ws_reader ws_stream] in *; try congruence.
  - injection E as ->. injection E' as <- <-. do 3 (split; [done|]). destruct st as [|x st]; [done|]. exact Hrd.
  - injection E as ->. injection E' as <- <-. unfold ask_fine in Ha. simpl in Ha. rewrite take_nil, drop_nil. do 3 (split; [done|]). done.
Qed.

(** The waiting time. *)
Lemma redis_the_wait cfg p net cap t u : SaneVisible p cap → 0 <= net → ∃ s,
  rtc (wstep cfg p net cap) (w_init t) s ∧ ws_done s = [(VItem u t 0, t + ip_wait p)].
Proof.
  intros (Hw & Hc & Hy & Hcap) Hnet. set (x := VItem u t 0). set (w := ip_wait p) in *.
  eexists. split.
  - eapply (rtc_l _ _ (WState (i_init t) (QAsk t) [x] [] [] [x])); [exact (WAdd cfg p net cap u (i_init t) (QAsk t) [] [] [] [])|].
    eapply (rtc_l _ _ (WState (i_init t) (QReply t [x]) [] [] [] [x])).
    { pose proof (WAnswer cfg p net cap (i_init t) t [x] [] [] [x] ltac:(done)) as H. destruct cap as [|cap']; [lia|].
      cbn [take drop] in H. rewrite take_nil, drop_nil in H. exact H. }
    eapply rtc_l; [apply WReturn|].
    eapply rtc_l.
    { eapply (WPut cfg p net cap _ (IState t [u] empty_cache (ISleep t) ∅)); [simpl; lia| |done|done].
      apply (IArrive cfg p u t [] empty_cache (ISleep t) ∅). }
    eapply rtc_l; [apply WNext|].
    eapply rtc_l.
    { eapply (WLoop cfg p net cap _ (IState (t + w) [u] empty_cache (ISleep t) ∅)); [|done|simpl; lia].
      apply ISleeping; unfold w; lia. }
    eapply rtc_l.
    { eapply (WLoop cfg p net cap _ (IState (t + w) [u] empty_cache (IApply (t + w) (t + w) 1 0 0) ∅)); [|done|simpl; lia].
      apply (IWake cfg p (t + w) [u] empty_cache t ∅). unfold w. lia. }
    eapply rtc_l; [|apply rtc_refl].
    eapply (WApply cfg p net cap _ (IState (t + w) [] (apply_update empty_cache u) (IApply (t + w) (t + w) 1 0 1) (<[u_key u := t + w]> ∅)) _ _ x);
      [|done]. apply IUpdate.
  - done.
Qed.
