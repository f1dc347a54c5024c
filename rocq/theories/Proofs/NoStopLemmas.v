(** Proofs for C157: the loops with their times never get stuck. *)
From Coq Require Import String ZArith Lia.
From stdpp Require Import prelude strings gmap relations.
From Verif.Model Require Import GoStrings Types Filter Cache MemRepl RedisRepl Queues Timing Visible RedisVisible Arrival RedisArrival.
From Verif.Spec Require Import TimingSpec VisibleSpec RedisVisibleSpec ArrivalSpec RedisArrivalSpec.
From Verif.Proofs Require Import VisibleLemmas RedisVisibleLemmas ArrivalLemmas RedisArrivalLemmas.
Local Open Scope Z_scope.

(** ** The loop that applies updates goes back to sleep *)
Lemma orders_now cfg c (n : instant) : ∃ o, orders_fit cfg o c ∧ ∀ v, v ∈ v_inactive o ++ v_tickets o ++ v_assign o → v.2 = n.
Proof.
  set (at_ := λ k : string, (k, n)).
  set (i := at_ <$> elements (c_inactive c)).
  set (c1 := apply_ops c (pass1_ops (cfg_ticket_ttl cfg) (CycleOrders i [] []))).
  exists (CycleOrders i (at_ <$> (map_to_list (c_tickets c1)).*1) (at_ <$> (map_to_list (c_assign c)).*1)).
  assert (∀ l : list string, (at_ <$> l).*1 = l) as E.
  { intros l. rewrite <-list_fmap_compose. rewrite <-(list_fmap_id l) at 2. by apply list_fmap_ext. }
  split.
  - unfold orders_fit. cbn [v_inactive v_tickets v_assign]. unfold i. rewrite !E. split; [done|]. split; [|done]. done.
  - cbn [v_inactive v_tickets v_assign]. unfold i. intros v. rewrite !elem_of_app, !elem_of_list_fmap. by intros [(k & -> & _)|[(k & -> & _)|(k & -> & _)]].
Qed.

Section loop.
  Context (cfg : config) (p : iparams) (cap : nat) (sane : SaneVisible p cap).
  Notation w := (ip_wait p).

  (** Steps of the loop that take no time. *)
  Definition lstate : Type := istate * list vitem * list (vitem * instant).
  Definition lstep (a b : lstate) : Prop :=
    let '(i, ch, dn) := a in let '(i', ch', dn') := b in
    istep cfg p i i' ∧ is_now i' = is_now i ∧
    (is_chan i' = is_chan i ∧ ch' = ch ∧ dn' = dn ∨
     ∃ x, ch = x :: ch' ∧ is_chan i = v_upd x :: is_chan i' ∧ dn' = dn ++ [(x, is_now i')]).
  Definition asleep (n : instant) (i : istate) : Prop := is_now i = n ∧ ∃ s, is_phase i = ISleep s ∧ n < s + w.

  Lemma cycle_rests n c ca s to ch dn : s <= n → ∃ i', rtc lstep (IState n c ca (ICycle s) to, ch, dn) (i', ch, dn) ∧ asleep n i' ∧ is_chan i' = c.
  Proof.
    pose proof sane as (Hw & _). intros Hs. destruct (orders_now cfg ca n) as (o & Hf & Ho). eexists. split.
    - apply rtc_once. split; [apply (ICycled cfg p o); [done|]|split; [done|by left]]. intros v Hv. pose proof (Ho v Hv) as Ev.
      split; [eapply Z.le_trans; [exact Hs|]; apply Z.eq_le_incl; symmetry; exact Ev|apply Z.eq_le_incl; exact Ev].
    - split; [|done]. split; [done|]. eexists. split; [done|]. lia.
  Qed.
  Lemma apply_rests n c ca s r h m a to ch dn : c = v_upd <$> ch → ∃ i' ch' dn',
    rtc lstep (IState n c ca (IApply s r h m a) to, ch, dn) (i', ch', dn') ∧ asleep n i' ∧ is_chan i' = v_upd <$> ch'.
  Proof.
    revert c ca r a to dn. induction ch as [|x ch IH]; intros c ca r a to dn ->.
    - destruct (cycle_rests n [] ca n to [] dn ltac:(lia)) as (i' & Hr & Ha & E). exists i', [], dn.
      split; [|split; [done|by rewrite E]]. eapply rtc_l; [|exact Hr]. split; [apply IEmpty|]. split; [done|by left].
    - destruct (IH (v_upd <$> ch) (apply_update ca (v_upd x)) n (S a) (<[u_key (v_upd x) := n]> to) (dn ++ [(x, n)]) eq_refl) as (i' & ch' & dn' & Hr & H).
      exists i', ch', dn'. split; [|done]. eapply rtc_l; [|exact Hr]. rewrite fmap_cons. split; [apply IUpdate|]. split; [done|]. right. by exists x.
  Qed.
  Lemma loop_rests i ch dn : is_chan i = v_upd <$> ch → phase_ok p (is_now i) (is_phase i) → ∃ i' ch' dn',
    rtc lstep (i, ch, dn) (i', ch', dn') ∧ asleep (is_now i) i' ∧ is_chan i' = v_upd <$> ch'.
  Proof.
    destruct i as [n c ca ph to]. cbn [is_chan is_now is_phase]. intros E Hp. destruct ph as [s|s r h m a|s]; simpl in Hp.
    - destruct (decide (n < s + w)) as [Hlt|Hge].
      + exists (IState n c ca (ISleep s) to), ch, dn. split; [done|]. split; [|done]. split; [done|]. by exists s.
      + destruct (apply_rests n c ca n n (length c) 0 0 to ch dn E) as (i' & ch' & dn' & Hr & H). exists i', ch', dn'. split; [|done].
        eapply rtc_l; [|exact Hr]. split; [apply IWake; lia|]. split; [done|by left].
    - by apply apply_rests.
    - destruct (cycle_rests n c ca s to ch dn ltac:(lia)) as (i' & Hr & Ha & E'). exists i', ch, dn. split; [done|]. split; [done|]. by rewrite E'.
  Qed.

  (** ** Reading from the in-memory store *)
  (** Steps that take no time and do not take more updates from SendUpdates. *)
  Definition vzero (v v' : vstate) : Prop := vstep cfg p cap v v' ∧ vs_all v' = vs_all v ∧ v_now v' = v_now v.
  Definition v_ready (v : vstate) : Prop :=
    asleep (v_now v) (vs_loop v) ∧
    ((∃ since out, vs_reader v = RPoll since out ∧ v_now v < since + w) ∨
     ∃ x out, vs_reader v = RPut (x :: out) ∧ (cap <= length (is_chan (vs_loop v)))%nat).
  Lemma vloop_lift i ch dn i' ch' dn' r al : rtc lstep (i, ch, dn) (i', ch', dn') → rtc vzero (VState i r ch dn al) (VState i' r ch' dn' al).
  Proof.
    intros H. remember (i, ch, dn) as a eqn:Ea. remember (i', ch', dn') as b eqn:Eb. revert i ch dn Ea.
    induction H as [a|a [[i1 ch1] dn1] b Hs Hr IH]; intros i ch dn ->; [by simplify_eq|].
    eapply rtc_l; [|by apply IH]. destruct Hs as (Hs & En & [(E & -> & ->)|(x & -> & E & ->)]).
    - split; [apply VLoop; [done|done|lia]|]. done.
    - split; [apply VApply; done|]. done.
  Qed.
  Lemma put_ready i ch dn al out : asleep (is_now i) i → is_chan i = v_upd <$> ch →
    ∃ v', rtc vzero (VState i (RPut out) ch dn al) v' ∧ v_ready v' ∧ v_now v' = is_now i ∧ vs_all v' = al.
  Proof.
    pose proof sane as (Hw & _). revert i ch. induction out as [|x out IH]; intros i ch Ha E.
    - exists (VState i (RPoll (is_now i) []) ch dn al). split; [apply rtc_once; split; [apply VNext|done]|]. split; [|done]. split; [done|]. left.
      exists (is_now i), []. split; [done|]. unfold v_now. simpl. lia.
    - destruct (decide (length ch < cap)%nat) as [Hlt|Hge].
      + destruct i as [n c ca ph to]. destruct Ha as [_ (s & Ep & Hs)]. cbn [is_now is_phase is_chan] in *. subst ph.
        destruct (IH (IState n (c ++ [v_upd x]) ca (ISleep s) to) (ch ++ [x])) as (v' & Hr & H).
        * split; [done|]. by exists s.
        * cbn [is_chan]. by rewrite E, fmap_app.
        * exists v'. split; [|done]. eapply rtc_l; [|exact Hr]. split; [|done]. apply VPut; [done|apply (IArrive cfg p (v_upd x) n c ca (ISleep s) to)|done|done].
      + eexists. split; [done|]. split; [|done]. split; [done|]. right. exists x, out. split; [done|]. cbn [vs_loop]. rewrite E, fmap_length. lia.
  Qed.
  Lemma v_gets_ready t v : rtc (vstep cfg p cap) (v_init t) v → ∃ v', rtc vzero v v' ∧ v_ready v' ∧ v_now v' = v_now v ∧ vs_all v' = vs_all v.
  Proof.
    intros Hr. destruct (vinv_reach p cap sane cfg t v Hr) as [Hch _ Hph Hrd _ _ _ _]. destruct v as [i r ch dn al]. cbn [vs_loop vs_chan vs_reader vs_all] in *.
    destruct (loop_rests i ch dn (eq_sym Hch) Hph) as (i' & ch' & dn' & Hl & Ha & E). apply (vloop_lift _ _ _ _ _ _ r al) in Hl.
    destruct Ha as [En Ha]. assert (asleep (is_now i') i') as Ha' by (split; [done|]; rewrite En; exact Ha).
    unfold v_now in *. cbn [vs_loop].
    destruct r as [since out|out].
    - destruct (decide (is_now i < since + w)) as [Hlt|Hge].
      + exists (VState i' (RPoll since out) ch' dn' al). split; [done|]. split; [|done]. split; [done|]. left. exists since, out. split; [done|].
        unfold v_now. cbn [vs_loop]. by rewrite En.
      + destruct (put_ready i' ch' dn' al out Ha' E) as (v' & Hp & H1 & H2 & H3). exists v'. split; [|unfold v_now in H2; rewrite H2, En; done].
        etrans; [exact Hl|]. eapply rtc_l; [|exact Hp]. split; [apply VFire; lia|done].
    - destruct (put_ready i' ch' dn' al out Ha' E) as (v' & Hp & H1 & H2 & H3). exists v'. split; [|unfold v_now in H2; rewrite H2, En; done].
      by etrans.
  Qed.
  Lemma v_tick v : v_ready v → ∃ v', vstep cfg p cap v v' ∧ vs_all v' = vs_all v ∧ v_now v' = v_now v + 1 ∧ vs_reader v' = vs_reader v.
  Proof.
    destruct v as [[n c ca ph to] r ch dn al]. intros [[_ (s & Ep & Hs)] Hrd]. unfold v_now in *. cbn [vs_loop is_phase is_now vs_reader is_chan] in *. subst ph.
    exists (VState (IState (n + 1) c ca (ISleep s) to) r ch dn al). split; [|done]. apply VLoop; [apply ISleeping; lia|done|]. intros _.
    destruct Hrd as [(since & out & -> & Hlt)|(x & out & -> & Hc)]; cbn; [lia|done].
  Qed.
  Lemma v_passes t v (n : nat) : rtc (vstep cfg p cap) (v_init t) v → ∃ v', rtc (vstep cfg p cap) v v' ∧ vs_all v' = vs_all v ∧ v_now v' = v_now v + Z.of_nat n.
  Proof.
    induction n as [|n IH]; intros Hr; [exists v; repeat split; [done|]; lia|]. destruct (IH Hr) as (v1 & H1 & E1 & N1).
    destruct (v_gets_ready t v1 ltac:(by etrans)) as (v2 & H2 & R2 & N2 & E2). destruct (v_tick v2 R2) as (v3 & H3 & E3 & N3 & _).
    exists v3. split; [|split; [congruence|lia]]. etrans; [exact H1|]. etrans; [|apply rtc_once; exact H3].
    eapply rtc_subrel; [|exact H2]. by intros ?? [? _].
  Qed.

  (** ** Reading from Redis *)
  Context (net : Z) (Hnet : 0 <= net).
  Definition wzero (v v' : wstate) : Prop := wstep cfg p net cap v v' ∧ ws_all v' = ws_all v ∧ w_now v' = w_now v.
  Definition w_ready (v : wstate) : Prop :=
    asleep (w_now v) (ws_loop v) ∧
    ((∃ since, ws_reader v = QAsk since ∧ ws_stream v = [] ∧ w_now v < since + w) ∨
     ∃ x out, ws_reader v = QPut (x :: out) ∧ (cap <= length (is_chan (ws_loop v)))%nat).
  Lemma wloop_lift i ch dn i' ch' dn' r st al : rtc lstep (i, ch, dn) (i', ch', dn') → rtc wzero (WState i r st ch dn al) (WState i' r st ch' dn' al).
  Proof.
    intros H. remember (i, ch, dn) as a eqn:Ea. remember (i', ch', dn') as b eqn:Eb. revert i ch dn Ea.
    induction H as [a|a [[i1 ch1] dn1] b Hs Hr IH]; intros i ch dn ->; [by simplify_eq|].
    eapply rtc_l; [|by apply IH]. destruct Hs as (Hs & En & [(E & -> & ->)|(x & -> & E & ->)]).
    - split; [apply WLoop; [done|done|lia]|]. done.
    - split; [apply WApply; done|]. done.
  Qed.
  Lemma qput_ready (m : nat) : ∀ i ch dn al out st, (length st < m)%nat → asleep (is_now i) i → is_chan i = v_upd <$> ch →
    ∃ v', rtc wzero (WState i (QPut out) st ch dn al) v' ∧ w_ready v' ∧ w_now v' = is_now i ∧ ws_all v' = al.
  Proof.
    pose proof sane as (Hw & _ & _ & Hcap). induction m as [|m IHm]; [lia|]. intros i ch dn al out. revert i ch. induction out as [|x out IH]; intros i ch st Hm Ha E.
    - destruct st as [|y st].
      + exists (WState i (QAsk (is_now i)) [] ch dn al). split; [apply rtc_once; split; [apply WNext|done]|]. split; [|done]. split; [done|]. left.
        exists (is_now i). split; [done|]. split; [done|]. unfold w_now. simpl. lia.
      + destruct (IHm i ch dn al (take cap (y :: st)) (drop cap (y :: st))) as (v' & Hr & H); [rewrite drop_length; simpl in *; lia|done|done|].
        exists v'. split; [|done]. eapply rtc_l; [split; [apply WNext|done]|]. eapply rtc_l; [split; [apply WAnswer; done|done]|].
        eapply rtc_l; [split; [apply WReturn|done]|]. exact Hr.
    - destruct (decide (length ch < cap)%nat) as [Hlt|Hge].
      + destruct i as [n c ca ph to]. destruct Ha as [_ (s & Ep & Hs)]. cbn [is_now is_phase is_chan] in *. subst ph.
        destruct (IH (IState n (c ++ [v_upd x]) ca (ISleep s) to) (ch ++ [x]) st Hm) as (v' & Hr & H).
        * split; [done|]. by exists s.
        * cbn [is_chan]. by rewrite E, fmap_app.
        * exists v'. split; [|done]. eapply rtc_l; [|exact Hr]. split; [|done]. apply WPut; [done|apply (IArrive cfg p (v_upd x) n c ca (ISleep s) to)|done|done].
      + eexists. split; [done|]. split; [|done]. split; [done|]. right. exists x, out. split; [done|]. cbn [ws_loop]. rewrite E, fmap_length. lia.
  Qed.
  Lemma w_gets_ready t v : rtc (wstep cfg p net cap) (w_init t) v → ∃ v', rtc wzero v v' ∧ w_ready v' ∧ w_now v' = w_now v ∧ ws_all v' = ws_all v.
  Proof.
    intros Hr. destruct (winv_reach p net cap sane Hnet cfg t v Hr) as [Hch _ Hph Hrd _ _ _ _ _]. destruct v as [i r st ch dn al].
    cbn [ws_loop ws_chan ws_reader ws_all ws_stream] in *.
    destruct (loop_rests i ch dn (eq_sym Hch) Hph) as (i' & ch' & dn' & Hl & Ha & E). apply (wloop_lift _ _ _ _ _ _ r st al) in Hl.
    destruct Ha as [En Ha]. assert (asleep (is_now i') i') as Ha' by (split; [done|]; rewrite En; exact Ha).
    unfold w_now in *. cbn [ws_loop].
    assert (∀ out st', rtc wzero (WState i' r st ch' dn' al) (WState i' (QPut out) st' ch' dn' al) →
      ∃ v', rtc wzero (WState i r st ch dn al) v' ∧ w_ready v' ∧ is_now (ws_loop v') = is_now i ∧ ws_all v' = al) as Hput.
    { intros out st' Hq. destruct (qput_ready (S (length st')) i' ch' dn' al out st' ltac:(lia) Ha' E) as (v' & Hp & H1 & H2 & H3). exists v'.
      split; [etrans; [exact Hl|]; by etrans|]. unfold w_now in H2. by rewrite H2, En. }
    destruct r as [since|since got|got].
    - destruct st as [|y st].
      + destruct (decide (is_now i < since + w)) as [Hlt|Hge].
        * exists (WState i' (QAsk since) [] ch' dn' al). split; [done|]. split; [|done]. split; [done|]. left. exists since. split; [done|]. split; [done|].
          unfold w_now. cbn [ws_loop]. by rewrite En.
        * apply (Hput [] []). eapply rtc_l; [split; [apply WNone; lia|done]|]. apply rtc_once. split; [apply WReturn|done].
      + apply (Hput (take cap (y :: st)) (drop cap (y :: st))). eapply rtc_l; [split; [apply WAnswer; done|done]|]. apply rtc_once. split; [apply WReturn|done].
    - apply (Hput got st). apply rtc_once. split; [apply WReturn|done].
    - by apply (Hput got st).
  Qed.
  Lemma w_tick v : w_ready v → ∃ v', wstep cfg p net cap v v' ∧ ws_all v' = ws_all v ∧ w_now v' = w_now v + 1.
  Proof.
    destruct v as [[n c ca ph to] r st ch dn al]. intros [[_ (s & Ep & Hs)] Hrd]. unfold w_now in *. cbn [ws_loop is_phase is_now ws_reader is_chan ws_stream] in *. subst ph.
    exists (WState (IState (n + 1) c ca (ISleep s) to) r st ch dn al). split; [|done]. apply WLoop; [apply ISleeping; lia|done|]. intros _.
    destruct Hrd as [(since & -> & -> & Hlt)|(x & out & -> & Hc)]; cbn; [lia|by destruct st].
  Qed.
  Lemma w_passes t v (n : nat) : rtc (wstep cfg p net cap) (w_init t) v → ∃ v', rtc (wstep cfg p net cap) v v' ∧ ws_all v' = ws_all v ∧ w_now v' = w_now v + Z.of_nat n.
  Proof.
    induction n as [|n IH]; intros Hr; [exists v; repeat split; [done|]; lia|]. destruct (IH Hr) as (v1 & H1 & E1 & N1).
    destruct (w_gets_ready t v1 ltac:(by etrans)) as (v2 & H2 & R2 & N2 & E2). destruct (w_tick v2 R2) as (v3 & H3 & E3 & N3).
    exists v3. split; [|split; [congruence|lia]]. etrans; [exact H1|]. etrans; [|apply rtc_once; exact H3].
    eapply rtc_subrel; [|exact H2]. by intros ?? [? _].
  Qed.
End loop.
