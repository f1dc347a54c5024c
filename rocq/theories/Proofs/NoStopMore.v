(** Proofs for C157: from requests to the cache. *)
From Coq Require Import String ZArith Lia.
From stdpp Require Import prelude strings gmap relations.
From Verif.Model Require Import GoStrings Types Filter Cache MemRepl RedisRepl Queues Timing Visible RedisVisible Arrival RedisArrival.
From Verif.Spec Require Import TimingSpec RedisSpec VisibleSpec RedisVisibleSpec ArrivalSpec RedisArrivalSpec.
From Verif.Proofs Require Import TimingLemmas VisibleLemmas RedisVisibleLemmas ArrivalLemmas RedisSendLemmas RedisArrivalLemmas NoStopLemmas.
Local Open Scope Z_scope.

(** ** With the in-memory store *)
Section memory.
  Context (cfg : config) (wait thr : Z) (p : iparams) (cap : nat) (Hwait : 0 < wait) (sane : SaneVisible p cap).
  Notation stp := (mstep cfg wait thr p cap).
  Notation ready := (v_ready p cap).

  Definition later (s : mstate) : Prop := ∃ s', rtc stp s s' ∧ os_all (ms_out s') = os_all (ms_out s) ∧ v_now (ms_in s') = v_now (ms_in s) + 1.
  Lemma later_step s s' : stp s s' → os_all (ms_out s') = os_all (ms_out s) → v_now (ms_in s') = v_now (ms_in s) → later s' → later s.
  Proof.
    intros Hs E N (z & Hr & Ez & Nz). exists z. split; [by eapply rtc_l|]. split; [congruence|lia].
  Qed.

  Lemma tick_collect n s b dn al st v se : n < s + wait → ready v → v_now v = n → later (MState (OState n [] (OCollect s b) dn al) [] st v se).
  Proof.
    intros Hn Hv En. destruct (v_tick cfg p cap v Hv) as (v' & Hs & _ & N & _).
    exists (MState (OState (n + 1) [] (OCollect s b) dn al) [] st v' se). split; [|split; [done|exact N]].
    apply rtc_once. eapply MWait; [done|apply (OSIdle (OParams wait thr 0)); simpl; lia|exact Hs|lia|simpl; lia].
  Qed.
  Lemma later_send n wt a b dn al se st v l : ready v → v_now v = n →
    (∀ dn st v se, ready v → v_now v = n → later (MState (OState n wt (OCollect n []) dn al) [] st v se)) →
    later (MState (OState n wt (OSend a b) dn al) l st v se).
  Proof.
    intros Hv En Hc. revert st v se Hv En. induction l as [|r l IH]; intros st v se Hv En.
    - eapply later_step; [eapply MReturn; [done|apply OSReturn|done]|done|done|]. by apply Hc.
    - assert (Hv' := Hv). destruct Hv' as [Ha [(since & out & Er & Hlt)|(x & out & Er & Hfull)]].
      + destruct v as [i rd ch vdn val]. cbn [vs_reader] in Er. subst rd.
        destruct (mem_send1 st (rq_update (of_req r)) (0, 0)) as [[u resp] st'] eqn:Em.
        eapply later_step; [eapply MHand; [done|exact Em|apply (VTake cfg p cap u)|done|done]|done|done|]. apply IH; [|done].
        split; [done|]. left. exists since. eexists. split; [done|exact Hlt].
      + destruct (v_tick cfg p cap v Hv) as (v' & Hs & _ & N & _).
        eexists. split; [apply rtc_once; eapply MBlocked; [exact Er|exact Hs|lia]|]. split; [done|exact N].
  Qed.
  Lemma later_collect n wt s b dn al st v se : ready v → v_now v = n → later (MState (OState n wt (OCollect s b) dn al) [] st v se).
  Proof.
    revert s b dn st v se. induction wt as [|o wt IH]; intros s b dn st v se Hv En.
    - destruct (decide (n < s + wait)) as [Hlt|Hge]; [by apply tick_collect|].
      eapply later_step; [eapply MCollect; [done|apply (OSFire (OParams wait thr 0)); simpl; lia|done]|done|done|].
      destruct b as [|o b]; cbn [o_batch os_phase].
      + apply tick_collect; [lia|done|done].
      + apply later_send; [done|done|]. intros. apply tick_collect; [lia|done|done].
    - eapply later_step; [eapply MCollect; [done|apply OSAccept|done]|done|done|].
      destruct (o_full (OParams wait thr 0) (b ++ [o])); cbn [o_batch os_phase].
      + apply later_send; [done|done|]. intros. by apply IH.
      + by apply IH.
  Qed.

  Lemma m_in_reach st t s : rtc stp (m_init st t) s → rtc (vstep cfg p cap) (v_init t) (ms_in s).
  Proof.
    intros Hr. change (v_init t) with (ms_in (m_init st t)). induction Hr as [|a b z Hs Hr IH]; [done|]. etrans; [|exact IH].
    destruct Hs; cbn [ms_in]; try done; by apply rtc_once.
  Qed.
  Lemma m_zero_lift o l st v v' se : rtc (vzero cfg p cap) v v' → rtc stp (MState o l st v se) (MState o l st v' se).
  Proof.
    induction 1 as [|a b z (Hs & Ea & En) Hr IH]; [done|]. eapply rtc_l; [|exact IH]. by apply MIn.
  Qed.
  Lemma m_later st t s : rtc stp (m_init st t) s → later s.
  Proof.
    intros Hr. pose proof (m_in_reach st t s Hr) as Hi. destruct (minv_reach cfg wait thr p cap st t s Hr) as [Hn Hl _ _ _].
    destruct (v_gets_ready cfg p cap sane t (ms_in s) Hi) as (v' & Hz & Hv & N & E).
    destruct s as [[n wt ph dn al] l st' v se]. cbn [ms_in ms_out os_now os_phase ms_left] in *.
    assert (later (MState (OState n wt ph dn al) l st' v' se)) as (z & Hz' & Ez & Nz).
    { destruct ph as [s0 b|a b]; [subst l; apply later_collect; [done|congruence]|]. apply later_send; [done|congruence|]. intros. by apply later_collect. }
    exists z. split; [etrans; [by apply m_zero_lift|exact Hz']|]. split; [done|]. cbn [ms_in] in *. congruence.
  Qed.
  Lemma m_passes st t s (n : nat) : rtc stp (m_init st t) s → ∃ s', rtc stp s s' ∧ os_all (ms_out s') = os_all (ms_out s) ∧ v_now (ms_in s') = v_now (ms_in s) + Z.of_nat n.
  Proof.
    intros Hr. induction n as [|n (s1 & H1 & E1 & N1)]; [exists s; repeat split; [done|]; lia|].
    destruct (m_later st t s1 ltac:(by etrans)) as (s2 & H2 & E2 & N2). exists s2. split; [by etrans|]. split; [congruence|lia].
  Qed.
End memory.

(** ** With Redis *)
Section redis.
  Context (cfg : config) (q : oparams) (p : iparams) (net : Z) (cap : nat) (Hq : SaneOut q) (sane : SaneVisible p cap) (Hnet : 0 <= net).
  Notation stp := (astep cfg q p net cap).

  (** Entries are only added for requests. *)
  Definition kept (new : list (offered * option vitem)) : Prop := ∀ o, (o, None) ∈ new → ¬ Sendable (rq_update (of_req o)).
  Definition grew (s s' : astate) : Prop := ∃ new, as_sent s' = as_sent s ++ new ∧ (new = [] → ws_all (as_in s') = ws_all (as_in s)) ∧ kept new.
  Lemma grew_refl s s' : as_sent s' = as_sent s → ws_all (as_in s') = ws_all (as_in s) → grew s s'.
  Proof. intros E1 E2. exists []. rewrite app_nil_r. split; [done|]. split; [done|]. by intros o ?%elem_of_nil. Qed.
  Lemma grew_more s s' o x : as_sent s' = as_sent s ++ [(o, x)] → (x = None → ¬ Sendable (rq_update (of_req o))) → grew s s'.
  Proof. intros E H. exists [(o, x)]. split; [done|]. split; [done|]. intros o' [= -> <-]%elem_of_list_singleton. by apply H. Qed.
  Lemma grew_trans a b c : grew a b → grew b c → grew a c.
  Proof.
    intros (n1 & E1 & H1 & K1) (n2 & E2 & H2 & K2). exists (n1 ++ n2). split; [by rewrite E2, E1, app_assoc|]. split.
    - intros [-> ->]%app_eq_nil. rewrite H2 by done. by apply H1.
    - intros o [?|?]%elem_of_app; [by apply K1|by apply K2].
  Qed.
  (** The outgoing loop has nothing to do and its timer is running. *)
  Definition idle (s : astate) : Prop :=
    as_left s = [] ∧ os_waiting (as_out s) = [] ∧ ∃ s0 b, os_phase (as_out s) = OCollect s0 b ∧ os_now (as_out s) < s0 + op_wait q.
  Definition idles (s : astate) : Prop := ∃ s', rtc stp s s' ∧ os_all (as_out s') = os_all (as_out s) ∧ w_now (as_in s') = w_now (as_in s) ∧
    os_now (as_out s') = os_now (as_out s) ∧ grew s s' ∧ idle s'.
  Lemma idles_step s s' : stp s s' → os_all (as_out s') = os_all (as_out s) → w_now (as_in s') = w_now (as_in s) →
    os_now (as_out s') = os_now (as_out s) → grew s s' → idles s' → idles s.
  Proof.
    intros Hs E N M G (z & Hr & Ez & Nz & Mz & Gz & Hi). exists z. split; [by eapply rtc_l|]. do 3 (split; [congruence|]).
    split; [by eapply grew_trans|done].
  Qed.

  Lemma idles_send n wt a b dn al se w l :
    (∀ dn w se, idles (AState (OState n wt (OCollect n []) dn al) [] w se)) → idles (AState (OState n wt (OSend a b) dn al) l w se).
  Proof.
    intros Hc. revert w se. induction l as [|r l IH]; intros w se.
    - eapply idles_step; [eapply AReturn; [done|apply OSReturn|done]|done|done|done|by apply grew_refl|]. apply Hc.
    - destruct (redis_encode (rq_update (of_req r))) as [e|f] eqn:Ef.
      + eapply idles_step; [by eapply ALose|done|done|done|eapply grew_more; [done|intros _ [f Hf]%encode_sendable; congruence]|]. apply IH.
      + destruct w as [i rd st ch wd wa].
        eapply idles_step; [eapply (AAdd cfg q p net cap a b _ r l (0, 0) f); [done|exact Ef|by apply round_trip|apply (WAdd cfg p net cap (as_read (0, 0) (rq_update (of_req r))))|done|done]
          |done|done|done|by eapply grew_more|]. apply IH.
  Qed.
  Lemma idles_collect n wt s b dn al w se : idles (AState (OState n wt (OCollect s b) dn al) [] w se).
  Proof.
    pose proof Hq as [Hw _]. assert (∀ n s b dn w se, n < s + op_wait q → idles (AState (OState n [] (OCollect s b) dn al) [] w se)) as H0.
    { intros. eexists. split; [done|]. do 3 (split; [done|]). split; [by apply grew_refl|]. split; [done|]. split; [done|]. eexists _, _. by split. }
    revert s b dn w se. induction wt as [|o wt IH]; intros s b dn w se.
    - destruct (decide (n < s + op_wait q)) as [Hlt|Hge]; [by apply H0|].
      eapply idles_step; [eapply ACollect; [done|apply (OSFire q); lia|done]|done|done|done|by apply grew_refl|].
      destruct b as [|o b]; cbn [o_batch os_phase]; [apply H0; lia|]. apply idles_send. intros. apply H0. lia.
    - eapply idles_step; [eapply ACollect; [done|apply OSAccept|done]|done|done|done|by apply grew_refl|].
      destruct (o_full q (b ++ [o])); cbn [o_batch os_phase]; [|apply IH]. apply idles_send. intros. apply IH.
  Qed.
  Lemma a_zero_lift o l w w' se : rtc (wzero cfg p cap net) w w' → rtc stp (AState o l w se) (AState o l w' se).
  Proof. induction 1 as [|a b z (Hs & Ea & En) Hr IH]; [done|]. eapply rtc_l; [|exact IH]. by apply AIn. Qed.

  Lemma a_later t s : rtc stp (a_init t) s → ∃ s', rtc stp s s' ∧ os_all (as_out s') = os_all (as_out s) ∧ w_now (as_in s') = w_now (as_in s) + 1 ∧ grew s s'.
  Proof.
    intros Hr. assert (idles s) as (s1 & Hr1 & E1 & N1 & M1 & G1 & Hi).
    { destruct (ainv_reach cfg q p net cap t Hq s Hr) as [_ Hl _ _ _ _]. destruct s as [[n wt ph dn al] l w se]. cbn [as_out os_phase as_left] in Hl.
      destruct ph as [s0 b|a b]; [subst l; apply idles_collect|]. apply idles_send. intros. apply idles_collect. }
    destruct (ainv_reach cfg q p net cap t Hq s1 ltac:(by etrans)) as [Hn1 _ _ _ Hw1 _].
    destruct (w_gets_ready cfg p cap sane net Hnet t (as_in s1) Hw1) as (w2 & Hz & R2 & N2 & F2).
    destruct (w_tick cfg p cap net Hnet w2 R2) as (w3 & H3 & F3 & N3).
    destruct s1 as [[n wt ph dn al] l w se]. destruct Hi as (El & Ew & s0 & b & Ep & Hlt). cbn [as_out os_phase as_left os_waiting os_now as_in os_all] in *. subst l wt ph.
    exists (AState (OState (n + 1) [] (OCollect s0 b) dn al) [] w3 se). cbn [as_out os_all as_in]. split; [|split; [done|split; [lia|]]].
    2: { eapply grew_trans; [exact G1|]. apply grew_refl; [done|]. simpl. congruence. }
    etrans; [exact Hr1|]. etrans; [apply a_zero_lift; exact Hz|]. apply rtc_once.
    eapply AWait; [apply OSIdle; lia|exact H3|lia|]. simpl. lia.
  Qed.
  Lemma a_passes t s (n : nat) : rtc stp (a_init t) s → ∃ s', rtc stp s s' ∧ os_all (as_out s') = os_all (as_out s) ∧ w_now (as_in s') = w_now (as_in s) + Z.of_nat n ∧ grew s s'.
  Proof.
    intros Hr. induction n as [|n (s1 & H1 & E1 & N1 & G1)]; [exists s; split; [done|]; split; [done|]; split; [lia|by apply grew_refl]|].
    destruct (a_later t s1 ltac:(by etrans)) as (s2 & H2 & E2 & N2 & G2). exists s2. split; [by etrans|]. split; [congruence|]. split; [lia|by eapply grew_trans].
  Qed.
End redis.

(** ** Everything is done *)
Lemma all_below {A} (f : A → Z) (l : list A) : ∃ b, ∀ x, x ∈ l → f x <= b.
Proof.
  induction l as [|a l [b Hb]]; [exists 0; by intros x ?%elem_of_nil|]. exists (Z.max (f a) b). intros x [->|Hx]%elem_of_cons; [lia|]. specialize (Hb x Hx). lia.
Qed.
Lemma open_request p t s o : SaneOut p → rtc (ostep p) (o_init t) s → o ∈ o_taken s ++ os_waiting s → os_now s <= answer_by p o.
Proof.
  intros Hp Hr Ho. destruct (o_inv_reach p t s Hp Hr) as (Hord & Hdone & Hph & Hwt).
  assert (Hbs : 1 <= batch_size p) by (unfold batch_size; lia). destruct Hp as [Hw HD]. apply elem_of_app in Ho as [Ho|Ho].
  - unfold o_taken in Ho. destruct (os_phase s) as [start b|a b]; simpl in Hph.
    + destruct Hph as (Hn & _ & Hb). destruct (Hb o Ho). unfold answer_by in *. lia.
    + destruct Hph as (Hn & _ & _ & Hb). destruct (Hb o Ho). lia.
  - apply elem_of_list_lookup in Ho as [i Hi]. destruct (Hwt i o Hi) as (H1 & H2).
    assert (0 <= Z.of_nat i / batch_size p) by (apply Z.div_pos; lia).
    destruct (os_phase s) as [start b|a b]; simpl in Hph.
    + destruct Hph as (Hn & _ & _). destruct H2 as [H2 H3].
      destruct (decide (os_now s < start + op_wait p)) as [Hc|Hc].
      * specialize (H2 Hc). assert (0 <= (Z.of_nat i + Z.of_nat (length b)) / batch_size p) by (apply Z.div_pos; lia). nia.
      * specialize (H3 ltac:(lia)). nia.
    + destruct Hph as (Hn & _). nia.
Qed.
Lemma redis_finishes cfg q p net cap t s (T : instant) : SaneOut q → SaneVisible p cap → 0 <= net → rtc (astep cfg q p net cap) (a_init t) s →
  ∃ s', rtc (astep cfg q p net cap) s s' ∧ os_all (as_out s') = os_all (as_out s) ∧ T <= w_now (as_in s') ∧
    (os_done (as_out s')).*1 = os_all (as_out s) ∧ (as_sent s').*1 = os_all (as_out s) ∧ (ws_done (as_in s')).*1 = ws_all (as_in s') ∧
    ∀ o, (o, None) ∈ as_sent s' → (o, None) ∈ as_sent s ∨ ¬ Sendable (rq_update (of_req o)).
Proof.
  intros Hq Hp Hnet Hr.
  (* all requests are answered *)
  destruct (all_below (answer_by q) (os_all (as_out s))) as [b1 Hb1].
  destruct (a_passes cfg q p net cap Hq Hp Hnet t s (Z.to_nat (b1 + 1 - w_now (as_in s))) Hr) as (s1 & H1 & E1 & N1 & (new1 & Es1 & _ & K1)).
  assert (rtc (astep cfg q p net cap) (a_init t) s1) as Hr1 by (by etrans).
  assert (∀ s2, rtc (astep cfg q p net cap) s1 s2 → os_all (as_out s2) = os_all (as_out s) → b1 < w_now (as_in s2) →
    (os_done (as_out s2)).*1 = os_all (as_out s) ∧ (as_sent s2).*1 = os_all (as_out s)) as Hall.
  { intros s2 Hs2 Ea Hb. destruct (ainv_reach cfg q p net cap t Hq s2 ltac:(by etrans)) as [Hn _ Hs Ho _ _].
    destruct (o_inv_reach q t _ Hq Ho) as (Hord & _).
    assert (o_taken (as_out s2) ++ os_waiting (as_out s2) = []) as E0.
    { destruct (o_taken (as_out s2) ++ os_waiting (as_out s2)) as [|o l] eqn:El; [done|]. exfalso.
      assert (os_now (as_out s2) <= answer_by q o) as Hle by (eapply open_request; [exact Hq|exact Ho|rewrite El; left]).
      assert (o ∈ os_all (as_out s)) as Hin by (rewrite <-Ea, <-Hord; apply elem_of_app; right; left).
      specialize (Hb1 o Hin). lia. }
    rewrite E0, app_nil_r in Hord. split; [by rewrite Hord|]. apply app_eq_nil in E0 as [E0 _].
    assert (o_batch (as_out s2) = []) as Eb by (unfold o_batch, o_taken in *; by destruct (os_phase (as_out s2))).
    rewrite Eb, app_nil_r, Hord, Ea in Hs.
    destruct (ainv_reach cfg q p net cap t Hq s2 ltac:(by etrans)) as [_ Hl _ _ _ _].
    assert (as_left s2 = []) as El.
    { unfold o_taken in E0. destruct (os_phase (as_out s2)); [done|]. destruct Hl as [pre Hl]. rewrite E0 in Hl. symmetry in Hl. by apply app_eq_nil in Hl as [_ ->]. }
    by rewrite El, app_nil_r in Hs. }
  (* and then all updates are applied *)
  destruct (all_below (redis_visible_by_any p net cap) (ws_all (as_in s1))) as [b2 Hb2].
  destruct (a_passes cfg q p net cap Hq Hp Hnet t s1 (Z.to_nat (Z.max T b2 + 1 - w_now (as_in s1))) Hr1) as (s2 & H2 & E2 & N2 & (new & Es & Ew & _)).
  assert (rtc (astep cfg q p net cap) (a_init t) s2) as Hr2 by (by etrans).
  exists s2. split; [by etrans|]. split; [congruence|]. split; [lia|].
  destruct (Hall s1 ltac:(done) E1 ltac:(lia)) as [_ S1]. destruct (Hall s2 H2 ltac:(congruence) ltac:(lia)) as [D2 S2].
  split; [done|]. split; [done|].
  assert (new = []) as ->.
  { rewrite Es, fmap_app, S1 in S2. apply (f_equal length) in S2. rewrite app_length, fmap_length in S2. destruct new; [done|simpl in S2; lia]. }
  split; [|intros o; rewrite Es, app_nil_r, Es1; intros [?|?]%elem_of_app; [by left|right; by apply K1]].
  specialize (Ew eq_refl). destruct (redis_arrival_parts cfg q p net cap t s2 Hq Hr2) as (_ & Hw2 & _).
  destruct (ginv_reach p net cap Hp Hnet cfg t _ Hw2) as [Hch Hcp Hph Hrd Hall' Hat Hpos Hby Hdn]. rewrite Hall'.
  destruct (on_the_way_redis (as_in s2)) as [|x l] eqn:El; [by rewrite app_nil_r|]. exfalso.
  specialize (Hby 0%nat x eq_refl). assert (x ∈ ws_all (as_in s1)) as Hx by (rewrite <-Ew, Hall'; apply elem_of_app; right; left). specialize (Hb2 x Hx).
  enough (is_now (ws_loop (as_in s2)) <= gby p net cap (is_phase (ws_loop (as_in s2))) (is_now (ws_loop (as_in s2))) (ws_reader (as_in s2)) (ws_stream (as_in s2)) (length (ws_chan (as_in s2))) 0)
    by (unfold w_now in *; lia).
  apply gby_now; try done. intros Hle E. unfold on_the_way_redis in El. apply (f_equal length) in El. rewrite E, !app_length in El. simpl in El. lia.
Qed.

Section finish.
  Context (cfg : config) (wait thr : Z) (p : iparams) (cap : nat) (Hwait : 0 < wait) (sane : SaneVisible p cap) (st0 : mem_state) (t : instant).
  Notation stp := (mstep cfg wait thr p cap).
  Notation reach := (rtc stp (m_init st0 t)).

  Definition collected (o : ostate) : list offered := match os_phase o with OCollect _ b => b | OSend _ _ => [] end.
  Definition open_ (s : mstate) : list offered := ms_left s ++ collected (ms_out s) ++ os_waiting (ms_out s).
  Lemma ostep_all q o o' : ostep q o o' → (os_done o).*1 ++ o_taken o ++ os_waiting o = os_all o → (os_done o').*1 ++ o_taken o' ++ os_waiting o' = os_all o'.
  Proof.
    destruct 1 as [r n w ph dn al|n o w start b dn al|n w start b dn al Hf|n d start b dn al|n d w a b dn al|n w a b dn al]; unfold o_taken; cbn [os_done os_phase os_waiting os_all]; intros HA.
    - by rewrite <-HA, !app_assoc.
    - rewrite <-HA. destruct (o_full q (b ++ [o])); by rewrite <-!app_assoc.
    - by destruct b.
    - done.
    - done.
    - rewrite <-HA, fmap_app, <-app_assoc. f_equal. simpl. f_equal. rewrite map_map. simpl. apply map_id.
  Qed.
  Lemma m_all s : reach s → (os_done (ms_out s)).*1 ++ o_taken (ms_out s) ++ os_waiting (ms_out s) = os_all (ms_out s).
  Proof.
    intros Hr. assert ((os_done (ms_out (m_init st0 t))).*1 ++ o_taken (ms_out (m_init st0 t)) ++ os_waiting (ms_out (m_init st0 t)) = os_all (ms_out (m_init st0 t))) as H0 by done.
    induction Hr as [|a b z Hs Hr IH]; [done|]. apply IH. destruct Hs; cbn [ms_out] in *; try done; by eapply ostep_all.
  Qed.

  (** No request is left. *)
  Definition at_end (s : mstate) : Prop := open_ s = [] ∧ ∃ s0, os_phase (ms_out s) = OCollect s0 [].
  Definition ends (s : mstate) : Prop := ∃ s', rtc stp s s' ∧ os_all (ms_out s') = os_all (ms_out s) ∧ at_end s'.
  Lemma ends_rtc s s' : rtc stp s s' → os_all (ms_out s') = os_all (ms_out s) → ends s' → ends s.
  Proof. intros Hs E (z & Hr & Ez & H). exists z. split; [by etrans|]. split; [congruence|done]. Qed.

  Section size.
    Context (U : nat) (IH : ∀ s, reach s → (length (open_ s) < U)%nat → ends s).
    Lemma ends_send (k : nat) : ∀ n wt a b dn al r l st v se, let s := MState (OState n wt (OSend a b) dn al) (r :: l) st v se in
      reach s → (length (open_ s) <= U)%nat → (∀ x, x ∈ vs_all v → visible_by p cap x < v_now v + Z.of_nat k) → ends s.
    Proof.
      induction k as [|k IHk]; intros n wt a b dn al r l st v se s Hr HU Hk.
      all: pose proof (m_in_reach cfg wait thr p cap st0 t s Hr) as Hi; destruct (v_gets_ready cfg p cap sane t v Hi) as (v1 & Hz & Hv & N & E).
      all: assert (rtc stp s (MState (OState n wt (OSend a b) dn al) (r :: l) st v1 se)) as Hz' by (by apply m_zero_lift).
      all: assert (reach (MState (OState n wt (OSend a b) dn al) (r :: l) st v1 se)) as Hr1 by (by etrans).
      all: assert (Hv' := Hv); destruct Hv' as [Ha [(since & out & Er & Hlt)|(x & out & Er & Hfull)]].
      1, 3: destruct v1 as [i rd ch vdn val]; cbn [vs_reader] in Er; subst rd;
        destruct (mem_send1 st (rq_update (of_req r)) (0, 0)) as [[u resp] st'] eqn:Em;
        pose proof (MHand cfg wait thr p cap a b (OState n wt (OSend a b) dn al) r l st st' (0, 0) u resp _ _ _ se eq_refl Em (VTake cfg p cap u i since out ch vdn val) eq_refl eq_refl) as Hh;
        eapply ends_rtc; [etrans; [exact Hz'|by apply rtc_once]|done|]; apply IH; [eapply rtc_r; [exact Hr1|exact Hh]|];
        unfold open_, s in *; cbn [ms_left ms_out collected os_phase os_waiting] in *; rewrite !app_length in *; simpl in *; lia.
      - exfalso. pose proof (m_in_reach cfg wait thr p cap st0 t _ Hr1) as Hi1. cbn [ms_in] in Hi1.
        destruct (vinv_reach p cap sane cfg t v1 Hi1) as [Hch Hcp Hph Hrd Hall Hat Hby Hdn].
        assert (x ∈ on_the_way v1) as Hx by (unfold on_the_way; rewrite Er; apply elem_of_app; right; left).
        assert (x ∈ vs_all v) as Hx' by (rewrite <-E, Hall; apply elem_of_app; by right). specialize (Hk x Hx').
        apply elem_of_list_lookup in Hx as [j Hj]. specialize (Hby j x Hj).
        pose proof (by_now p cap sane (is_phase (vs_loop v1)) (is_now (vs_loop v1)) (vs_reader v1) (length (vs_chan v1)) j Hph Hrd). unfold v_now in *. lia.
      - destruct (v_tick cfg p cap v1 Hv) as (v2 & Hs & E2 & N2 & _).
        pose proof (MBlocked cfg wait thr p cap n wt a b dn al r l (x :: out) st v1 v2 se Er Hs ltac:(lia)) as Hb.
        eapply ends_rtc; [etrans; [exact Hz'|by apply rtc_once]|done|]. apply IHk; [eapply rtc_r; [exact Hr1|exact Hb]|exact HU|].
        intros y Hy. rewrite E2, E in Hy. specialize (Hk y Hy). lia.
    Qed.
    Lemma ends_send' n wt a b dn al r l st v se : let s := MState (OState n wt (OSend a b) dn al) (r :: l) st v se in
      reach s → (length (open_ s) <= U)%nat → ends s.
    Proof.
      intros s Hr HU. destruct (all_below (visible_by p cap) (vs_all v)) as [b0 Hb]. apply (ends_send (Z.to_nat (b0 + 1 - v_now v))); [done|done|].
      intros x Hx. specialize (Hb x Hx). lia.
    Qed.
    Lemma ends_timer (k : nat) : ∀ n s0 b dn al st v se, let s := MState (OState n [] (OCollect s0 b) dn al) [] st v se in
      reach s → (length (open_ s) <= U)%nat → s0 + wait <= n + Z.of_nat k → ends s.
    Proof.
      induction k as [|k IHk]; intros n s0 b dn al st v se s Hr HU Hk; destruct b as [|o b];
        try (exists s; split; [done|]; split; [done|]; split; [done|]; by exists s0).
      all: destruct (decide (n < s0 + wait)) as [Hlt|Hge].
      1: lia.
      1, 3: pose proof (MCollect cfg wait thr p cap s0 (o :: b) (OState n [] (OCollect s0 (o :: b)) dn al) _ st v se eq_refl (OSFire (OParams wait thr 0) n [] s0 (o :: b) dn al ltac:(simpl; lia)) eq_refl) as Hf;
        eapply ends_rtc; [by apply rtc_once|done|]; apply ends_send'; [eapply rtc_r; [exact Hr|exact Hf]|];
        unfold open_, s in *; cbn [ms_left ms_out collected os_phase os_waiting o_batch] in *; rewrite !app_length in *; simpl in *; lia.
      pose proof (m_in_reach cfg wait thr p cap st0 t s Hr) as Hi; destruct (v_gets_ready cfg p cap sane t v Hi) as (v1 & Hz & Hv & N & E).
      destruct (minv_reach cfg wait thr p cap st0 t s Hr) as [Hn _ _ _ _]. cbn [ms_out s os_now ms_in] in Hn.
      assert (rtc stp s (MState (OState n [] (OCollect s0 (o :: b)) dn al) [] st v1 se)) as Hz' by (by apply m_zero_lift).
      destruct (v_tick cfg p cap v1 Hv) as (v2 & Hs & E2 & N2 & _).
      assert (stp (MState (OState n [] (OCollect s0 (o :: b)) dn al) [] st v1 se) (MState (OState (n + 1) [] (OCollect s0 (o :: b)) dn al) [] st v2 se)) as Hw.
      { eapply MWait; [done|apply (OSIdle (OParams wait thr 0)); simpl; lia|exact Hs|lia|simpl; lia]. }
      eapply ends_rtc; [etrans; [exact Hz'|by apply rtc_once]|done|]. apply IHk; [|exact HU|lia]. etrans; [exact Hr|]. eapply rtc_r; [exact Hz'|exact Hw].
    Qed.
    Lemma ends_collect n wt s0 b dn al st v se : let s := MState (OState n wt (OCollect s0 b) dn al) [] st v se in
      reach s → (length (open_ s) <= U)%nat → ends s.
    Proof.
      revert s0 b dn. induction wt as [|o wt IHw]; intros s0 b dn s Hr HU; [apply (ends_timer (Z.to_nat (s0 + wait - n))); [done|done|lia]|].
      pose proof (MCollect cfg wait thr p cap s0 b (OState n (o :: wt) (OCollect s0 b) dn al) _ st v se eq_refl (OSAccept (OParams wait thr 0) n o wt s0 b dn al) eq_refl) as Hc.
      assert (Hr' := rtc_r _ _ _ Hr Hc). apply rtc_once in Hc. eapply ends_rtc; [exact Hc|done|]. clear Hc.
      destruct (o_full (OParams wait thr 0) (b ++ [o])); cbn [o_batch os_phase] in *.
      - destruct b as [|o1 b]; cbn [app] in *; (apply ends_send'; [done|]); unfold open_, s in *; cbn [ms_left ms_out collected os_phase os_waiting o_batch] in *; rewrite ?app_length in *; simpl in *; rewrite ?app_length in *; simpl in *; lia.
      - apply IHw; [done|]. unfold open_, s in *. cbn [ms_left ms_out collected os_phase os_waiting o_batch] in *. rewrite !app_length in *. simpl in *. lia.
    Qed.
  End size.
  Lemma all_end (U : nat) : ∀ s, reach s → (length (open_ s) < U)%nat → ends s.
  Proof.
    induction U as [|U IH]; [lia|]. intros s Hr HU. pose proof (mi_left _ (minv_reach cfg wait thr p cap st0 t s Hr)) as Hl.
    destruct s as [[n wt [s0 b|a b] dn al] l st v se]; cbn [ms_out os_phase ms_left] in Hl.
    - subst l. apply (ends_collect U IH); [done|lia].
    - destruct l as [|r l]; [|apply (ends_send' U IH); [done|lia]].
      pose proof (MReturn cfg wait thr p cap a b (OState n wt (OSend a b) dn al) _ st v se eq_refl (OSReturn (OParams wait thr 0) n wt a b dn al) eq_refl) as Hc.
      eapply ends_rtc; [by apply rtc_once|done|]. apply (ends_collect U IH); [eapply rtc_r; [exact Hr|exact Hc]|].
      unfold open_ in *. cbn [ms_left ms_out collected os_phase os_waiting] in *. rewrite ?app_length in *. simpl in *. lia.
  Qed.
  Lemma m_grew s s' : stp s s' → ((os_done (ms_out s)).*1 `prefix_of` (os_done (ms_out s')).*1) ∧ (ms_sent s `prefix_of` ms_sent s').
  Proof.
    assert (∀ q o o', ostep q o o' → (os_done o).*1 `prefix_of` (os_done o').*1) as Hd.
    { intros q o o' []; cbn [os_done]; try done. rewrite fmap_app. by apply prefix_app_r. }
    intros []; cbn [ms_out ms_sent os_done]; split; try done; try (by eapply Hd); by apply prefix_app_r.
  Qed.
  Lemma m_grows s s' : rtc stp s s' → ((os_done (ms_out s)).*1 `prefix_of` (os_done (ms_out s')).*1) ∧ (ms_sent s `prefix_of` ms_sent s').
  Proof. induction 1 as [|a b z Hs _ [I1 I2]]; [done|]. destruct (m_grew _ _ Hs) as [G1 G2]. split; by etrans. Qed.
  Lemma prefix_same {A} (l1 l2 : list A) : l1 `prefix_of` l2 → (length l2 <= length l1)%nat → l2 = l1.
  Proof. intros [k ->] H. rewrite app_length in H. destruct k; [by rewrite app_nil_r|simpl in H; lia]. Qed.
  Lemma memory_finishes s (T : instant) : reach s → ∃ s', rtc stp s s' ∧ os_all (ms_out s') = os_all (ms_out s) ∧ T <= v_now (ms_in s') ∧
    (os_done (ms_out s')).*1 = os_all (ms_out s) ∧ (ms_sent s').*1 = os_all (ms_out s) ∧ (vs_done (ms_in s')).*1 = vs_all (ms_in s').
  Proof.
    intros Hr. destruct (all_end (S (length (open_ s))) s Hr ltac:(lia)) as (s1 & H1 & E1 & Ho & s0 & Ep).
    assert (reach s1) as Hr1 by (by etrans).
    apply app_eq_nil in Ho as [El Ho]. apply app_eq_nil in Ho as [_ Ew].
    pose proof (m_all s1 Hr1) as D1. unfold o_taken in D1. rewrite Ep, Ew, !app_nil_r, E1 in D1.
    pose proof (mi_sent _ (minv_reach cfg wait thr p cap st0 t s1 Hr1)) as S1. unfold o_batch in S1. rewrite Ep, El, !app_nil_r, D1 in S1.
    destruct (all_below (visible_by p cap) (vs_all (ms_in s1))) as [b2 Hb2].
    destruct (m_passes cfg wait thr p cap Hwait sane st0 t s1 (Z.to_nat (Z.max T b2 + 1 - v_now (ms_in s1))) Hr1) as (s2 & H2 & E2 & N2).
    assert (reach s2) as Hr2 by (by etrans). destruct (m_grows _ _ H2) as [P1 P2].
    exists s2. split; [by etrans|]. split; [congruence|]. split; [lia|].
    pose proof (m_all s2 Hr2) as D2. rewrite E2, E1 in D2.
    assert ((os_done (ms_out s2)).*1 = os_all (ms_out s)) as Ed.
    { rewrite <-D1. apply prefix_same; [done|]. apply (f_equal length) in D2. rewrite <-D1, !app_length in D2. lia. }
    assert (o_taken (ms_out s2) = []) as Et.
    { apply (f_equal length) in D2. rewrite Ed, !app_length in D2. apply nil_length_inv. lia. }
    destruct (minv_reach cfg wait thr p cap st0 t s2 Hr2) as [_ _ S2 A2 _].
    assert (o_batch (ms_out s2) = []) as Eb by (unfold o_batch, o_taken in *; by destruct (os_phase (ms_out s2))).
    rewrite Eb, app_nil_r, Ed in S2.
    assert (ms_sent s2 = ms_sent s1) as Es.
    { apply prefix_same; [done|]. apply (f_equal length) in S1. apply (f_equal length) in S2. rewrite app_length, fmap_length in S2. rewrite fmap_length in S1. lia. }
    split; [done|]. split; [by rewrite Es|].
    pose proof (m_in_reach cfg wait thr p cap st0 t s2 Hr2) as Hi.
    destruct (vinv_reach p cap sane cfg t _ Hi) as [Hch Hcp Hph Hrd Hall Hat Hby Hdn].
    rewrite Hall. destruct (on_the_way (ms_in s2)) as [|x l] eqn:Eo; [by rewrite app_nil_r|]. exfalso.
    assert (x ∈ vs_all (ms_in s1)) as Hx.
    { rewrite <-(mi_all _ (minv_reach cfg wait thr p cap st0 t s1 Hr1)), <-Es, A2, Hall. apply elem_of_app; right; left. }
    specialize (Hb2 x Hx). specialize (Hby 0%nat x eq_refl).
    pose proof (by_now p cap sane (is_phase (vs_loop (ms_in s2))) (is_now (vs_loop (ms_in s2))) (vs_reader (ms_in s2)) (length (vs_chan (ms_in s2))) 0 Hph Hrd). unfold v_now in *. lia.
  Qed.
End finish.
