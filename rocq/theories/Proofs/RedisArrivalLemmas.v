(** Lemmas about Model/RedisArrival.v. *)
From Coq Require Import ZArith Lia.
From stdpp Require Import prelude strings gmap relations.
From Verif.Model Require Import GoStrings Types Filter Cache MemRepl RedisRepl Queues Timing Visible RedisVisible Arrival RedisArrival.
From Verif.Spec Require Import TimingSpec RedisSpec VisibleSpec RedisVisibleSpec RedisArrivalSpec.
From Verif.Proofs Require Import TimingLemmas RedisLemmas RedisSendLemmas VisibleLemmas RedisVisibleLemmas.
Local Open Scope Z_scope.

Lemma add_inv cfg p net cap w w' x : wstep cfg p net cap w w' → ws_all w' = ws_all w ++ [x] →
  v_at x = w_now w ∧ w_now w' = w_now w ∧ v_ahead x = length (on_the_way_redis w).
Proof.
  assert (∀ (l : list vitem) z, l = l ++ [z] → False) as No.
  { intros l z E. apply (f_equal length) in E. rewrite app_length in E. simpl in E. lia. }
  intros Hs E. destruct Hs; simpl in *; try (by exfalso; eapply No).
  apply app_inv_head in E. injection E as <-. unfold w_now, on_the_way_redis; simpl. rewrite !app_length. do 2 (split; [done|]). lia.
Qed.
Lemma all_grows cfg p net cap w w' : wstep cfg p net cap w w' → ∃ l, ws_all w' = ws_all w ++ l.
Proof. intros Hs. destruct Hs; simpl; try (by exists []; rewrite app_nil_r). by eexists. Qed.

Section bound.
  Context (cfg : config) (q : oparams) (p : iparams) (net : Z) (cap : nat) (t0 : instant).
  Context (Hq : SaneOut q).

  Record ainv (s : astate) : Prop := AInv {
    ai_now : os_now (as_out s) = w_now (as_in s);
    ai_left : match os_phase (as_out s) with OCollect _ _ => as_left s = [] | OSend _ b => ∃ pre, b = pre ++ as_left s end;
    ai_sent : (as_sent s).*1 ++ as_left s = (os_done (as_out s)).*1 ++ o_batch (as_out s);
    ai_out : rtc (ostep q) (o_init t0) (as_out s);
    ai_in : rtc (wstep cfg p net cap) (w_init t0) (as_in s);
    ai_as : ∀ o x, (o, Some x) ∈ as_sent s → x ∈ ws_all (as_in s) ∧ of_at o <= v_at x <= answer_by q o ∧
      Sendable (rq_update (of_req o)) ∧ ∃ i, v_upd x = as_read i (rq_update (of_req o))
  }.
  Lemma ainv_init : ainv (a_init t0).
  Proof. split; simpl; try done. by intros o x ?%elem_of_nil. Qed.
  Lemma ainv_step s s' : ainv s → astep cfg q p net cap s s' → ainv s'.
  Proof.
    intros [Hn Hl Hse Ho Hi Has] Hs.
    destruct Hs as [o o' l w se Hos Ep En|s b o o' w se Ep Hos En|a b o r l i f u w w' x se Ep Ee Ed Hv Ea Eu|a b o r l w se Ep|a b o o' w se Ep Hos En
      |o l w w' se Hv En|o o' l w w' se Hos Hv Hlt En]; cbn [as_out as_left as_in as_sent] in *.
    - split; cbn [as_out as_left as_in as_sent]; try done; [by rewrite En|by rewrite Ep| |by eapply rtc_r].
      rewrite Hse. unfold o_batch. rewrite Ep. f_equal. destruct Hos; simpl in *; try done; try congruence.
    - rewrite Ep in Hl. unfold o_batch in Hse. rewrite Ep in Hse.
      split; cbn [as_out as_left as_in as_sent]; try done; [by rewrite En| | |by eapply rtc_r].
      + destruct (os_phase o') as [s' b'|a' b'] eqn:E'; unfold o_batch; rewrite E'; [done|]. by exists [].
      + rewrite !app_nil_r in Hse. rewrite Hse. f_equal. by destruct Hos; simpl in *.
    - rewrite Ep in Hl. destruct (add_inv cfg p net cap w w' x Hv Ea) as (Eat & En & _).
      split; cbn [as_out as_left as_in as_sent]; try done.
      + by rewrite En.
      + rewrite Ep. destruct Hl as [pre ->]. exists (pre ++ [r]). by rewrite <-app_assoc.
      + rewrite fmap_app, <-app_assoc. exact Hse.
      + by eapply rtc_r.
      + intros o1 x1 [H|H]%elem_of_app.
        { destruct (Has o1 x1 H) as (H1 & H2). split; [|done]. rewrite Ea. apply elem_of_app. by left. }
        apply elem_of_list_singleton in H. injection H as -> ->. split; [rewrite Ea; apply elem_of_app; right; left|]. split.
        * destruct (o_inv_reach q t0 o Hq Ho) as (_ & _ & Hph & _). rewrite Ep in Hph. simpl in Hph.
          destruct Hph as (Hn' & _ & _ & Hb). destruct Hl as [pre ->].
          destruct (Hb r ltac:(apply elem_of_app; right; left)) as [H1 H2]. rewrite Eat, <-Hn. lia.
        * split; [apply encode_sendable; by exists f|]. exists i. rewrite (round_trip _ _ i Ee) in Ed. injection Ed as <-. done.
    - rewrite Ep in Hl. split; cbn [as_out as_left as_in as_sent]; try done.
      + rewrite Ep. destruct Hl as [pre ->]. exists (pre ++ [r]). by rewrite <-app_assoc.
      + rewrite fmap_app, <-app_assoc. exact Hse.
      + intros o1 x1 [H|H]%elem_of_app; [by apply Has|]. apply elem_of_list_singleton in H. discriminate.
    - rewrite Ep in Hl. unfold o_batch in Hse. rewrite Ep in Hse. rewrite app_nil_r in Hse.
      split; cbn [as_out as_left as_in as_sent]; try done; [by rewrite En| | |by eapply rtc_r].
      + destruct Hos; simpl in *; try done; [by subst|by injection Ep as -> ->].
      + rewrite app_nil_r, Hse. unfold o_batch. destruct Hos; simpl in *; try done; [by subst|by injection Ep as -> ->|].
        injection Ep as -> ->. by rewrite fmap_app, app_nil_r, <-list_fmap_compose, list_fmap_id.
    - split; cbn [as_out as_left as_in as_sent]; try done; [by rewrite En|by eapply rtc_r|].
      destruct (all_grows cfg p net cap w w' Hv) as [l' Ea]. intros o1 x1 H. destruct (Has o1 x1 H) as (H1 & H2). split; [|done].
      rewrite Ea. apply elem_of_app. by left.
    - destruct (all_grows cfg p net cap w w' Hv) as [l' Ea].
      assert (os_phase o' = os_phase o ∧ os_done o' = os_done o) as [Ep' Ed].
      { rewrite <-Hn, <-En in Hlt. destruct Hos; simpl in *; try lia; done. }
      split; cbn [as_out as_left as_in as_sent]; try done; [by rewrite Ep'| |by eapply rtc_r|by eapply rtc_r|].
      + rewrite Hse. unfold o_batch. by rewrite Ep', Ed.
      + intros o1 x1 H. destruct (Has o1 x1 H) as (H1 & H2). split; [|done]. rewrite Ea. apply elem_of_app. by left.
  Qed.
  Lemma ainv_reach s : rtc (astep cfg q p net cap) (a_init t0) s → ainv s.
  Proof.
    intros Hr. pose proof ainv_init as H0. induction Hr as [|a b z Hst Hr IH]; [done|]. apply IH. by eapply ainv_step.
  Qed.
End bound.

Lemma redis_arrival_sent cfg q p net cap t s : SaneOut q → rtc (astep cfg q p net cap) (a_init t) s →
  (as_sent s).*1 ++ as_left s = (os_done (as_out s)).*1 ++ o_batch (as_out s) ∧
  ∀ o x, (o, Some x) ∈ as_sent s → x ∈ ws_all (as_in s) ∧ of_at o <= v_at x <= answer_by q o ∧
    Sendable (rq_update (of_req o)) ∧ ∃ i, v_upd x = as_read i (rq_update (of_req o)).
Proof. intros Hq Hr. by destruct (ainv_reach cfg q p net cap t Hq s Hr). Qed.
Lemma redis_arrival_parts cfg q p net cap t s : SaneOut q → rtc (astep cfg q p net cap) (a_init t) s →
  rtc (ostep q) (o_init t) (as_out s) ∧ rtc (wstep cfg p net cap) (w_init t) (as_in s) ∧ os_now (as_out s) = w_now (as_in s).
Proof. intros Hq Hr. by destruct (ainv_reach cfg q p net cap t Hq s Hr). Qed.
Lemma redis_arrival_in_time cfg q p net cap t s o x : SaneOut q → SaneVisible p cap → 0 <= net → rtc (astep cfg q p net cap) (a_init t) s →
  (o, Some x) ∈ as_sent s → (v_ahead x < cap)%nat →
  (∀ t', (x, t') ∈ ws_done (as_in s) → of_at o <= t' <= redis_in_cache_by q p net o (v_ahead x)) ∧
  (x ∉ (ws_done (as_in s)).*1 → w_now (as_in s) <= redis_in_cache_by q p net o (v_ahead x)).
Proof.
  intros Hq Hp Hnet Hr Hox Ha. destruct (ainv_reach cfg q p net cap t Hq s Hr) as [_ _ _ _ Hi Has].
  destruct (Has o x Hox) as (Hx & Hat & _). destruct (redis_in_time cfg p net cap t (as_in s) Hp Hnet Hi) as [H1 H2].
  assert (redis_visible_by p net x <= redis_in_cache_by q p net o (v_ahead x)) as Hle.
  { unfold redis_visible_by, redis_in_cache_by. lia. }
  split.
  - intros t' Ht. specialize (H1 x t' Ht Ha). lia.
  - intros Hn. specialize (H2 x Hx Hn Ha). unfold w_now. lia.
Qed.
Lemma redis_arrival_in_time_any cfg q p net cap t s o x : SaneOut q → SaneVisible p cap → 0 <= net → rtc (astep cfg q p net cap) (a_init t) s →
  (o, Some x) ∈ as_sent s → let late := answer_by q o + (redis_visible_by_any p net cap x - v_at x) in
  (∀ t', (x, t') ∈ ws_done (as_in s) → of_at o <= t' <= late) ∧ (x ∉ (ws_done (as_in s)).*1 → w_now (as_in s) <= late).
Proof.
  intros Hq Hp Hnet Hr Hox late. destruct (ainv_reach cfg q p net cap t Hq s Hr) as [_ _ _ _ Hi Has].
  destruct (Has o x Hox) as (Hx & Hat & _). destruct (redis_in_time_any cfg p net cap t (as_in s) Hp Hnet Hi) as [H1 H2]. split.
  - intros t' Ht. specialize (H1 x t' Ht). unfold late. lia.
  - intros Hn. specialize (H2 x Hx Hn). unfold late, w_now. lia.
Qed.

(** ** A longest run *)
Section runs.
  Context (cfg : config) (wait thr : Z) (p : iparams) (net : Z) (cap : nat).
  Context (Hw : 0 < wait) (Hnet : 0 <= net) (Hcap : (0 < cap)%nat).
  Notation q := (OParams wait thr 0).
  Notation stp := (astep cfg q p net cap).
  Notation w := (ip_wait p).

  Definition rquiet (n s0 s1 : instant) dn al ch ca to vch vdn val se : astate :=
    AState (OState n [] (OCollect n []) dn al) [] (WState (IState n ch ca (ISleep s1) to) (QAsk s0) [] vch vdn val) se.
  Lemma redis_wait n d s b dn al ch ca s1 to s0 vch vdn val se :
    0 < d → n + d <= s + wait → n + d <= s1 + w → n + d <= s0 + w →
    stp (AState (OState n [] (OCollect s b) dn al) [] (WState (IState n ch ca (ISleep s1) to) (QAsk s0) [] vch vdn val) se)
      (AState (OState (n + d) [] (OCollect s b) dn al) [] (WState (IState (n + d) ch ca (ISleep s1) to) (QAsk s0) [] vch vdn val) se).
  Proof.
    intros Hd H1 H2 H3. eapply AWait; try done; simpl; [apply (OSIdle q); simpl; lia| |unfold w_now; simpl; lia].
    apply WLoop; [apply ISleeping; lia|done|simpl; lia].
  Qed.
  Lemma redis_rounds k n s0 s1 dn al ch ca to vch vdn val se :
    n + Z.of_nat k * wait <= s1 + w → n + Z.of_nat k * wait <= s0 + w →
    rtc stp (rquiet n s0 s1 dn al ch ca to vch vdn val se) (rquiet (n + Z.of_nat k * wait) s0 s1 dn al ch ca to vch vdn val se).
  Proof.
    revert n. induction k as [|k IH]; intros n H1 H2.
    - replace (n + Z.of_nat 0 * wait) with n by lia. done.
    - eapply rtc_l; [unfold rquiet; apply redis_wait with (d := wait); [lia|lia|nia|nia]|].
      eapply rtc_l. { eapply (ACollect cfg q p net cap n []); [done|apply (OSFire q); simpl; lia|done]. }
      cbn [o_batch os_phase]. replace (n + Z.of_nat (S k) * wait) with (n + wait + Z.of_nat k * wait) by lia. apply IH; nia.
  Qed.
  Lemma redis_longest_way k t rq i f u : w = Z.of_nat (S k) * wait → 1 < thr →
    redis_encode (rq_update rq) = inr f → redis_decode (Entry i f) = Done u →
    let o := Offered rq (t + Z.of_nat k * wait) 0 in let x := VItem u (t + w) 0 in
    ∃ s, rtc stp (a_init t) s ∧ as_sent s = [(o, Some x)] ∧ ws_done (as_in s) = [(x, of_at o + wait + w)].
  Proof.
    intros Ek Ht Ee Ed o x. set (m := t + Z.of_nat k * wait) in *.
    assert (m + wait = t + w) as Emw by (unfold m; rewrite Ek; lia).
    eexists. split; [|split].
    - etrans; [apply (redis_rounds k t t t); simpl; lia|]. fold m. unfold rquiet.
      eapply rtc_l. { eapply AOffer; [apply (OSOffer _ rq)|done|done]. }
      eapply rtc_l. { eapply (ACollect cfg q p net cap m []); [done|apply OSAccept|done]. }
      cbn [length app]. fold o. replace (o_full q [o]) with false by (unfold o_full; simpl; lia). cbn [o_batch os_phase].
      eapply rtc_l; [apply redis_wait with (d := wait); simpl; lia|]. rewrite Emw.
      eapply rtc_l.
      { eapply AIn; [eapply (WLoop cfg p net cap _ (IState (t + w) [] empty_cache (IApply (t + w) (t + w) 0 0 0) ∅)); [|done|simpl; lia]|done].
        apply (IWake cfg p (t + w) [] empty_cache t ∅). lia. }
      eapply rtc_l.
      { eapply AIn; [eapply (WLoop cfg p net cap _ (IState (t + w) [] empty_cache (ICycle (t + w)) ∅)); [|done|simpl; lia]|done]. apply IEmpty. }
      eapply rtc_l.
      { eapply AIn; [eapply (WLoop cfg p net cap _ (IState (t + w) [] empty_cache (ISleep (t + w)) ∅)); [|done|simpl; lia]|done].
        refine (ICycled cfg p (CycleOrders [] [] []) (t + w) [] empty_cache (t + w) ∅ _ _).
        - repeat split; simpl; by rewrite ?elements_empty, ?map_to_list_empty.
        - simpl. by intros v ?%elem_of_nil. }
      eapply rtc_l. { eapply (ACollect cfg q p net cap m [o]); [done|apply (OSFire q); simpl; lia|done]. }
      cbn [o_batch os_phase].
      eapply rtc_l. { eapply (AAdd cfg q p net cap (t + w) [o]); [done|exact Ee|exact Ed|apply (WAdd cfg p net cap u)|done|done]. }
      cbn [length app Nat.add is_now q_items]. fold x.
      eapply rtc_l. { eapply (AReturn cfg q p net cap (t + w) [o]); [done|apply OSReturn|done]. }
      cbn [map app].
      eapply rtc_l. { eapply AIn; [apply (WAnswer cfg p net cap _ t [x]); done|done]. }
      rewrite take_ge, drop_ge by (simpl; lia). cbn [is_now].
      eapply rtc_l. { eapply AIn; [apply WReturn|done]. }
      eapply rtc_l.
      { eapply AIn; [eapply (WPut cfg p net cap _ (IState (t + w) [u] empty_cache (ISleep (t + w)) ∅)); [simpl; lia| |done|done]|done].
        apply (IArrive cfg p u (t + w) [] empty_cache (ISleep (t + w)) ∅). }
      eapply rtc_l. { eapply AIn; [apply WNext|done]. }
      cbn [app is_now].
      etrans; [apply (redis_rounds (S k) (t + w) (t + w) (t + w)); simpl; lia|]. rewrite <-Ek. unfold rquiet.
      eapply rtc_l.
      { eapply AIn; [eapply (WLoop cfg p net cap _ (IState (t + w + w) [u] empty_cache (IApply (t + w + w) (t + w + w) 1 0 0) ∅)); [|done|simpl; lia]|done].
        apply (IWake cfg p (t + w + w) [u] empty_cache (t + w) ∅). lia. }
      eapply rtc_l; [|apply rtc_refl].
      eapply AIn; [eapply (WApply cfg p net cap _ (IState (t + w + w) [] (apply_update empty_cache u)
        (IApply (t + w + w) (t + w + w) 1 0 1) (<[u_key u := t + w + w]> ∅)) _ _ x); [apply IUpdate|done]|done].
    - done.
    - cbn. do 2 f_equal. lia.
  Qed.
End runs.
