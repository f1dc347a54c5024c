(** Lemmas about Model/Arrival.v. *)
From Coq Require Import ZArith Lia.
From stdpp Require Import prelude strings gmap relations.
From Verif.Model Require Import GoStrings Types Cache MemRepl Queues Timing Visible Arrival.
From Verif.Spec Require Import TimingSpec VisibleSpec ArrivalSpec.
From Verif.Proofs Require Import TimingLemmas VisibleLemmas.
Local Open Scope Z_scope.

Lemma take_inv cfg p cap v v' x : vstep cfg p cap v v' → vs_all v' = vs_all v ++ [x] →
  v_at x = v_now v ∧ v_now v' = v_now v ∧ v_ahead x = length (on_the_way v) ∧ on_the_way v' = on_the_way v ++ [x].
Proof.
  assert (∀ (l : list vitem) z, l = l ++ [z] → False) as No.
  { intros l z E. apply (f_equal length) in E. rewrite app_length in E. simpl in E. lia. }
  intros Hs E. destruct Hs; simpl in *; try (by exfalso; eapply No).
  apply app_inv_head in E. injection E as <-. unfold v_now, on_the_way; simpl. rewrite app_length. do 3 (split; [done|]). by rewrite app_assoc.
Qed.
Lemma store_inv st u clk u' resp st' : mem_send1 st u clk = (u', resp, st') → stored_as u u'.
Proof.
  unfold mem_send1. destruct (get_repl_id st clk) as [rid st1] eqn:Eid. intros H. injection H as <- _ _.
  unfold stored_as. destruct (u_cmd u) eqn:E; simpl; rewrite ?E; try done. do 2 (split; [done|]). exists st, clk. by apply (f_equal fst) in Eid.
Qed.

Lemma time_inv cfg p cap v v' : vstep cfg p cap v v' → v_now v < v_now v' →
  vs_all v' = vs_all v ∧ vs_reader v' = vs_reader v ∧ on_the_way v' = on_the_way v ∧ vs_chan v' = vs_chan v ∧
  is_chan (vs_loop v') = is_chan (vs_loop v) ∧ r_waits p cap (vs_reader v) (vs_loop v').
Proof.
  unfold v_now. intros Hs Hlt. destruct Hs as [| | | |i i' r x ch dn al Hs E|i i' r ch dn al Hs E Hw]; simpl in *; try lia.
  - destruct (update_inv p cfg _ _ _ Hs E) as (En & _). lia.
  - do 5 (split; [done|]). by apply Hw.
Qed.
Lemma idle_inv p s b o o' : os_phase o = OCollect s b → ostep p o o' → os_now o < os_now o' → os_phase o' = os_phase o ∧ os_done o' = os_done o.
Proof. intros Ep Ho Hlt. destruct Ho; simpl in *; try lia; try done. Qed.

(** ** All requests get to the cache, in their order *)
Record minv (s : mstate) : Prop := MInv {
  mi_now : os_now (ms_out s) = v_now (ms_in s);
  mi_left : match os_phase (ms_out s) with OCollect _ _ => ms_left s = [] | OSend _ b => ∃ pre, b = pre ++ ms_left s end;
  mi_sent : (ms_sent s).*1 ++ ms_left s = (os_done (ms_out s)).*1 ++ o_batch (ms_out s);
  mi_all : (ms_sent s).*2 = vs_all (ms_in s);
  mi_as : ∀ o x, (o, x) ∈ ms_sent s → stored_as (rq_update (of_req o)) (v_upd x)
}.
Lemma minv_init st t : minv (m_init st t).
Proof. split; simpl; try done. by intros o x ?%elem_of_nil. Qed.
Lemma minv_step cfg wait thr p cap s s' : minv s → mstep cfg wait thr p cap s s' → minv s'.
Proof.
  intros [Hn Hl Hse Hal Has] Hs.
  destruct Hs as [o o' l st v se Ho Ep En|s b o o' st v se Ep Ho En|a b o r l st st' clk u resp v v' x se Ep Em Hv Ea Eu|a b o o' st v se Ep Ho En
    |o l st v v' se Hv Ea En|s b o o' st v v' se Ep Ho Hv Hlt En|n w a b dn al r l out st v v' se Er Hv Hlt]; cbn [ms_out ms_left ms_store ms_in ms_sent] in *.
  - split; cbn [ms_out ms_left ms_store ms_in ms_sent]; try done; [by rewrite En|by rewrite Ep|].
    rewrite Hse. unfold o_batch. rewrite Ep. f_equal. destruct Ho; simpl in *; try done; try congruence.
  - rewrite Ep in Hl. unfold o_batch in Hse. rewrite Ep in Hse.
    split; cbn [ms_out ms_left ms_store ms_in ms_sent]; try done; [by rewrite En| |].
    + destruct (os_phase o') as [s' b'|a' b'] eqn:E'; unfold o_batch; rewrite E'; [done|]. by exists [].
    + rewrite !app_nil_r in Hse. rewrite Hse. f_equal. by destruct Ho; simpl in *.
  - rewrite Ep in Hl. destruct (take_inv cfg p cap v v' x Hv Ea) as (_ & En & _).
    split; cbn [ms_out ms_left ms_store ms_in ms_sent].
    + by rewrite En.
    + rewrite Ep. destruct Hl as [pre ->]. exists (pre ++ [r]). by rewrite <-app_assoc.
    + rewrite fmap_app, <-app_assoc. exact Hse.
    + by rewrite fmap_app, Hal, Ea.
    + intros o1 x1 [H|H]%elem_of_app; [by apply Has|]. apply elem_of_list_singleton in H. injection H as -> ->.
      rewrite Eu. by eapply store_inv.
  - rewrite Ep in Hl. unfold o_batch in Hse. rewrite Ep in Hse. rewrite app_nil_r in Hse.
    split; cbn [ms_out ms_left ms_store ms_in ms_sent]; try done; [by rewrite En| |].
    + destruct Ho; simpl in *; try done; [by subst|by injection Ep as -> ->].
    + rewrite app_nil_r, Hse. unfold o_batch. destruct Ho; simpl in *; try done; [by subst|by injection Ep as -> ->|].
      * injection Ep as -> ->. by rewrite fmap_app, app_nil_r, <-list_fmap_compose, list_fmap_id.
  - split; cbn [ms_out ms_left ms_store ms_in ms_sent]; try done; [by rewrite En|by rewrite Ea].
  - destruct (time_inv cfg p cap v v' Hv Hlt) as (Ea & _). destruct (idle_inv _ s b o o' Ep Ho ltac:(lia)) as [Ep' Ed].
    split; cbn [ms_out ms_left ms_store ms_in ms_sent]; try done; [by rewrite Ep'| |by rewrite Ea].
    rewrite Hse. unfold o_batch. by rewrite Ep', Ed.
  - destruct (time_inv cfg p cap v v' Hv Hlt) as (Ea & _).
    split; cbn [ms_out ms_left ms_store ms_in ms_sent]; try done. by rewrite Ea.
Qed.
Lemma minv_reach cfg wait thr p cap st t s : rtc (mstep cfg wait thr p cap) (m_init st t) s → minv s.
Proof.
  intros Hr. pose proof (minv_init st t) as H0. induction Hr as [|a b z Hs Hr IH]; [done|]. apply IH. by eapply minv_step.
Qed.

(** ** Runs with fewer than [cap] updates on their way *)
Section light.
  Context (cfg : config) (wait thr : Z) (p : iparams) (cap : nat) (st0 : mem_state) (t0 : instant).
  Context (Hw : 0 < wait) (Hs : SaneVisible p cap).
  Let P := OParams wait thr 0.

  Record linv (s : mstate) : Prop := LInv {
    li_all : minv s;
    li_out : rtc (ostep P) (o_init t0) (ms_out s);
    li_in : rtc (vstep cfg p cap) (v_init t0) (ms_in s);
    li_few : (length (on_the_way (ms_in s)) < cap)%nat;
    li_sent : ∀ o x, (o, x) ∈ ms_sent s → of_at o <= v_at x <= of_at o + wait ∧ (v_ahead x < cap)%nat
  }.
  Lemma linv_init : linv (m_init st0 t0).
  Proof.
    destruct Hs as (? & ? & ? & ?). split; simpl; try done; try apply minv_init. by intros o x ?%elem_of_nil.
  Qed.
  Lemma linv_step s s' : linv s → light_step cfg wait thr p cap s s' → linv s'.
  Proof.
    intros [Hm Ho Hi Hf Hse] [Hst Hl]. pose proof (minv_step _ _ _ _ _ _ _ Hm Hst) as Hm'.
    assert (SaneOut P) as HP by (split; simpl; lia).
    destruct Hst as [o o' l st v se Hos Ep En|s b o o' st v se Ep Hos En|a b o r l st st' clk u resp v v' x se Ep Em Hv Ea Eu|a b o o' st v se Ep Hos En
      |o l st v v' se Hv Ea En|s b o o' st v v' se Ep Hos Hv Hlt En|n w a b dn al r l out st v v' se Er Hv Hlt]; cbn [ms_out ms_left ms_store ms_in ms_sent] in *.
    - split; cbn [ms_out ms_left ms_store ms_in ms_sent]; try done. by eapply rtc_r.
    - split; cbn [ms_out ms_left ms_store ms_in ms_sent]; try done. by eapply rtc_r.
    - split; cbn [ms_out ms_left ms_store ms_in ms_sent]; try done; [by eapply rtc_r|].
      intros o1 x1 [H|H]%elem_of_app; [by apply Hse|]. apply elem_of_list_singleton in H. injection H as -> ->.
      destruct (take_inv cfg p cap v v' x Hv Ea) as (Eat & _ & Eh & Ew). rewrite Ew, app_length in Hl. simpl in Hl.
      split; [|lia]. destruct (o_inv_reach P t0 o HP Ho) as (_ & _ & Hph & _). rewrite Ep in Hph. simpl in Hph.
      destruct Hph as (Hn & _ & _ & Hb). destruct Hm as [Hnow Hleft _ _ _]. cbn [ms_out ms_left ms_in] in *. rewrite Ep in Hleft. destruct Hleft as [pre ->].
      destruct (Hb r ltac:(apply elem_of_app; right; left)) as [H1 H2]. unfold answer_by in H2. simpl in H2. rewrite Eat, <-Hnow. lia.
    - split; cbn [ms_out ms_left ms_store ms_in ms_sent]; try done. by eapply rtc_r.
    - split; cbn [ms_out ms_left ms_store ms_in ms_sent]; try done. by eapply rtc_r.
    - split; cbn [ms_out ms_left ms_store ms_in ms_sent]; try done; by eapply rtc_r.
    - exfalso. destruct (time_inv cfg p cap v v' Hv Hlt) as (_ & Er' & Ew & Ech & Eic & Hwt). rewrite Er in Hwt. simpl in Hwt. destruct out as [|y out]; [done|].
      destruct (vinv_reach p cap Hs cfg t0 v Hi) as [Hch _ _ _ _ _ _ _]. rewrite Eic, <-Hch, fmap_length in Hwt.
      unfold on_the_way in Hf. rewrite app_length in Hf. lia.
  Qed.
  Lemma linv_reach s : rtc (light_step cfg wait thr p cap) (m_init st0 t0) s → linv s.
  Proof.
    intros Hr. pose proof linv_init as H0. induction Hr as [|a b z Hst Hr IH]; [done|]. apply IH. by eapply linv_step.
  Qed.
End light.

Lemma end_to_end_sent cfg wait thr p cap st t s : rtc (mstep cfg wait thr p cap) (m_init st t) s →
  (ms_sent s).*1 ++ ms_left s = (os_done (ms_out s)).*1 ++ o_batch (ms_out s) ∧ (ms_sent s).*2 = vs_all (ms_in s) ∧
  (∀ o x, (o, x) ∈ ms_sent s → stored_as (rq_update (of_req o)) (v_upd x)).
Proof. intros Hr. by destruct (minv_reach _ _ _ _ _ _ _ _ Hr). Qed.
Lemma end_to_end_answers cfg wait thr p cap st t s : 0 < wait → SaneVisible p cap → rtc (light_step cfg wait thr p cap) (m_init st t) s →
  (∀ o t', (o, t') ∈ os_done (ms_out s) → of_at o <= t' <= of_at o + wait) ∧
  (∀ o, o ∈ os_all (ms_out s) → o ∉ (os_done (ms_out s)).*1 → os_now (ms_out s) <= of_at o + wait).
Proof.
  intros Hw Hs Hr. destruct (linv_reach cfg wait thr p cap st t Hw Hs s Hr) as [_ Ho _ _ _].
  destruct (answered_in_time (OParams wait thr 0) t (ms_out s) ltac:(split; simpl; lia) Ho) as [H1 H2]. unfold answer_by in *. simpl in *. split.
  - intros o t' H. specialize (H1 o t' H). lia.
  - intros o Ho' Hn. specialize (H2 o Ho' Hn). lia.
Qed.
Lemma end_to_end_in_time cfg wait thr p cap st t s o x : 0 < wait → SaneVisible p cap → rtc (light_step cfg wait thr p cap) (m_init st t) s →
  (o, x) ∈ ms_sent s →
  (∀ t', (x, t') ∈ vs_done (ms_in s) → of_at o <= t' <= in_cache_by wait p o (v_ahead x)) ∧
  (x ∉ (vs_done (ms_in s)).*1 → v_now (ms_in s) <= in_cache_by wait p o (v_ahead x)).
Proof.
  intros Hw Hs Hr Hox. destruct (linv_reach cfg wait thr p cap st t Hw Hs s Hr) as [Hm _ Hi _ Hse].
  destruct (Hse o x Hox) as [Hat Hah]. destruct (visible_in_time cfg p cap t (ms_in s) Hs Hi) as [H1 H2].
  assert (visible_by p cap x <= in_cache_by wait p o (v_ahead x)) as Hle.
  { unfold visible_by, in_cache_by. rewrite (Nat.div_small _ _ Hah). lia. }
  split.
  - intros t' Ht. specialize (H1 x t' Ht). lia.
  - intros Hn. etrans; [apply (H2 x)|done]; [|done]. rewrite <-(mi_all _ Hm). apply elem_of_list_fmap. by exists (o, x).
Qed.
Lemma end_to_end_parts cfg wait thr p cap st t s : 0 < wait → SaneVisible p cap → rtc (light_step cfg wait thr p cap) (m_init st t) s →
  rtc (ostep (OParams wait thr 0)) (o_init t) (ms_out s) ∧ rtc (vstep cfg p cap) (v_init t) (ms_in s) ∧ os_now (ms_out s) = v_now (ms_in s).
Proof.
  intros Hw Hs Hr. destruct (linv_reach cfg wait thr p cap st t Hw Hs s Hr) as [Hm Ho Hi _ _]. split; [done|]. split; [done|]. apply (mi_now _ Hm).
Qed.

(** ** Runs *)
Section runs.
  Context (cfg : config) (wait thr : Z) (p : iparams) (cap : nat).
  Context (Hw : 0 < wait) (Hc : ip_cycle p = 0) (Hcap : (0 < cap)%nat).
  Notation lstep := (light_step cfg wait thr p cap).
  Notation w := (ip_wait p).

  (** A state in which everything waits. *)
  Definition quiet (n s0 s1 : instant) dn al st ch ca to out vch vdn val se : mstate :=
    MState (OState n [] (OCollect n []) dn al) [] st
      (VState (IState n ch ca (ISleep s1) to) (RPoll s0 out) vch vdn val) se.
  Lemma light_wait n d s b dn al st ch ca s1 to s0 out vch vdn val se :
    (length (vch ++ out) < cap)%nat → 0 < d → n + d <= s + wait → n + d <= s1 + w → n + d <= s0 + w →
    lstep (MState (OState n [] (OCollect s b) dn al) [] st (VState (IState n ch ca (ISleep s1) to) (RPoll s0 out) vch vdn val) se)
      (MState (OState (n + d) [] (OCollect s b) dn al) [] st (VState (IState (n + d) ch ca (ISleep s1) to) (RPoll s0 out) vch vdn val) se).
  Proof.
    intros Hf Hd H1 H2 H3. split; [|exact Hf].
    eapply (MWait cfg wait thr p cap s b); try done; simpl; [apply (OSIdle (OParams wait thr 0)); simpl; lia| |unfold v_now; simpl; lia].
    apply VLoop; [apply ISleeping; lia|done|simpl; lia].
  Qed.
  Lemma idle_rounds k n s0 s1 dn al st ch ca to out vch vdn val se :
    (length (vch ++ out) < cap)%nat → n + Z.of_nat k * wait <= s1 + w → n + Z.of_nat k * wait <= s0 + w →
    rtc lstep (quiet n s0 s1 dn al st ch ca to out vch vdn val se) (quiet (n + Z.of_nat k * wait) s0 s1 dn al st ch ca to out vch vdn val se).
  Proof.
    intros Hf. revert n. induction k as [|k IH]; intros n H1 H2.
    - replace (n + Z.of_nat 0 * wait) with n by lia. done.
    - eapply rtc_l; [unfold quiet; apply light_wait with (d := wait); [done|lia|lia|nia|nia]|].
      eapply rtc_l.
      { split; [eapply (MCollect cfg wait thr p cap n []); [done|apply (OSFire (OParams wait thr 0)); simpl; lia|done]|exact Hf]. }
      cbn [o_batch os_phase]. replace (n + Z.of_nat (S k) * wait) with (n + wait + Z.of_nat k * wait) by lia. apply IH; nia.
  Qed.
  (** The loop that applies updates wakes up, finds nothing, and sleeps again. *)
  Lemma empty_round n o l st s1 to r vch vdn val se :
    (length (vch ++ r_items r) < cap)%nat → s1 + w <= n →
    rtc lstep (MState o l st (VState (IState n [] empty_cache (ISleep s1) to) r vch vdn val) se)
      (MState o l st (VState (IState n [] empty_cache (ISleep n) to) r vch vdn val) se).
  Proof.
    intros Hf Hn.
    eapply rtc_l.
    { split; [eapply MIn; [eapply (VLoop cfg p cap _ (IState n [] empty_cache (IApply n n 0 0 0) to)); [|done|simpl; lia]|done|done]|exact Hf].
      apply (IWake cfg p n [] empty_cache s1 to). lia. }
    eapply rtc_l.
    { split; [eapply MIn; [eapply (VLoop cfg p cap _ (IState n [] empty_cache (ICycle n) to)); [|done|simpl; lia]|done|done]|exact Hf]. apply IEmpty. }
    eapply rtc_l; [|apply rtc_refl].
    split; [eapply MIn; [eapply (VLoop cfg p cap _ (IState n [] empty_cache (ISleep n) to)); [|done|simpl; lia]|done|done]|exact Hf].
    refine (ICycled cfg p (CycleOrders [] [] []) n [] empty_cache n to _ _).
    - repeat split; simpl; by rewrite ?elements_empty, ?map_to_list_empty.
    - simpl. by intros v ?%elem_of_nil.
  Qed.
  Lemma light_out o o' l l' st v se : mstep cfg wait thr p cap (MState o l st v se) (MState o' l' st v se) →
    (length (on_the_way v) < cap)%nat → lstep (MState o l st v se) (MState o' l' st v se).
  Proof. by split. Qed.

  (** The longest way. *)
  Lemma longest_way k st t rq u resp st' clk : w = Z.of_nat (S k) * wait → 1 < thr → (1 < cap)%nat →
    mem_send1 st (rq_update rq) clk = (u, resp, st') →
    let o := Offered rq (t + Z.of_nat k * wait) 0 in let x := VItem u (t + w) 0 in
    ∃ s, rtc lstep (m_init st t) s ∧ ms_sent s = [(o, x)] ∧ vs_done (ms_in s) = [(x, of_at o + wait + 2 * w)].
  Proof.
    intros Ek Ht Hcap1 Em o x. set (m := t + Z.of_nat k * wait) in *.
    assert (m + wait = t + w) as Emw by (unfold m; rewrite Ek; lia).
    eexists. split; [|split].
    - etrans; [apply (idle_rounds k t t t); simpl; lia|]. fold m. unfold quiet.
      eapply rtc_l. { apply light_out; [|simpl; lia]. eapply MOffer; [apply (OSOffer _ rq)|done|done]. }
      eapply rtc_l. { apply light_out; [|simpl; lia]. eapply (MCollect cfg wait thr p cap m []); [done|apply OSAccept|done]. }
      cbn [length app]. fold o. replace (o_full (OParams wait thr 0) [o]) with false by (unfold o_full; simpl; lia). cbn [o_batch os_phase].
      eapply rtc_l; [apply light_wait with (d := wait); simpl; lia|]. rewrite Emw.
      etrans; [apply (empty_round (t + w)); simpl; lia|].
      eapply rtc_l. { split; [eapply MIn; [apply VFire; simpl; lia|done|done]|simpl; lia]. }
      eapply rtc_l. { split; [eapply MIn; [apply VNext|done|done]|simpl; lia]. }
      eapply rtc_l. { apply light_out; [|simpl; lia]. eapply (MCollect cfg wait thr p cap m [o]); [done|apply (OSFire (OParams wait thr 0)); simpl; lia|done]. }
      cbn [o_batch os_phase].
      eapply rtc_l. { split; [eapply (MHand cfg wait thr p cap (t + w) [o]); [done|exact Em|apply (VTake cfg p cap u)|done|done]|simpl; lia]. }
      cbn [length app Nat.add is_now]. fold x.
      eapply rtc_l. { apply light_out; [|simpl; lia]. eapply (MReturn cfg wait thr p cap (t + w) [o]); [done|apply OSReturn|done]. }
      cbn [map app].
      etrans; [apply (idle_rounds (S k) (t + w) (t + w) (t + w)); simpl; lia|]. rewrite <-Ek. unfold quiet.
      etrans; [apply (empty_round (t + w + w)); simpl; lia|].
      eapply rtc_l. { split; [eapply MIn; [apply VFire; simpl; lia|done|done]|simpl; lia]. }
      eapply rtc_l.
      { split; [eapply MIn; [eapply (VPut cfg p cap _ (IState (t + w + w) [u] empty_cache (ISleep (t + w + w)) ∅)); [simpl; lia| |done|done]|done|done]|simpl; lia].
        apply (IArrive cfg p u (t + w + w) [] empty_cache (ISleep (t + w + w)) ∅). }
      eapply rtc_l. { split; [eapply MIn; [apply VNext|done|done]|simpl; lia]. }
      cbn [app is_now].
      etrans; [apply (idle_rounds (S k) (t + w + w) (t + w + w) (t + w + w)); simpl; lia|]. rewrite <-Ek. unfold quiet.
      eapply rtc_l.
      { split; [eapply MIn; [eapply (VLoop cfg p cap _ (IState (t + w + w + w) [u] empty_cache (IApply (t + w + w + w) (t + w + w + w) 1 0 0) ∅)); [|done|simpl; lia]|done|done]|simpl; lia].
        apply (IWake cfg p (t + w + w + w) [u] empty_cache (t + w + w) ∅). lia. }
      eapply rtc_l; [|apply rtc_refl].
      split; [eapply MIn; [eapply (VApply cfg p cap _ (IState (t + w + w + w) [] (apply_update empty_cache u)
        (IApply (t + w + w + w) (t + w + w + w) 1 0 1) (<[u_key u := t + w + w + w]> ∅)) _ x); [apply IUpdate|done]|done|done]|simpl; lia].
    - done.
    - cbn. do 2 f_equal. fold m. lia.
  Qed.
End runs.

(** With more updates on their way than the channel has room for, SendUpdates waits for the cache. *)
Definition late_p : iparams := IParams 2 0 0.
Definition late_rq (c : nat) : request := Request (Update CmdActivate "1-0" "") c.
Lemma late_answer cfg : ∃ s, rtc (mstep cfg 1 1 late_p 1) (m_init (mem_new 0) 0) s ∧
  (Offered (late_rq 2) 2 0, 4) ∈ os_done (ms_out s).
Proof.
  set (u := Update CmdActivate "1-0" ""). set (M := mstep cfg 1 1 late_p 1).
  assert (∀ st, ∃ st', mem_send1 st u (0, 0) = (u, (mem_send1 st u (0, 0)).1.2, st')) as Hsend.
  { intros st. unfold mem_send1. destruct (get_repl_id st (0, 0)) as [rid st']. by exists st'. }
  destruct (Hsend (mem_new 0)) as [st1 E1]. destruct (Hsend st1) as [st2 E2]. destruct (Hsend st2) as [st3 E3].
  eexists. split.
  - unfold m_init, o_init.
    eapply rtc_l. { eapply MOffer; [apply (OSOffer _ (late_rq 0))|done|done]. }
    eapply rtc_l. { eapply (MCollect cfg 1 1 late_p 1 0 []); [done|apply OSAccept|done]. }
    cbn [length app o_full op_thr Z.of_nat Pos.of_succ_nat Z.leb Z.compare Pos.compare Pos.compare_cont o_batch os_phase].
    eapply rtc_l. { eapply (MHand cfg 1 1 late_p 1 0); [done|exact E1|apply (VTake cfg late_p 1 u)|done|done]. }
    eapply rtc_l. { eapply (MReturn cfg 1 1 late_p 1 0); [done|apply OSReturn|done]. }
    eapply rtc_l. { eapply MOffer; [apply (OSOffer _ (late_rq 1))|done|done]. }
    eapply rtc_l. { eapply (MCollect cfg 1 1 late_p 1 0 []); [done|apply OSAccept|done]. }
    cbn [length app o_full op_thr Z.of_nat Pos.of_succ_nat Z.leb Z.compare Pos.compare Pos.compare_cont o_batch os_phase].
    eapply rtc_l. { eapply (MHand cfg 1 1 late_p 1 0); [done|exact E2|apply (VTake cfg late_p 1 u)|done|done]. }
    eapply rtc_l. { eapply (MReturn cfg 1 1 late_p 1 0); [done|apply OSReturn|done]. }
    cbn [length app map Nat.add is_now i_init].
    eapply rtc_l.
    { eapply (MWait cfg 1 1 late_p 1 0 []); [done|apply (OSIdle (OParams 1 1 0) 0 1); simpl; lia|
        eapply (VLoop cfg late_p 1 _ (IState 1 [] empty_cache (ISleep 0) ∅)); [apply (ISleeping cfg late_p 1 0); simpl; lia|done|simpl; lia]|done|done]. }
    eapply rtc_l. { eapply (MCollect cfg 1 1 late_p 1 0 []); [done|apply (OSFire (OParams 1 1 0)); simpl; lia|done]. }
    eapply rtc_l.
    { eapply (MWait cfg 1 1 late_p 1 1 []); [done|apply (OSIdle (OParams 1 1 0) 1 1); simpl; lia|
        eapply (VLoop cfg late_p 1 _ (IState 2 [] empty_cache (ISleep 0) ∅)); [apply (ISleeping cfg late_p 1 1); simpl; lia|done|simpl; lia]|done|done]. }
    cbn [Z.add Pos.add Pos.succ].
    eapply rtc_l.
    { eapply MIn; [eapply (VLoop cfg late_p 1 _ (IState 2 [] empty_cache (IApply 2 2 0 0 0) ∅)); [|done|simpl; lia]|done|done].
      apply (IWake cfg late_p 2 [] empty_cache 0 ∅). simpl. lia. }
    eapply rtc_l.
    { eapply MIn; [eapply (VLoop cfg late_p 1 _ (IState 2 [] empty_cache (ICycle 2) ∅)); [|done|simpl; lia]|done|done]. apply IEmpty. }
    eapply rtc_l.
    { eapply MIn; [eapply (VLoop cfg late_p 1 _ (IState 2 [] empty_cache (ISleep 2) ∅)); [|done|simpl; lia]|done|done].
      refine (ICycled cfg late_p (CycleOrders [] [] []) 2 [] empty_cache 2 ∅ _ _).
      - repeat split; simpl; by rewrite ?elements_empty, ?map_to_list_empty.
      - simpl. by intros v ?%elem_of_nil. }
    eapply rtc_l. { eapply MIn; [apply VFire; simpl; lia|done|done]. }
    eapply rtc_l.
    { eapply MIn; [eapply (VPut cfg late_p 1 _ (IState 2 [u] empty_cache (ISleep 2) ∅)); [simpl; lia| |done|done]|done|done].
      apply (IArrive cfg late_p u 2 [] empty_cache (ISleep 2) ∅). }
    eapply rtc_l. { eapply MOffer; [apply (OSOffer _ (late_rq 2))|done|done]. }
    eapply rtc_l. { eapply (MCollect cfg 1 1 late_p 1 1 []); [done|apply OSAccept|done]. }
    cbn [length app o_full op_thr Z.of_nat Pos.of_succ_nat Z.leb Z.compare Pos.compare Pos.compare_cont o_batch os_phase].
    eapply rtc_l.
    { eapply MBlocked; [done|eapply (VLoop cfg late_p 1 _ (IState 4 [u] empty_cache (ISleep 2) ∅)); [apply (ISleeping cfg late_p 2 2); simpl; lia|done|simpl; lia]|done]. }
    cbn [v_now vs_loop is_now].
    eapply rtc_l.
    { eapply MIn; [eapply (VLoop cfg late_p 1 _ (IState 4 [u] empty_cache (IApply 4 4 1 0 0) ∅)); [|done|simpl; lia]|done|done].
      apply (IWake cfg late_p 4 [u] empty_cache 2 ∅). simpl. lia. }
    eapply rtc_l.
    { eapply MIn; [eapply (VApply cfg late_p 1 _ (IState 4 [] (apply_update empty_cache u) (IApply 4 4 1 0 1) (<[u_key u := 4]> ∅))); [apply IUpdate|done]|done|done]. }
    eapply rtc_l.
    { eapply MIn; [eapply (VPut cfg late_p 1 _ (IState 4 [u] _ (IApply 4 4 1 1 1) _)); [simpl; lia|apply (IArrive cfg late_p u 4 [])|done|done]|done|done]. }
    eapply rtc_l. { eapply MIn; [apply VNext|done|done]. }
    eapply rtc_l. { eapply (MHand cfg 1 1 late_p 1 2); [done|exact E3|apply (VTake cfg late_p 1 u)|done|done]. }
    eapply rtc_l; [|apply rtc_refl]. eapply (MReturn cfg 1 1 late_p 1 2); [done|apply OSReturn|done].
  - cbn. right. right. left.
Qed.
