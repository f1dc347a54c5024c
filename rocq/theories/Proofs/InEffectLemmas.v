(** Proofs for C156. *)
From Coq Require Import String ZArith Lia.
From stdpp Require Import prelude strings gmap relations.
From Verif.Model Require Import GoStrings Types Cache Replica MemRepl RedisRepl Queues Timing Visible RedisVisible Arrival RedisArrival System.
From Verif.Spec Require Import CacheSpec StateSpec TimingSpec VisibleSpec RedisVisibleSpec ArrivalSpec RedisArrivalSpec InEffectSpec.
From Verif.Proofs Require Import CacheLemmas HistoryLemmas HistoryMore MemSystemMore StateLemmas AssignLemmas VisibleLemmas RedisVisibleLemmas ArrivalLemmas RedisArrivalLemmas.
Local Open Scope Z_scope.

(** ** The cache of a timed loop is that of a history *)
Definition phase_from (t : instant) (i : istate) : Prop := t <= is_now i ∧ match is_phase i with ICycle s => t <= s | _ => True end.

Lemma history_later cfg t n n' c us : n <= n' → HistoryOf cfg t n c us → HistoryOf cfg t n' c us.
Proof. intros Hn (es & E & Hf & Eu & Hv). exists es. do 3 (split; [done|]). intros v Hin. specialize (Hv v Hin). lia. Qed.
Lemma hev_run_snoc cfg c es e : hev_run cfg c (es ++ [e]) = hev_step cfg (hev_run cfg c es) e.
Proof. unfold hev_run. by rewrite foldl_app. Qed.

Lemma fits_snoc cfg c es e : hev_fits cfg c es → match e with HUpd _ => True | HCycle o => orders_fit cfg o (hev_run cfg c es) end → hev_fits cfg c (es ++ [e]).
Proof. revert c. induction es as [|e' es IH]; intros c; simpl; [done|]. intros [H1 H2] H. split; [done|]. by apply IH. Qed.
Lemma loop_history cfg p t i i' us : istep cfg p i i' → phase_from t i → HistoryOf cfg t (is_now i) (is_cache i) us →
  phase_from t i' ∧
  match is_chan i with
  | u :: c => is_chan i' = c → HistoryOf cfg t (is_now i') (is_cache i') (us ++ [u])
  | [] => True
  end ∧
  (length (is_chan i) <= length (is_chan i') → HistoryOf cfg t (is_now i') (is_cache i') us)%nat.
Proof.
  assert (∀ (u : update) c, u :: c = c → False) as Hno by (intros u c E; apply (f_equal length) in E; simpl in E; lia).
  assert (∀ (u u' : update) c, (u :: c) ++ [u'] = c → False) as Hno2 by (intros u u' c E; apply (f_equal length) in E; rewrite app_length in E; simpl in E; lia).
  unfold phase_from.
  destruct 1 as [u n c ca ph to|d n c ca s to Hd Hb|n c ca s to Hb|d n c ca s r h m a to Hd Hb|u n c ca s r h m a to|n c ca s r h m a to Hb|n ca s r h m a to
    |d n c ca s to Hd Hb|o n c ca s to Hf Hv]; cbn [is_now is_chan is_cache is_phase]; intros [Ht Hp] H.
  all: try (split; [by split; try lia|split; [by destruct c; [|intros ?%eq_sym; exfalso; eauto]|intros _; eapply history_later; [|exact H]; lia]]).
  - split; [split; [done|by destruct ph]|]. split; [destruct c; [done|]; intros E; exfalso; eauto|]. done.
  - split; [done|]. split; [|simpl; lia]. intros _. destruct H as (es & E & Hf & Eu & Hv). exists (es ++ [HUpd u]).
    split; [by rewrite hev_run_snoc, E|]. split; [by apply fits_snoc|]. split; [by rewrite hev_updates_app, Eu|]. intros v. rewrite hev_visits_app. simpl. rewrite app_nil_r. apply Hv.
  - split; [done|]. split; done.
  - split; [done|]. split; [destruct c; [done|]; intros E; exfalso; eauto|]. intros _.
    destruct H as (es & E & Hf' & Eu & Hv'). exists (es ++ [HCycle o]). split; [by rewrite hev_run_snoc, E|]. split; [apply fits_snoc; [done|by rewrite <-E]|].
    split; [rewrite hev_updates_app, Eu; simpl; by rewrite app_nil_r|]. intros v. rewrite hev_visits_app. simpl. rewrite app_nil_r.
    intros [Hin|Hin]%elem_of_app; [by apply Hv'|]. specialize (Hv v Hin). lia.
Qed.

Lemma visible_history cfg p cap t s : rtc (vstep cfg p cap) (v_init t) s →
  HistoryOf cfg t (is_now (vs_loop s)) (is_cache (vs_loop s)) (v_upd <$> (vs_done s).*1).
Proof.
  intros Hr. set (P := λ s, phase_from t (vs_loop s) ∧ HistoryOf cfg t (is_now (vs_loop s)) (is_cache (vs_loop s)) (v_upd <$> (vs_done s).*1)).
  enough (P s) as [_ H]; [done|]. assert (P (v_init t)) as H0.
  { split; [by split|]. exists []. do 3 (split; [done|]). by intros v ?%elem_of_nil. }
  induction Hr as [|a b z Hs Hr IH]; [done|]. apply IH. clear IH Hr. destruct H0 as [Hp H].
  destruct Hs as [u i since out ch dn al x|i since out ch dn al Hf|i i' x out ch dn al Hl Hs E En|i ch dn al|i i' r x ch dn al Hs E|i i' r ch dn al Hs E Hw];
    unfold P in *; cbn [vs_loop vs_done] in *; try done.
  - destruct (loop_history _ _ _ _ _ _ Hs Hp H) as (H1 & _ & H3). split; [done|]. apply H3. rewrite E, app_length. lia.
  - destruct (loop_history _ _ _ _ _ _ Hs Hp H) as (H1 & H2 & _). split; [done|]. rewrite E in H2. rewrite !fmap_app. by apply H2.
  - destruct (loop_history _ _ _ _ _ _ Hs Hp H) as (H1 & _ & H3). split; [done|]. apply H3. by rewrite E.
Qed.
Lemma redis_history cfg p net cap t s : rtc (wstep cfg p net cap) (w_init t) s →
  HistoryOf cfg t (is_now (ws_loop s)) (is_cache (ws_loop s)) (v_upd <$> (ws_done s).*1).
Proof.
  intros Hr. set (P := λ s, phase_from t (ws_loop s) ∧ HistoryOf cfg t (is_now (ws_loop s)) (is_cache (ws_loop s)) (v_upd <$> (ws_done s).*1)).
  enough (P s) as [_ H]; [done|]. assert (P (w_init t)) as H0.
  { split; [by split|]. exists []. do 3 (split; [done|]). by intros v ?%elem_of_nil. }
  induction Hr as [|a b z Hs Hr IH]; [done|]. apply IH. clear IH Hr. destruct H0 as [Hp H].
  destruct Hs as [u i r st ch dn al x|i since st ch dn al Hne|i since ch dn al Hf|i since got st ch dn al|i i' x got st ch dn al Hl Hs E En
      |i st ch dn al|i i' r st x ch dn al Hs E|i i' r st ch dn al Hs E Hwt]; unfold P in *; cbn [ws_loop ws_done] in *; try done.
  - destruct (loop_history _ _ _ _ _ _ Hs Hp H) as (H1 & _ & H3). split; [done|]. apply H3. rewrite E, app_length. lia.
  - destruct (loop_history _ _ _ _ _ _ Hs Hp H) as (H1 & H2 & _). split; [done|]. rewrite E in H2. rewrite !fmap_app. by apply H2.
  - destruct (loop_history _ _ _ _ _ _ Hs Hp H) as (H1 & _ & H3). split; [done|]. apply H3. by rewrite E.
Qed.

(** ** What a history means *)
Lemma history_in_effect cfg t now c l1 u l2 : HistoryOf cfg t now c (l1 ++ u :: l2) → InEffect cfg now c l1 u l2.
Proof.
  intros (es & -> & _ & Eu & Hv). destruct u as [cm k w]. unfold InEffect. cbn [u_cmd u_key u_value].
  assert (∀ b cm', (cm' = CmdTicket ∧ b = false ∨ cm' = StateCmd b) → cm = cm' →
    (∀ d, Update (StateCmd (negb b)) k d ∉ l2) → (b = true → tickets_for k l2 = []) →
    last (state_cmds_for k (hev_updates es)) = Some b) as Hlast.
  { intros b cm' Hc -> Hn Ht. rewrite Eu. change (Update cm' k w :: l2) with ([Update cm' k w] ++ l2). rewrite app_assoc, state_cmds_for_app, last_app.
    destruct (last (state_cmds_for k l2)) as [b'|] eqn:El.
    - apply last_Some_elem_of in El. unfold state_cmds_for in El. apply elem_of_list_omap in El as ([cm2 k2 w2] & Hin & Eb). cbn [u_cmd u_key] in Eb.
      destruct (decide (k2 = k)) as [->|]; [|done]. destruct cm2; try done; injection Eb as <-.
      + destruct b; [|done]. exfalso. specialize (Ht eq_refl). assert (w2 ∈ tickets_for k l2) as Hx; [|rewrite Ht in Hx; by apply elem_of_nil in Hx].
        unfold tickets_for. apply elem_of_list_omap. eexists. split; [exact Hin|]. simpl. by rewrite decide_True.
      + destruct b; [done|]. exfalso. by eapply Hn.
      + destruct b; [|done]. exfalso. by eapply Hn.
    - rewrite state_cmds_for_app, last_app. unfold state_cmds_for at 1. cbn [omap list_omap u_key u_cmd]. rewrite decide_True by done.
      destruct Hc as [[-> ->] | ->]; [done|]. by destruct b. }
  destruct cm; try done.
  - intros Hn Ha. apply run_active in Ha. rewrite (Hlast false CmdTicket) in Ha; [done|by left|done|exact Hn|done].
  - intros v El Hl2 Hd Ho He. assert (c_tickets (hev_run cfg empty_cache es) !! k = Some (stored_ticket k v)) as Ek.
    { apply run_ticket_kept.
      - intros x Hx Hox. specialize (Hv x Hx). apply Ho. apply (older_mono _ x.2 now k); [exact (proj2 Hv)|exact Hox].
      - intros x Hx Hox. specialize (Hv x Hx). apply He. apply (expired_mono x.2 now); [exact (proj2 Hv)|exact Hox].
      - rewrite Eu. change (Update CmdActivate k w :: l2) with ([Update CmdActivate k w] ++ l2). rewrite !tickets_for_app, Hl2. cbn. rewrite ?app_nil_r. exact El. }
    split; [|done]. split; [by eexists|]. intros Hin. destruct (run_sound cfg es) as (_ & Hs & _). apply Hs in Hin.
    rewrite (Hlast true CmdActivate) in Hin; [done|by right|done|exact Hd|done].
  - intros Hn Ha. apply run_active in Ha. rewrite (Hlast false CmdDeactivate) in Ha; [done|by right|done|exact Hn|done].
  - intros Hl2 Ho. apply run_assign_kept.
    + intros x Hx Hox. specialize (Hv x Hx). apply Ho. apply (older_mono _ x.2 now k); [exact (proj2 Hv)|exact Hox].
    + rewrite Eu. change (Update CmdAssign k w :: l2) with ([Update CmdAssign k w] ++ l2). rewrite !assigns_for_app, Hl2, app_nil_r, last_app.
      unfold assigns_for. cbn [omap list_omap u_key u_cmd]. by rewrite decide_True.
Qed.

(** Less is expected of an update with more after it. *)
Lemma in_effect_more cfg now c l1 u l2 l3 : InEffect cfg now c l1 u l2 → InEffect cfg now c l1 u (l2 ++ l3).
Proof.
  destruct u as [[] k w]; unfold InEffect; cbn [u_cmd u_key u_value]; try done.
  - intros H Hn. apply H. intros x Hx. apply (Hn x). apply elem_of_app. by left.
  - rewrite tickets_for_app. intros H v E [E1 _]%app_eq_nil Hn. apply H; try done. intros x Hx. apply (Hn x). apply elem_of_app. by left.
  - intros H Hn. apply H. intros x Hx. apply (Hn x). apply elem_of_app. by left.
  - rewrite assigns_for_app. intros H [E1 _]%app_eq_nil. by apply H.
Qed.

(** The last occurrence of what is in front only. *)
Lemma split_in_front {A} (d w l1 l2 : list A) x : d ++ w = l1 ++ x :: l2 → x ∉ w → ∃ l2', d = l1 ++ x :: l2' ∧ l2 = l2' ++ w.
Proof.
  revert l1. induction d as [|a d IH]; intros l1 E Hx.
  - simpl in E. exfalso. apply Hx. rewrite E. apply elem_of_app. right. left.
  - destruct l1 as [|b l1]; simpl in E; injection E as -> E.
    + exists d. by subst.
    + destruct (IH l1 E Hx) as (l2' & -> & ->). by exists l2'.
Qed.

Section applied.
  Context (cfg : config) (t now : instant) (c : cache) (all d w l1 l2 : list vitem) (x : vitem).
  Lemma applied_in_effect : HistoryOf cfg t now c (v_upd <$> d) → all = d ++ w → all = l1 ++ x :: l2 → x ∉ w →
    InEffect cfg now c (v_upd <$> l1) (v_upd x) (v_upd <$> l2).
  Proof.
    intros H -> E Hx. destruct (split_in_front d w l1 l2 x E Hx) as (l2' & -> & ->). rewrite fmap_app. apply in_effect_more.
    rewrite fmap_app, fmap_cons in H. by eapply history_in_effect.
  Qed.
End applied.

Lemma visible_effect cfg p cap t s l1 x l2 : SaneVisible p cap → rtc (vstep cfg p cap) (v_init t) s →
  vs_all s = l1 ++ x :: l2 → visible_by p cap x < is_now (vs_loop s) →
  InEffect cfg (is_now (vs_loop s)) (is_cache (vs_loop s)) (v_upd <$> l1) (v_upd x) (v_upd <$> l2).
Proof.
  intros Hs Hr E Hl. destruct (vinv_reach p cap Hs cfg t s Hr) as [Hch Hcp Hph Hrd Hall Hat Hby Hdn].
  eapply applied_in_effect; [by eapply visible_history|exact Hall|exact E|]. intros Hx.
  apply elem_of_list_lookup in Hx as [k Hk]. specialize (Hby k x Hk).
  pose proof (by_now p cap Hs (is_phase (vs_loop s)) (is_now (vs_loop s)) (vs_reader s) (length (vs_chan s)) k Hph Hrd). lia.
Qed.
Lemma redis_effect cfg p net cap t s l1 x l2 : SaneVisible p cap → 0 <= net → rtc (wstep cfg p net cap) (w_init t) s →
  ws_all s = l1 ++ x :: l2 → (redis_visible_by_any p net cap x < is_now (ws_loop s) ∨ (v_ahead x < cap)%nat ∧ redis_visible_by p net x < is_now (ws_loop s)) →
  InEffect cfg (is_now (ws_loop s)) (is_cache (ws_loop s)) (v_upd <$> l1) (v_upd x) (v_upd <$> l2).
Proof.
  intros Hs Hnet Hr E Hl. assert (x ∉ on_the_way_redis s) as Hx.
  - intros Hx. apply elem_of_list_lookup in Hx as [k Hk].
    assert (length (ws_chan s) + length (q_items (ws_reader s)) <= k → ws_stream s ≠ [])%nat as Hst.
    { intros Hle E'. apply lookup_lt_Some in Hk. unfold on_the_way_redis in Hk. rewrite E', !app_length in Hk. simpl in Hk. lia. }
    destruct Hl as [Hl|[Ha Hl]].
    + destruct (ginv_reach p net cap Hs Hnet cfg t s Hr) as [Hch Hcp Hph Hrd Hall Hat Hpos Hby Hdn]. specialize (Hby k x Hk).
      enough (is_now (ws_loop s) <= gby p net cap (is_phase (ws_loop s)) (is_now (ws_loop s)) (ws_reader s) (ws_stream s) (length (ws_chan s)) k) by lia.
      by apply gby_now.
    + destruct (winv_reach p net cap Hs Hnet cfg t s Hr) as [Hch Hcp Hph Hrd Hall Hat Hpos Hby Hdn]. specialize (Hby k x Hk Ha).
      enough (is_now (ws_loop s) <= wby p net cap (is_phase (ws_loop s)) (is_now (ws_loop s)) (ws_reader s) (ws_stream s) (length (ws_chan s)) k) by lia.
      by apply wby_now.
  - destruct (winv_reach p net cap Hs Hnet cfg t s Hr) as [_ _ _ _ Hall _ _ _ _].
    eapply applied_in_effect; [by eapply redis_history|exact Hall|exact E|exact Hx].
Qed.

Lemma memory_in_effect cfg wait thr p cap st t s o l1 x l2 : 0 < wait → SaneVisible p cap → rtc (light_step cfg wait thr p cap) (m_init st t) s →
  (o, x) ∈ ms_sent s → vs_all (ms_in s) = l1 ++ x :: l2 → in_cache_by wait p o (v_ahead x) < v_now (ms_in s) →
  InEffect cfg (v_now (ms_in s)) (is_cache (vs_loop (ms_in s))) (v_upd <$> l1) (v_upd x) (v_upd <$> l2).
Proof.
  intros Hw Hs Hr Hox E Hl. destruct (linv_reach cfg wait thr p cap st t Hw Hs s Hr) as [Hm _ Hi _ Hse].
  destruct (Hse o x Hox) as [Hat Hah]. eapply visible_effect; [exact Hs|exact Hi|exact E|].
  assert (visible_by p cap x <= in_cache_by wait p o (v_ahead x)) as Hle by (unfold visible_by, in_cache_by; rewrite (Nat.div_small _ _ Hah); lia).
  unfold v_now in Hl. lia.
Qed.
Lemma redis_in_effect cfg q p net cap t s o l1 x l2 : SaneOut q → SaneVisible p cap → 0 <= net → rtc (astep cfg q p net cap) (a_init t) s →
  (o, Some x) ∈ as_sent s → ws_all (as_in s) = l1 ++ x :: l2 →
  (answer_by q o + (redis_visible_by_any p net cap x - v_at x) < w_now (as_in s) ∨
   (v_ahead x < cap)%nat ∧ redis_in_cache_by q p net o (v_ahead x) < w_now (as_in s)) →
  InEffect cfg (w_now (as_in s)) (is_cache (ws_loop (as_in s))) (v_upd <$> l1) (v_upd x) (v_upd <$> l2).
Proof.
  intros Hq Hp Hnet Hr Hox E Hl. destruct (ainv_reach cfg q p net cap t Hq s Hr) as [_ _ _ _ Hi Has].
  destruct (Has o x Hox) as (Hx & Hat & _). eapply redis_effect; [exact Hp|exact Hnet|exact Hi|exact E|].
  unfold w_now in Hl. destruct Hl as [Hl|[Ha Hl]]; [left; lia|right]. split; [done|]. unfold redis_visible_by, redis_in_cache_by in *. lia.
Qed.
Lemma redis_activated cfg q p net cap t s o l1 x l2 k v w : SaneOut q → SaneVisible p cap → 0 <= net → rtc (astep cfg q p net cap) (a_init t) s →
  (o, Some x) ∈ as_sent s → ws_all (as_in s) = l1 ++ x :: l2 → v_upd x = Update CmdActivate k w →
  Update CmdTicket k v ∈ v_upd <$> l1 → tickets_for k (v_upd <$> ws_all (as_in s)) = [v] → (∀ d, Update CmdDeactivate k d ∉ v_upd <$> l2) →
  (v_ahead x < cap)%nat → redis_in_cache_by q p net o (v_ahead x) < w_now (as_in s) ->
  ¬ OlderThan (cfg_ticket_ttl cfg) (w_now (as_in s)) k → w_now (as_in s) <= as_time (tk_exp (stored_ticket k v)) →
  Active (is_cache (ws_loop (as_in s))) k ∧ c_tickets (is_cache (ws_loop (as_in s))) !! k = Some (stored_ticket k v).
Proof.
  intros Hq Hp Hnet Hr Hox E Ex Hin Ht Hd Ha Hl Ho He.
  pose proof (redis_in_effect cfg q p net cap t s o l1 x l2 Hq Hp Hnet Hr Hox E (or_intror (conj Ha Hl))) as H.
  rewrite Ex in H. unfold InEffect in H. cbn [u_cmd u_key u_value] in H.
  rewrite E, fmap_app, fmap_cons in Ht. change (v_upd x :: (v_upd <$> l2)) with ([v_upd x] ++ (v_upd <$> l2)) in Ht. rewrite Ex, !tickets_for_app in Ht. cbn [tickets_for omap list_omap u_cmd app] in Ht.
  change (tickets_for k [Update CmdActivate k w]) with (@nil string) in Ht. cbn [app] in Ht.
  assert (v ∈ tickets_for k (v_upd <$> l1)) as Hv.
  { unfold tickets_for. apply elem_of_list_omap. eexists. split; [exact Hin|]. simpl. by rewrite decide_True. }
  pose proof (second_none _ _ _ Ht Hv) as E2. rewrite E2, app_nil_r in Ht. apply H; try done.
  - by rewrite Ht.
  - unfold ExpiredAt. lia.
Qed.
