(** Session guarantees. *)
From Coq Require Import Ascii String ZArith NArith Lia.
From stdpp Require Import prelude strings gmap relations.
From Verif.Model Require Import GoStrings Types Filter Wire Proto Cache Replica Handlers MemRepl Queues RedisRepl RedisReader Snapshot Chunk System RedisSystem.
From Verif.Spec Require Import HandlerSpec CacheSpec ChunkSpec RedisSpec SystemSpec EndToEndSpec AssignSpec StateSpec SessionSpec.
From Verif.Proofs Require Import CacheLemmas HistoryLemmas HistoryMore SnapshotLemmas MemSystemLemmas MemSystemMore MemSystemOrder RedisReadLemmas
  RedisSystemLemmas RedisSystemRead RedisSystemMore RedisSystemOrder EndToEndLemmas EndToEndMem EndToEndRedis AssignMem AssignRedis
  StateLemmas StateMem StateRedis.
Local Open Scope nat_scope.

(** ** Writes *)

(** An update of a call that had not begun is not in the log. *)
Lemma not_yet_later cfg s1 s2 m j q :
  yreach cfg s1 → rtc (ystep cfg) s1 s2 → NotYet s1 m j → WrittenAt s2 q m j → length (ry_log s1) <= q.
Proof.
  intros Hr1 Hr12 Hny (e & He & Hs & Hc). destruct (yrtc_grows _ _ _ Hr12) as [l El].
  destruct (decide (length (ry_log s1) <= q)) as [|Hlt]; [done|]. exfalso.
  rewrite El, lookup_app_l in He by lia. apply elem_of_list_lookup_2 in He.
  destruct (log_call _ _ _ Hr1 He) as (y1 & cl & Hy1 & Hcl & _). rewrite Hs in Hy1. rewrite Hc in Hcl.
  apply lookup_lt_Some in Hcl. specialize (Hny y1 Hy1). lia.
Qed.

Lemma monotonic_writes cfg s1 s2 n x i c m j p q :
  yreach cfg s1 → rtc (ystep cfg) s1 s2 →
  ry_insts s1 !! n = Some x → AllSendable x → in_calls (rx_inst x) !! i = Some c → AllGood c → NotYet s1 m j →
  WrittenAt s2 p n i → WrittenAt s2 q m j → p < q.
Proof.
  intros Hr1 Hr12 Hx Ha Hi Hg Hny (e & He & Hs & Hc) Hq.
  pose proof (not_yet_later _ _ _ _ _ _ Hr1 Hr12 Hny Hq) as Hlen.
  destruct (yrtc_grows _ _ _ Hr12) as [l El].
  destruct (decide (p < length (ry_log s1))) as [Hlt|Hge]; [lia|]. exfalso.
  rewrite El, lookup_app_r in He by lia. apply elem_of_list_lookup_2 in He.
  exact (red_returned_silent cfg s1 s2 l n x i c e Hr1 Hr12 El Hx Ha Hi Hg He Hs Hc).
Qed.

Lemma monotonic_writes_mem cfg t0 s1 s2 i c j p q :
  (0 <= t0)%Z → mreach cfg t0 s1 → rtc (mstep cfg) s1 s2 →
  in_calls (ms_inst s1) !! i = Some c → returned c → length (in_calls (ms_inst s1)) <= j →
  WrittenAtMem s2 p i → WrittenAtMem s2 q j → p < q.
Proof.
  intros H0 Hr1 Hr12 Hi Hret Hny (e & He & Hc) (e' & He' & Hc').
  destruct (mrtc_grows _ _ _ Hr12) as [[l El] _].
  assert (length (ms_hist s1) <= q).
  { destruct (decide (length (ms_hist s1) <= q)) as [|Hlt]; [done|]. exfalso.
    rewrite El, lookup_app_l in He' by lia. apply elem_of_list_lookup_2 in He'.
    destruct (hist_request _ _ _ _ H0 Hr1 He') as (cl & Hcl & _). rewrite Hc' in Hcl. apply lookup_lt_Some in Hcl. lia. }
  destruct (decide (p < length (ms_hist s1))) as [Hlt|Hge]; [lia|]. exfalso.
  rewrite El, lookup_app_r in He by lia. apply elem_of_list_lookup_2 in He.
  exact (mem_returned_silent cfg t0 s1 s2 l i c e H0 Hr1 Hr12 El Hi Hret He Hc).
Qed.

(** ** Reads *)

Lemma ystep_events cfg s s' n x : ystep cfg s s' → ry_insts s !! n = Some x →
  ∃ x' es, ry_insts s' !! n = Some x' ∧ in_events (rx_inst x') = in_events (rx_inst x) ++ es.
Proof.
  assert (Hset : ∀ (xs : list rinst) m y y', xs !! n = Some x → xs !! m = Some y →
    (∃ es, in_events (rx_inst y') = in_events (rx_inst y) ++ es) →
    ∃ x' es, <[m := y']> xs !! n = Some x' ∧ in_events (rx_inst x') = in_events (rx_inst x) ++ es).
  { intros xs m y y' Hn Hm [es Hy]. destruct (decide (n = m)) as [E|Hne].
    - rewrite E in *. rewrite Hm in Hn. injection Hn as Hn. rewrite <-Hn. exists y', es.
      split; [|done]. apply list_lookup_insert. by eapply lookup_lt_Some.
    - exists x, []. rewrite list_lookup_insert_ne by done. by rewrite app_nil_r. }
  destruct 1; simpl; intros Hn; try (by exists x, []; rewrite app_nil_r).
  - exists x, []. rewrite app_nil_r. split; [|done]. by apply lookup_app_l_Some.
  - eapply Hset; [done|done|].
    match goal with H : lstep _ _ _ _ |- _ => destruct H; simpl; try (by exists []; rewrite app_nil_r); by eexists end.
  - eapply Hset; [done|done|]. exists []. by rewrite app_nil_r.
  - eapply Hset; [done|done|]. exists []. by rewrite app_nil_r.
  - eapply Hset; [done|done|]. exists []. by rewrite app_nil_r.
  - eapply Hset; [done|done|]. exists []. by rewrite app_nil_r.
  - eapply Hset; [done|done|]. exists []. rewrite app_nil_r. unfold poll_redis.
    destruct (redis_get _ _ _ _) as [[us|] c]; done.
Qed.

Lemma yrtc_events cfg s s' n x : rtc (ystep cfg) s s' → ry_insts s !! n = Some x →
  ∃ x' es, ry_insts s' !! n = Some x' ∧ in_events (rx_inst x') = in_events (rx_inst x) ++ es.
Proof.
  intros H. revert x. induction H as [s|s s1 s' Hs _ IH]; intros x Hx.
  - exists x, []. by rewrite app_nil_r.
  - destruct (ystep_events _ _ _ _ _ Hs Hx) as (x1 & e1 & Hx1 & E1). destruct (IH x1 Hx1) as (x' & e2 & Hx' & E2).
    exists x', (e1 ++ e2). split; [done|]. by rewrite E2, E1, app_assoc.
Qed.

Lemma monotonic_reads cfg s1 s2 n x1 x2 :
  rtc (ystep cfg) s1 s2 → ry_insts s1 !! n = Some x1 → ry_insts s2 !! n = Some x2 →
  applied (rx_inst x1) `prefix_of` applied (rx_inst x2).
Proof.
  intros Hr Hx1 Hx2. destruct (yrtc_events _ _ _ _ _ Hr Hx1) as (x' & es & Hx' & E).
  rewrite Hx2 in Hx'. injection Hx' as <-. exists (hev_updates es). unfold applied. by rewrite E, hev_updates_app.
Qed.

(** One instance: what is active stays in the snapshots. *)
Lemma active_stays cfg s1 s2 n x1 x2 ts k v :
  yreach cfg s1 → rtc (ystep cfg) s1 s2 →
  ry_insts s1 !! n = Some x1 → Active (in_cache (rx_inst x1)) k → c_tickets (in_cache (rx_inst x1)) !! k = Some (stored_ticket k v) →
  ry_insts s2 !! n = Some x2 →
  (∀ w, Update CmdDeactivate k w ∉ drop (length (applied (rx_inst x1))) (applied (rx_inst x2))) →
  NotDue cfg (rx_inst x2) k v →
  SnapshotBetween cfg (rx_inst x1) (rx_inst x2) ts → stored_ticket k v ∈ ts.
Proof.
  intros Hr1 Hr12 Hx1 [_ Hact] Ht Hx2 Hnd Hdue (es & sn & Hev & Hok & ->).
  assert (Hr2 : yreach cfg s2) by (by eapply rtc_transitive).
  assert (Hdrop : drop (length (applied (rx_inst x1))) (applied (rx_inst x2)) = hev_updates es).
  { unfold applied. by rewrite Hev, hev_updates_app, drop_app. }
  rewrite Hdrop in Hnd. unfold active_tickets. apply elem_of_list_fmap. exists (k, stored_ticket k v). split; [done|].
  apply stably_active_taken; [done|]. intros l _. apply stays_active; try done.
  - eapply (red_no_second cfg s2 n x2 (rx_inst x1)); try done.
    destruct (red_cache _ _ _ _ Hr1 Hx1) as [Hca _]. rewrite Hca in Ht.
    destruct (run_sound cfg (in_events (rx_inst x1))) as (Hs & _). apply Hs in Ht as (w & Hw & _).
    unfold applied. intros E. by rewrite E in Hw.
  - intros e He. apply Hdue. rewrite Hev, hev_visits_app. apply elem_of_app. by right.
Qed.

(** *** Applied updates are visible *)
Lemma applied_active cfg es p k v u :
  hev_updates es !! p = Some (Update CmdActivate k u) → Update CmdTicket k v ∈ take p (hev_updates es) →
  tickets_for k (hev_updates es) = [v] →
  (∀ q d, p < q → hev_updates es !! q ≠ Some (Update CmdDeactivate k d)) →
  (∀ x, x ∈ hev_visits es → ¬ OlderThan (cfg_ticket_ttl cfg) x.2 k ∧ ¬ ExpiredAt x.2 (stored_ticket k v)) →
  Active (hev_run cfg empty_cache es) k ∧ c_tickets (hev_run cfg empty_cache es) !! k = Some (stored_ticket k v).
Proof.
  intros Hp Ht Hu Hnd Hv.
  assert (Hl : last (state_cmds_for k (hev_updates es)) = Some true).
  { rewrite <-(take_drop p (hev_updates es)) in Hu |- *. apply (last_state_later k true).
    - rewrite tickets_for_app in Hu. eapply second_none; [exact Hu|]. unfold tickets_for. apply elem_of_list_omap.
      eexists. split; [exact Ht|]. simpl. by rewrite decide_True.
    - exists u. apply (elem_of_list_lookup_2 _ 0). rewrite lookup_drop, Nat.add_0_r. exact Hp.
    - intros d [q Hq]%elem_of_list_lookup. rewrite lookup_drop in Hq. destruct q as [|q].
      + rewrite Nat.add_0_r, Hp in Hq. done.
      + apply (Hnd (p + Datatypes.S q) d); [lia|]. exact Hq. }
  destruct (state_at_the_end cfg es k v true Hu Hl Hv) as [H1 H2]. split; [|done]. split; [by eexists|].
  intros Hin. by apply H2 in Hin.
Qed.

Lemma red_history_unique cfg s k v : yreach cfg s → Update CmdTicket k v ∈ history s → tickets_for k (history s) = [v].
Proof.
  intros Hr Hh. destruct (history_ticket _ _ _ _ Hr Hh) as (e & y & cl & He & Ek & Ev & _). rewrite Ek. by eapply history_ticket_unique.
Qed.

Lemma visible_once_applied cfg s1 s2 w z1 z2 p k v u ts :
  yreach cfg s1 → rtc (ystep cfg) s1 s2 → Untrimmed s2 → ry_insts s1 !! w = Some z1 → ry_insts s2 !! w = Some z2 →
  history s2 !! p = Some (Update CmdActivate k u) → Update CmdTicket k v ∈ take p (history s2) →
  p < length (applied (rx_inst z1)) →
  (∀ q d, p < q → history s2 !! q ≠ Some (Update CmdDeactivate k d)) →
  NotDue cfg (rx_inst z2) k v →
  SnapshotBetween cfg (rx_inst z1) (rx_inst z2) ts → stored_ticket k v ∈ ts.
Proof.
  intros Hr1 Hr12 Hun Hz1 Hz2 Hp Ht Hlen Hnd Hdue Hsn.
  assert (Hr2 : yreach cfg s2) by (by eapply rtc_transitive).
  destruct (red_prefix _ _ _ _ Hr2 Hun Hz2) as [rest Hh].
  assert (Hsn' := Hsn). destruct Hsn' as (es & sn & Hev & _).
  assert (Hap : applied (rx_inst z2) = applied (rx_inst z1) ++ hev_updates es) by (unfold applied; by rewrite Hev, hev_updates_app).
  rewrite Hap, <-app_assoc in Hh.
  assert (Hin : Update CmdTicket k v ∈ history s2).
  { apply elem_of_take in Ht as (j & Hj & _). by eapply elem_of_list_lookup_2. }
  pose proof (red_history_unique _ _ _ _ Hr2 Hin) as Hu.
  assert (Ht1 : Update CmdTicket k v ∈ take p (applied (rx_inst z1))).
  { rewrite Hh, take_app_le in Ht by lia. exact Ht. }
  assert (Hu1 : tickets_for k (applied (rx_inst z1)) = [v]).
  { rewrite Hh, tickets_for_app in Hu.
    assert (Hv : v ∈ tickets_for k (applied (rx_inst z1))).
    { unfold tickets_for. apply elem_of_list_omap. exists (Update CmdTicket k v). split.
      - apply elem_of_take in Ht1 as (j & Hj & _). by eapply elem_of_list_lookup_2.
      - simpl. by rewrite decide_True. }
    rewrite (second_none _ _ _ Hu Hv), app_nil_r in Hu. exact Hu. }
  destruct (red_cache _ _ _ _ Hr1 Hz1) as [Hca _].
  destruct (applied_active cfg (in_events (rx_inst z1)) p k v u) as [Ha Hc].
  - change (applied (rx_inst z1) !! p = Some (Update CmdActivate k u)). rewrite Hh, lookup_app_l in Hp by lia. exact Hp.
  - exact Ht1.
  - exact Hu1.
  - intros q d Hq Hx. apply (Hnd q d Hq). rewrite Hh. by apply lookup_app_l_Some.
  - intros x Hx. apply Hdue. rewrite Hev, hev_visits_app. apply elem_of_app. by left.
  - rewrite <-Hca in Ha, Hc. apply (active_stays cfg s1 s2 w z1 z2 ts k v); try done.
    rewrite Hap, drop_app. intros d [q Hq]%elem_of_list_lookup. apply (Hnd (length (applied (rx_inst z1)) + q) d); [lia|].
    rewrite Hh, lookup_app_r by lia. replace (length (applied (rx_inst z1)) + q - length (applied (rx_inst z1))) with q by lia.
    by apply lookup_app_l_Some.
Qed.

(** Before that it is not offered. *)
Lemma not_before cfg s1 s2 w z1 z2 k ts :
  yreach cfg s1 → rtc (ystep cfg) s1 s2 → ry_insts s1 !! w = Some z1 → ry_insts s2 !! w = Some z2 →
  (∃ v, Update CmdTicket k v ∈ applied (rx_inst z1)) → (∀ u, Update CmdActivate k u ∉ applied (rx_inst z2)) →
  SnapshotBetween cfg (rx_inst z1) (rx_inst z2) ts → ∀ t, t ∈ ts → tk_id t ≠ k.
Proof.
  intros Hr1 Hr12 Hz1 Hz2 [v Hv] Hna Hsn.
  assert (Hsn' := Hsn). destruct Hsn' as (es & sn & Hev & _).
  assert (Hap : applied (rx_inst z2) = applied (rx_inst z1) ++ hev_updates es) by (unfold applied; by rewrite Hev, hev_updates_app).
  eapply (red_not_offered cfg s1 s2 w z1 z2 (hev_updates es)); try done.
  - intros E. assert (Hx : v ∈ tickets_for k (applied (rx_inst z1))); [|rewrite E in Hx; by apply elem_of_nil in Hx].
    unfold tickets_for. apply elem_of_list_omap. eexists. split; [exact Hv|]. simpl. by rewrite decide_True.
  - intros Hl. apply last_state_split in Hl as (us1 & u & us2 & E & _). apply (Hna u). rewrite Hap, E. apply elem_of_app. left.
    apply elem_of_app. right. left.
  - intros u Hu. apply (Hna u). rewrite Hap. apply elem_of_app. by right.
Qed.

(** *** Writes follow reads *)
Lemma writes_follow_reads cfg s1 s2 n x m j q :
  yreach cfg s1 → rtc (ystep cfg) s1 s2 → ry_insts s1 !! n = Some x → NotYet s1 m j → WrittenAt s2 q m j →
  applied (rx_inst x) `sublist_of` take q (history s2).
Proof.
  intros Hr1 Hr12 Hx Hny Hq. pose proof (not_yet_later _ _ _ _ _ _ Hr1 Hr12 Hny Hq) as Hlen.
  pose proof (red_subsequence _ _ _ _ Hr1 Hx) as Hsub. destruct (yrtc_grows _ _ _ Hr12) as [l El].
  assert (Hh : history s2 = history s1 ++ map (λ e, as_read (le_id e) (rq_update (le_req e))) l) by (unfold history; by rewrite El, map_app).
  assert (Hl : length (history s1) <= q) by (unfold history; by rewrite map_length).
  rewrite Hh, take_app_ge by done. etrans; [|apply sublist_inserts_r; reflexivity]. etrans; [|exact Hsub].
  apply sublist_inserts_r. reflexivity.
Qed.

Lemma writes_follow_snapshots cfg s0 s1 s2 n x0 x1 ts t m j q :
  yreach cfg s0 → rtc (ystep cfg) s0 s1 → rtc (ystep cfg) s1 s2 →
  ry_insts s0 !! n = Some x0 → ry_insts s1 !! n = Some x1 →
  SnapshotBetween cfg (rx_inst x0) (rx_inst x1) ts → t ∈ ts → NotYet s1 m j → WrittenAt s2 q m j →
  ∃ v, t = stored_ticket (tk_id t) v ∧ Update CmdTicket (tk_id t) v ∈ take q (history s2).
Proof.
  intros Hr0 Hr01 Hr12 Hx0 Hx1 (es & sn & Hev & Hok & ->) Ht Hny Hq.
  assert (Hr1 : yreach cfg s1) by (by eapply rtc_transitive).
  destruct (red_cache _ _ _ _ Hr0 Hx0) as [Hca _]. rewrite Hca in Ht.
  destruct (snapshot_source _ _ _ _ _ Ht) as (v & Hv & E). exists v. split; [done|].
  eapply sublist_elem; [by eapply (writes_follow_reads cfg s1 s2 n x1)|]. unfold applied. by rewrite Hev.
Qed.

(** What an instance has applied, up to an update of a later call, has all of it. *)
Lemma writes_follow_reads_everywhere cfg s1 s2 n x m j q w z :
  yreach cfg s1 → rtc (ystep cfg) s1 s2 → Untrimmed s2 → ry_insts s1 !! n = Some x → NotYet s1 m j → WrittenAt s2 q m j →
  ry_insts s2 !! w = Some z → q < length (applied (rx_inst z)) →
  applied (rx_inst x) `sublist_of` take q (applied (rx_inst z)).
Proof.
  intros Hr1 Hr12 Hun Hx Hny Hq Hz Hlen.
  assert (Hr2 : yreach cfg s2) by (by eapply rtc_transitive).
  pose proof (writes_follow_reads _ _ _ _ _ _ _ _ Hr1 Hr12 Hx Hny Hq) as Hs.
  destruct (red_prefix _ _ _ _ Hr2 Hun Hz) as [rest Hh]. by rewrite Hh, take_app_le in Hs by lia.
Qed.

(** *** Read your writes *)
Lemma read_your_writes cfg s0 s1 s2 n x0 i ci v r m j w z1 z2 p u ts :
  yreach cfg s0 → rtc (ystep cfg) s0 s1 → rtc (ystep cfg) s1 s2 → Untrimmed s2 →
  ry_insts s0 !! n = Some x0 → AllSendable x0 → in_calls (rx_inst x0) !! i = Some ci → Creates ci v → AllGood ci → r ∈ cl_got ci →
  NotYet s0 m j → WrittenAt s1 p m j → history s1 !! p = Some (Update CmdActivate (r_result r) u) →
  (∀ q d, p < q → history s2 !! q ≠ Some (Update CmdDeactivate (r_result r) d)) →
  ry_insts s1 !! w = Some z1 → ry_insts s2 !! w = Some z2 →
  p < length (applied (rx_inst z1)) → NotDue cfg (rx_inst z2) (r_result r) v →
  SnapshotBetween cfg (rx_inst z1) (rx_inst z2) ts → stored_ticket (r_result r) v ∈ ts.
Proof.
  intros Hr0 Hr01 Hr12 Hun Hx0 Ha Hi Hc [_ Hg] Hin Hny Hw Hp Hnd Hz1 Hz2 Hlen Hdue Hsn.
  assert (Hr1 : yreach cfg s1) by (by eapply rtc_transitive).
  rewrite Forall_forall in Hg. pose proof (red_created _ _ _ _ _ _ _ _ Hr0 Hx0 Ha Hi Hc Hin (Hg r Hin)) as Ht.
  assert (Hin0 : Update CmdTicket (r_result r) v ∈ history s0) by (apply tickets_for_elem; rewrite Ht; left).
  pose proof (not_yet_later _ _ _ _ _ _ Hr0 Hr01 Hny Hw) as Hle.
  destruct (yrtc_grows _ _ _ Hr01) as [l01 E01]. destruct (yrtc_grows _ _ _ Hr12) as [l12 E12].
  assert (H1 : history s1 = history s0 ++ map (λ e, as_read (le_id e) (rq_update (le_req e))) l01) by (unfold history; by rewrite E01, map_app).
  assert (H2 : history s2 = history s1 ++ map (λ e, as_read (le_id e) (rq_update (le_req e))) l12) by (unfold history; by rewrite E12, map_app).
  assert (Hl : length (history s0) <= p) by (unfold history; by rewrite map_length).
  eapply (visible_once_applied cfg s1 s2 w z1 z2 p (r_result r) v u); try done.
  - rewrite H2. by apply lookup_app_l_Some.
  - rewrite H2, H1, <-app_assoc, take_app_ge by done. apply elem_of_app. by left.
Qed.

(** ** One instance with the in-memory store *)
Lemma read_your_writes_mem cfg t0 s0 s1 s2 i ci v r j p u ts :
  (0 <= t0)%Z → mreach cfg t0 s0 → rtc (mstep cfg) s0 s1 → rtc (mstep cfg) s1 s2 →
  in_calls (ms_inst s0) !! i = Some ci → Creates ci v → returned ci → r ∈ cl_got ci →
  length (in_calls (ms_inst s0)) <= j → WrittenAtMem s1 p j →
  map sn_upd (ms_hist s1) !! p = Some (Update CmdActivate (r_result r) u) →
  (∀ q d, p < q → map sn_upd (ms_hist s2) !! q ≠ Some (Update CmdDeactivate (r_result r) d)) →
  p < length (applied (ms_inst s1)) → NotDue cfg (ms_inst s2) (r_result r) v →
  SnapshotBetween cfg (ms_inst s1) (ms_inst s2) ts → stored_ticket (r_result r) v ∈ ts.
Proof.
  intros H0 Hr0 Hr01 Hr12 Hi Hc _ Hin Hj (e & He & Hch) Hp Hnd Hlen Hdue (es & sn & Hev & Hok & ->).
  assert (Hr1 : mreach cfg t0 s1) by (by eapply rtc_transitive).
  assert (Hr2 : mreach cfg t0 s2) by (by eapply rtc_transitive).
  pose proof (mem_created_hist _ _ _ _ _ _ _ H0 Hr0 Hi Hc Hin) as Hh.
  destruct (mrtc_grows _ _ _ Hr01) as [[l01 E01] _]. destruct (mrtc_grows _ _ _ Hr12) as [[l12 E12] _].
  assert (Hle : length (ms_hist s0) <= p).
  { destruct (decide (length (ms_hist s0) <= p)) as [|Hlt]; [done|]. exfalso.
    rewrite E01, lookup_app_l in He by lia. apply elem_of_list_lookup_2 in He.
    destruct (hist_request _ _ _ _ H0 Hr0 He) as (cl & Hcl & _). rewrite Hch in Hcl. apply lookup_lt_Some in Hcl. lia. }
  set (k := r_result r) in *.
  assert (Ht : Update CmdTicket k v ∈ take p (map sn_upd (ms_hist s1))).
  { rewrite E01, map_app, take_app_ge by (by rewrite map_length). apply elem_of_app. by left. }
  assert (Hin1 : Update CmdTicket k v ∈ map sn_upd (ms_hist s1)).
  { apply elem_of_take in Ht as (q & Hq & _). by eapply elem_of_list_lookup_2. }
  pose proof (mem_tickets_unique _ _ _ _ _ H0 Hr1 Hin1) as Hu.
  destruct (mem_cache _ _ _ H0 Hr1) as (Hm1 & Hca & _). destruct (mem_cache _ _ _ H0 Hr2) as (Hm2 & _).
  assert (Hap : applied (ms_inst s2) = applied (ms_inst s1) ++ hev_updates es) by (unfold applied; by rewrite Hev, hev_updates_app).
  rewrite Hap, <-app_assoc in Hm2.
  assert (Ht1 : Update CmdTicket k v ∈ take p (applied (ms_inst s1))) by (by rewrite Hm1, take_app_le in Ht by lia).
  assert (Hu1 : tickets_for k (applied (ms_inst s1)) = [v]).
  { rewrite Hm1, tickets_for_app in Hu.
    assert (Hv : v ∈ tickets_for k (applied (ms_inst s1))).
    { unfold tickets_for. apply elem_of_list_omap. exists (Update CmdTicket k v). split.
      - apply elem_of_take in Ht1 as (q & Hq & _). by eapply elem_of_list_lookup_2.
      - simpl. by rewrite decide_True. }
    rewrite (second_none _ _ _ Hu Hv), app_nil_r in Hu. exact Hu. }
  destruct (applied_active cfg (in_events (ms_inst s1)) p k v u) as [[_ Ha] Hk].
  - change (applied (ms_inst s1) !! p = Some (Update CmdActivate k u)). rewrite Hm1, lookup_app_l in Hp by lia. exact Hp.
  - exact Ht1.
  - exact Hu1.
  - intros q d Hq Hx. apply (Hnd q d Hq). rewrite Hm2. by apply lookup_app_l_Some.
  - intros x Hx. apply Hdue. rewrite Hev, hev_visits_app. apply elem_of_app. by left.
  - rewrite <-Hca in Ha, Hk. unfold active_tickets. apply elem_of_list_fmap. exists (k, stored_ticket k v). split; [done|].
    apply stably_active_taken; [done|]. intros l _. apply stays_active; try done.
    + eapply (mem_no_second cfg t0 s1 s2); try done. by rewrite Hu1.
    + intros d [q Hq]%elem_of_list_lookup. apply (Hnd (length (applied (ms_inst s1)) + q) d); [lia|].
      rewrite Hm2, lookup_app_r by lia. replace (length (applied (ms_inst s1)) + q - length (applied (ms_inst s1))) with q by lia.
      by apply lookup_app_l_Some.
    + intros x Hx. apply Hdue. rewrite Hev, hev_visits_app. apply elem_of_app. by right.
Qed.
