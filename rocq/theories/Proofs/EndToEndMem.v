(** End to end with the in-memory store. *)
From Coq Require Import Ascii String ZArith NArith.
From stdpp Require Import prelude strings gmap relations.
From Verif.Model Require Import GoStrings Types Filter Wire Proto Cache Replica Handlers MemRepl Queues Snapshot Chunk System.
From Verif.Spec Require Import HandlerSpec CacheSpec ChunkSpec SystemSpec EndToEndSpec.
From Verif.Proofs Require Import CacheLemmas HistoryLemmas SnapshotLemmas HandlerLemmas HandlerMore ChunkMore
  MemSystemLemmas MemSystemMore MemSystemOrder RedisSystemMore EndToEndLemmas.

Lemma mem_applied_created cfg t0 s k v :
  (0 <= t0)%Z → mreach cfg t0 s → Update CmdTicket k v ∈ applied (ms_inst s) →
  ∃ i cl, in_calls (ms_inst s) !! i = Some cl ∧ Creates cl v ∧ (∀ r, r ∈ cl_got cl → r = Response k None).
Proof.
  intros H0 Hr Hel. destruct (applied_in_hist _ _ _ _ H0 Hr Hel) as (e & He & Eu).
  destruct (hist_request _ _ _ _ H0 Hr He) as (cl & Hcl & Hu & Hiss & Hres).
  destruct (mreach_inv _ _ _ H0 Hr) as [_ _ Ho _ _ _]. apply Forall_app in Ho as [Ho _].
  pose proof (own_ticket_key _ _ _ _ Ho He Eu) as Hk.
  rewrite Forall_forall in Ho. destruct (Ho e He) as [Ho1 Ho2]. rewrite Eu in Ho2. unfold AsStored in Ho2.
  destruct (rq_update (sn_req e)) as [cm key w] eqn:Eq. destruct cm; simpl in Ho2; try done. injection Ho2 as _ ->.
  destruct (issues_ticket _ _ _ _ _ Hiss Hu) as (-> & Hups & _).
  exists (rq_chan (sn_req e)), cl. split_and!; try done.
  intros r Hin. rewrite (Hres r) by done. rewrite Hk. destruct (sn_resp e) as [res err]. simpl in *. by subst err.
Qed.

Lemma mem_snapshot_source cfg t0 s1 s2 ts t :
  (0 <= t0)%Z → mreach cfg t0 s1 → rtc (mstep cfg) s1 s2 →
  SnapshotBetween cfg (ms_inst s1) (ms_inst s2) ts → t ∈ ts →
  ∃ i cl v, in_calls (ms_inst s2) !! i = Some cl ∧ Creates cl v ∧ t = stored_ticket (tk_id t) v ∧
    (∀ r, r ∈ cl_got cl → r = Response (tk_id t) None).
Proof.
  intros H0 Hr Hr12 (es & sn & Hev & Hok & ->) Ht.
  assert (Hr2 : mreach cfg t0 s2) by (by eapply rtc_transitive).
  destruct (mem_cache _ _ _ H0 Hr) as (_ & Hca & _). rewrite Hca in Ht.
  apply snapshot_source in Ht as (v & Hv & Et). rewrite <-Hev in Hv.
  destruct (mem_applied_created _ _ _ _ _ H0 Hr2 Hv) as (i & cl & Hcl & Hc & Hg).
  by exists i, cl, v.
Qed.

Lemma mem_snapshot_nodup cfg t0 s1 s2 ts :
  (0 <= t0)%Z → mreach cfg t0 s1 → SnapshotBetween cfg (ms_inst s1) (ms_inst s2) ts → NoDup (map tk_id ts).
Proof.
  intros H0 Hr (es & sn & Hev & Hok & ->). destruct (mem_cache _ _ _ H0 Hr) as (_ & Hca & _). rewrite Hca in *.
  by apply snapshot_ids_distinct.
Qed.

Lemma mem_no_filter_panic cfg t0 s1 s2 ts p :
  (0 <= t0)%Z → SaneTTL (cfg_ticket_ttl cfg) → mreach cfg t0 s1 → rtc (mstep cfg) s1 s2 →
  ValidCreates cfg (ms_inst s2) → SnapshotBetween cfg (ms_inst s1) (ms_inst s2) ts → NoFilterPanic p ts.
Proof.
  intros H0 Httl Hr Hr12 Hv Hs t n q Ht _ _.
  destruct (mem_snapshot_source _ _ _ _ _ _ H0 Hr Hr12 Hs Ht) as (i & cl & v & Hcl & Hc & -> & _).
  apply elem_of_list_lookup_2 in Hcl. destruct (Hv cl v Hcl Hc) as (now & req & Hcc).
  destruct (create_call_stored _ _ _ _ v (tk_id (stored_ticket (tk_id t) v)) Httl Hcc Hc) as [_ Hnp]. apply Hnp.
Qed.

(** Invocations never fail because of the tickets. *)
Lemma mem_served cfg t0 s1 s2 p tsn :
  (0 <= t0)%Z → SaneTTL (cfg_ticket_ttl cfg) → mreach cfg t0 s1 → rtc (mstep cfg) s1 s2 →
  ValidCreates cfg (ms_inst s2) → SnapshotBetween cfg (ms_inst s1) (ms_inst s2) tsn.*1 →
  NamesFit p tsn → CountFits p tsn.*1 →
  ∃ cs, build_requests p tsn = Done cs ∧
    ∀ rcs, rcs.*1 = cs → pool_orders_fit rcs → ∃ got, get_chunked_request rcs = Done (Received got).
Proof. intros H0 Httl Hr Hr12 Hv Hs Hnf Hf. apply functions_served; try done. by eapply mem_no_filter_panic. Qed.

Lemma filter_sub {A} (P : A → Prop) `{∀ x, Decision (P x)} (l : list A) : filter P l `sublist_of` l.
Proof.
  induction l as [|x l IH]; [constructor|]. rewrite filter_cons. destruct (decide (P x)); by constructor.
Qed.

Lemma mem_functions_get cfg t0 s1 s2 ts p got n :
  (0 <= t0)%Z → SaneTTL (cfg_ticket_ttl cfg) → mreach cfg t0 s1 → rtc (mstep cfg) s1 s2 →
  ValidCreates cfg (ms_inst s2) → SnapshotBetween cfg (ms_inst s1) (ms_inst s2) ts →
  CountFits p ts → FunctionGets p ts got →
  NoDup (map tk_id (PoolTickets got n)) ∧
  ∀ t, t ∈ PoolTickets got n →
    Eligible p n t ∧
    ∃ i cl now req, in_calls (ms_inst s2) !! i = Some cl ∧ CreateCall cfg cl now req ∧
      StoredAs (cfg_ticket_ttl cfg) now (tk_id t) req t ∧ (∀ r, r ∈ cl_got cl → r = Response (tk_id t) None).
Proof.
  intros H0 Httl Hr Hr12 Hv Hs Hf Hg.
  destruct (functions_get p ts got) as (_ & _ & Hp); try done; [by eapply mem_no_filter_panic|].
  rewrite Hp. split.
  - eapply (RedisSystemMore.sublist_nodup _ (map tk_id ts)); [|by eapply mem_snapshot_nodup].
    apply (fmap_sublist tk_id). apply filter_sub.
  - intros t [He Ht]%elem_of_list_filter. split; [done|].
    destruct (mem_snapshot_source _ _ _ _ _ _ H0 Hr Hr12 Hs Ht) as (i & cl & v & Hcl & Hc & Et & Hres).
    assert (Hin := elem_of_list_lookup_2 _ _ _ Hcl). destruct (Hv cl v Hin Hc) as (now & req & Hcc).
    destruct (create_call_stored _ _ _ _ v (tk_id t) Httl Hcc Hc) as [Hst _]. rewrite <-Et in Hst.
    by exists i, cl, now, req.
Qed.

Lemma mem_tickets_unique cfg t0 s k v :
  (0 <= t0)%Z → mreach cfg t0 s → Update CmdTicket k v ∈ map sn_upd (ms_hist s) →
  tickets_for k (map sn_upd (ms_hist s)) = [v].
Proof.
  intros H0 Hr Hin. assert (Hnd2 := mem_ids_nodup _ _ _ H0 Hr).
  destruct (mreach_inv _ _ _ H0 Hr) as [_ _ Ho _ _ _]. apply Forall_app in Ho as [Ho _].
  apply elem_of_list_fmap in Hin as (e & Ee & He). by eapply tickets_for_unique.
Qed.

(** Applied before: not applied again. *)
Lemma mem_no_second cfg t0 s1 s2 es k :
  (0 <= t0)%Z → mreach cfg t0 s2 → in_events (ms_inst s2) = in_events (ms_inst s1) ++ es →
  tickets_for k (applied (ms_inst s1)) ≠ [] → tickets_for k (hev_updates es) = [].
Proof.
  intros H0 Hr Hev Hne. destruct (tickets_for k (applied (ms_inst s1))) as [|v l] eqn:E1; [done|].
  destruct (mem_cache _ _ _ H0 Hr) as (Hm & _). unfold applied in *. rewrite Hev, hev_updates_app in Hm.
  assert (Hel : v ∈ tickets_for k (hev_updates (in_events (ms_inst s1)))) by (rewrite E1; left).
  assert (Hu : tickets_for k (map sn_upd (ms_hist s2)) = [v]).
  { eapply mem_tickets_unique; [done|done|]. rewrite Hm, !elem_of_app. left. left. by apply tickets_for_elem. }
  rewrite Hm, !tickets_for_app, E1 in Hu. simpl in Hu. injection Hu as Hu.
  apply app_eq_nil in Hu as [Hu _]. by apply app_eq_nil in Hu as [_ Hu].
Qed.

Lemma mem_reaches cfg t0 s1 s2 s3 i ci v r j cj ts p got n :
  (0 <= t0)%Z → SaneTTL (cfg_ticket_ttl cfg) →
  mreach cfg t0 s1 → rtc (mstep cfg) s1 s2 → rtc (mstep cfg) s2 s3 → ValidCreates cfg (ms_inst s3) →
  in_calls (ms_inst s1) !! i = Some ci → Creates ci v → r ∈ cl_got ci →
  length (in_calls (ms_inst s1)) <= j → in_calls (ms_inst s2) !! j = Some cj → returned cj →
  Update CmdActivate (r_result r) ""%string ∈ cl_ups cj →
  on_the_way (ms_inst s2) = [] →
  (∀ w, Update CmdDeactivate (r_result r) w ∉ applied (ms_inst s3)) →
  (∀ x, x ∈ hev_visits (in_events (ms_inst s3)) →
        ¬ OlderThan (cfg_ticket_ttl cfg) x.2 (r_result r) ∧ ¬ ExpiredAt x.2 (stored_ticket (r_result r) v)) →
  SnapshotBetween cfg (ms_inst s2) (ms_inst s3) ts → CountFits p ts → FunctionGets p ts got →
  Eligible p n (stored_ticket (r_result r) v) →
  stored_ticket (r_result r) v ∈ PoolTickets got n.
Proof.
  intros H0 Httl Hr1 Hr12 Hr23 Hvc Hi Hc Hrin Hj Hcj Hret Hu Hway Hnd Hvis Hs Hf Hg Hel.
  assert (Hr2 : mreach cfg t0 s2) by (by eapply rtc_transitive).
  assert (Hr3 : mreach cfg t0 s3) by (by eapply rtc_transitive).
  destruct (functions_get p ts got) as (_ & _ & Hp); try done; [by eapply (mem_no_filter_panic cfg t0 s2 s3)|].
  rewrite Hp. apply elem_of_list_filter. split; [done|].
  destruct Hs as (es & sn & Hev & Hok & ->).
  unfold applied in Hnd. rewrite Hev in Hnd, Hvis. rewrite hev_updates_app in Hnd. rewrite hev_visits_app in Hvis.
  destruct (mem_end_to_end cfg t0 s1 s2 i ci v r j cj) as [Ha Ht]; try done.
  { intros w Hw. apply (Hnd w). apply elem_of_app. by left. }
  { intros x Hx. apply Hvis. apply elem_of_app. by left. }
  unfold active_tickets. apply elem_of_list_fmap. exists (r_result r, stored_ticket (r_result r) v). split; [done|].
  apply stably_active_taken; [done|]. intros m _. apply stays_active; try done.
  - apply Ha.
  - eapply (mem_no_second cfg t0 s2 s3); try done.
    destruct (mem_cache _ _ _ H0 Hr2) as (_ & Hca & _). rewrite Hca in Ht.
    destruct (run_sound cfg (in_events (ms_inst s2))) as (Hx & _). apply Hx in Ht as (v' & Hv' & _).
    unfold applied. intros E. by rewrite E in Hv'.
  - intros w Hw. apply (Hnd w). apply elem_of_app. by right.
  - intros x Hx. apply Hvis. apply elem_of_app. by right.
Qed.

Lemma mem_not_offered cfg t0 s1 s2 us ts k :
  (0 <= t0)%Z → mreach cfg t0 s1 → rtc (mstep cfg) s1 s2 →
  tickets_for k (applied (ms_inst s1)) ≠ [] →
  last (state_cmds_for k (applied (ms_inst s1))) ≠ Some true →
  applied (ms_inst s2) = applied (ms_inst s1) ++ us → (∀ w, Update CmdActivate k w ∉ us) →
  SnapshotBetween cfg (ms_inst s1) (ms_inst s2) ts →
  ∀ t, t ∈ ts → tk_id t ≠ k.
Proof.
  intros H0 Hr Hr12 Hst Hl Hap Hus (es & sn & Hev & Hok & ->).
  assert (Hr2 : mreach cfg t0 s2) by (by eapply rtc_transitive).
  assert (hev_updates es = us) as <-.
  { unfold applied in Hap. rewrite Hev, hev_updates_app in Hap. by apply app_inv_head in Hap. }
  destruct (mem_cache _ _ _ H0 Hr) as (_ & Hca & _). rewrite Hca in *.
  apply not_offered; try done. by eapply (mem_no_second cfg t0 s1 s2).
Qed.

(** A ticket that was stored before the snapshot began has been activated. *)
Lemma mem_only_activated cfg t0 s1 s2 ts t :
  (0 <= t0)%Z → mreach cfg t0 s1 → rtc (mstep cfg) s1 s2 →
  SnapshotBetween cfg (ms_inst s1) (ms_inst s2) ts → t ∈ ts →
  tickets_for (tk_id t) (applied (ms_inst s1)) ≠ [] →
  ∃ j cj, in_calls (ms_inst s2) !! j = Some cj ∧ Activates cfg cj (tk_id t).
Proof.
  intros H0 Hr Hr12 Hs Ht Hst. assert (Hs' := Hs). destruct Hs' as (es & sn & Hev & Hok & _).
  assert (Hr2 : mreach cfg t0 s2) by (by eapply rtc_transitive).
  assert (Hact : ∀ w, Update CmdActivate (tk_id t) w ∈ applied (ms_inst s2) →
            ∃ j cj, in_calls (ms_inst s2) !! j = Some cj ∧ Activates cfg cj (tk_id t)).
  { intros w Hin. destruct (applied_in_hist _ _ _ _ H0 Hr2 Hin) as (e & He & Eu).
    destruct (hist_request _ _ _ _ H0 Hr2 He) as (cl & Hcl & Hu & Hiss & _).
    destruct (mreach_inv _ _ _ H0 Hr2) as [_ _ Ho _ _ _]. apply Forall_app in Ho as [Ho _].
    rewrite Forall_forall in Ho. destruct (Ho e He) as [_ Ho2]. rewrite Eu in Ho2. unfold AsStored in Ho2.
    destruct (rq_update (sn_req e)) as [cm key w'] eqn:Eq. destruct cm; simpl in Ho2; try done. injection Ho2 as <- <-.
    destruct (issues_activate _ _ _ _ _ Hiss Hu) as (-> & _ & ids & Hids & Hsd).
    exists (rq_chan (sn_req e)), cl. split; [done|]. by exists ids. }
  assert (Hsp : applied (ms_inst s2) = applied (ms_inst s1) ++ hev_updates es).
  { unfold applied. by rewrite Hev, hev_updates_app. }
  destruct (decide (last (state_cmds_for (tk_id t) (applied (ms_inst s1))) = Some true)) as [Hl|Hl].
  - destruct (last_state_split _ _ Hl) as (us1 & w & us2 & E & _). apply (Hact w). rewrite Hsp, E.
    rewrite !elem_of_app. left. right. left.
  - destruct (decide (Exists (λ u, u_cmd u = CmdActivate ∧ u_key u = tk_id t) (hev_updates es))) as [Hx|Hx].
    + apply Exists_exists in Hx as ([cm key w] & Hu & Hc & Hk). simpl in *. subst. apply (Hact w).
      rewrite Hsp, elem_of_app. by right.
    + exfalso. eapply (mem_not_offered cfg t0 s1 s2 (hev_updates es) ts (tk_id t)); try done.
      intros w Hw. apply Hx. apply Exists_exists. eexists. split; [exact Hw|]. done.
Qed.
