(** The last state change wins: one instance with the in-memory store. *)
From Coq Require Import Ascii String ZArith NArith Lia.
From stdpp Require Import prelude strings gmap relations.
From Verif.Model Require Import GoStrings Types Filter Wire Proto Cache Replica Handlers MemRepl Queues Snapshot Chunk System.
From Verif.Spec Require Import HandlerSpec CacheSpec ChunkSpec SystemSpec EndToEndSpec StateSpec.
From Verif.Proofs Require Import CacheLemmas HistoryLemmas SnapshotLemmas MemSystemLemmas MemSystemMore MemSystemOrder
  EndToEndLemmas EndToEndMem AssignMem StateLemmas.
Local Open Scope nat_scope.

Lemma state_cmd_not_ticket b : StateCmd b ≠ CmdTicket.
Proof. by destruct b. Qed.

(** Calls that have returned change nothing any more. *)
Lemma mem_silent_state cfg t0 s1 s2 l k b :
  (0 <= t0)%Z → mreach cfg t0 s1 → rtc (mstep cfg) s1 s2 → ms_hist s2 = ms_hist s1 ++ l →
  (∀ i ci, in_calls (ms_inst s2) !! i = Some ci → SetsState ci k b →
     ∃ c1, in_calls (ms_inst s1) !! i = Some c1 ∧ returned c1) →
  ∀ w, Update (StateCmd b) k w ∉ map sn_upd l.
Proof.
  intros H0 Hr1 Hr12 El Hoth w (e & Ee & He)%elem_of_list_fmap.
  assert (Hr2 : mreach cfg t0 s2) by (by eapply rtc_transitive).
  assert (He2 : e ∈ ms_hist s2) by (rewrite El; apply elem_of_app; by right).
  destruct (hist_request _ _ _ _ H0 Hr2 He2) as (cl & Hcl & Hu & _).
  destruct (mreach_inv _ _ _ H0 Hr2) as [_ _ Ho _ _ _]. apply Forall_app in Ho as [Ho _].
  rewrite Forall_forall in Ho. destruct (Ho e He2) as [_ Hw]. rewrite <-Ee in Hw.
  assert (Eu : rq_update (sn_req e) = Update (StateCmd b) k w).
  { unfold AsStored in Hw. destruct (u_cmd (rq_update (sn_req e))) eqn:Ec; try done. injection Hw as Hw _ _. by destruct b. }
  rewrite Eu in Hu. destruct (Hoth _ _ Hcl) as (c1 & Hc1 & Hret1); [by exists w|].
  by eapply (mem_returned_silent cfg t0 s1 s2 l).
Qed.

(** The ticket that a CreateTicket call has been told about has been written. *)
Lemma mem_created_hist cfg t0 s i ci v r :
  (0 <= t0)%Z → mreach cfg t0 s → in_calls (ms_inst s) !! i = Some ci → Creates ci v → r ∈ cl_got ci →
  Update CmdTicket (r_result r) v ∈ map sn_upd (ms_hist s).
Proof.
  intros H0 Hr Hi Hc [n Hn]%elem_of_list_lookup.
  destruct (mem_answers _ _ _ _ _ _ _ H0 Hr Hi Hn) as (_ & u & Hu & Hs).
  unfold Creates in Hc. rewrite Hc in Hu. apply list_lookup_singleton_Some in Hu as [_ <-].
  apply elem_of_list_fmap. eexists. split; [|exact Hs]. done.
Qed.

(** The update of a call that began after [s1] was written after [s1]. *)
Lemma mem_written_later cfg t0 s1 s2 l j cj u :
  (0 <= t0)%Z → mreach cfg t0 s1 → rtc (mstep cfg) s1 s2 → ms_hist s2 = ms_hist s1 ++ l →
  length (in_calls (ms_inst s1)) <= j → in_calls (ms_inst s2) !! j = Some cj → returned cj →
  u ∈ cl_ups cj → u_cmd u ≠ CmdTicket → u ∈ map sn_upd l.
Proof.
  intros H0 Hr1 Hr12 El Hj Hcj Hret Hu Hnt.
  assert (Hr2 : mreach cfg t0 s2) by (by eapply rtc_transitive).
  apply elem_of_list_lookup in Hu as [n Hn]. destruct Hret as [_ Hlen].
  destruct (lookup_lt_is_Some_2 (cl_got cj) n) as [r' Hr']; [rewrite Hlen; by eapply lookup_lt_Some|].
  destruct (mem_answers _ _ _ _ _ _ _ H0 Hr2 Hcj Hr') as (_ & u' & Hu & Hs). rewrite Hn in Hu. injection Hu as <-.
  rewrite El in Hs. apply elem_of_app in Hs as [Hs|Hs].
  - exfalso. destruct (hist_request _ _ _ _ H0 Hr1 Hs) as (cl & Hcl & _). apply lookup_lt_Some in Hcl. simpl in Hcl. lia.
  - apply elem_of_list_fmap. eexists. split; [|exact Hs]. simpl. unfold AsStored. by destruct (u_cmd u).
Qed.

(** The ticket [k] and its last state change have been applied in [s2]. *)
Lemma mem_state_applied cfg t0 s1 s2 i ci v r j cj b :
  (0 <= t0)%Z → mreach cfg t0 s1 → rtc (mstep cfg) s1 s2 →
  in_calls (ms_inst s1) !! i = Some ci → Creates ci v → r ∈ cl_got ci →
  length (in_calls (ms_inst s1)) <= j → in_calls (ms_inst s2) !! j = Some cj → SetsState cj (r_result r) b → returned cj →
  (∀ i' c', in_calls (ms_inst s2) !! i' = Some c' → SetsState c' (r_result r) (negb b) →
     ∃ c1, in_calls (ms_inst s1) !! i' = Some c1 ∧ returned c1) →
  on_the_way (ms_inst s2) = [] →
  tickets_for (r_result r) (applied (ms_inst s2)) = [v] ∧
  last (state_cmds_for (r_result r) (applied (ms_inst s2))) = Some b.
Proof.
  intros H0 Hr1 Hr12 Hi Hc Hin Hj Hcj [w Hset] Hret Hoth Hway.
  assert (Hr2 : mreach cfg t0 s2) by (by eapply rtc_transitive).
  destruct (mrtc_grows _ _ _ Hr12) as [[l El] _].
  destruct (mem_cache _ _ _ H0 Hr2) as (Hm & _). rewrite Hway, app_nil_r in Hm. rewrite <-Hm.
  pose proof (mem_created_hist _ _ _ _ _ _ _ H0 Hr1 Hi Hc Hin) as Hh.
  assert (Hu : tickets_for (r_result r) (map sn_upd (ms_hist s2)) = [v]).
  { apply (mem_tickets_unique cfg t0); [done|done|]. rewrite El, map_app. apply elem_of_app. by left. }
  split; [done|]. rewrite El, map_app in *. apply last_state_later.
  - rewrite tickets_for_app in Hu. eapply second_none; [exact Hu|]. rewrite (mem_tickets_unique cfg t0 s1 (r_result r) v H0 Hr1 Hh). left.
  - exists w. eapply (mem_written_later cfg t0 s1 s2 l); try done. apply state_cmd_not_ticket.
  - by eapply (mem_silent_state cfg t0 s1 s2 l (r_result r) (negb b)).
Qed.

Lemma mem_last_state cfg t0 s1 s2 i ci v r j cj b :
  (0 <= t0)%Z → mreach cfg t0 s1 → rtc (mstep cfg) s1 s2 →
  in_calls (ms_inst s1) !! i = Some ci → Creates ci v → r ∈ cl_got ci →
  length (in_calls (ms_inst s1)) <= j → in_calls (ms_inst s2) !! j = Some cj → SetsState cj (r_result r) b → returned cj →
  (∀ i' c', in_calls (ms_inst s2) !! i' = Some c' → SetsState c' (r_result r) (negb b) →
     ∃ c1, in_calls (ms_inst s1) !! i' = Some c1 ∧ returned c1) →
  on_the_way (ms_inst s2) = [] →
  (∀ x, x ∈ hev_visits (in_events (ms_inst s2)) →
        ¬ OlderThan (cfg_ticket_ttl cfg) x.2 (r_result r) ∧ ¬ ExpiredAt x.2 (stored_ticket (r_result r) v)) →
  c_tickets (in_cache (ms_inst s2)) !! r_result r = Some (stored_ticket (r_result r) v) ∧
  (r_result r ∈ c_inactive (in_cache (ms_inst s2)) ↔ b = false).
Proof.
  intros H0 Hr1 Hr12 Hi Hc Hin Hj Hcj Hset Hret Hoth Hway Hvis.
  assert (Hr2 : mreach cfg t0 s2) by (by eapply rtc_transitive).
  destruct (mem_state_applied cfg t0 s1 s2 i ci v r j cj b) as [Ht Hl]; try done.
  destruct (mem_cache _ _ _ H0 Hr2) as (_ & Hca & _). rewrite Hca. by apply state_at_the_end.
Qed.

(** The opposite calls of a later state are those of the earlier one. *)
Lemma mem_opposite_earlier cfg s1 s2 s3 k b :
  rtc (mstep cfg) s2 s3 →
  (∀ i ci, in_calls (ms_inst s3) !! i = Some ci → SetsState ci k b →
     ∃ c1, in_calls (ms_inst s1) !! i = Some c1 ∧ returned c1) →
  ∀ i ci, in_calls (ms_inst s2) !! i = Some ci → SetsState ci k b →
     ∃ c1, in_calls (ms_inst s1) !! i = Some c1 ∧ returned c1.
Proof.
  intros Hr23 Hoth i ci Hi [w Hw]. destruct (mrtc_ups _ _ _ _ _ Hr23 Hi) as (c3 & H3 & E3).
  apply (Hoth i c3 H3). exists w. by rewrite E3.
Qed.

(** What is applied after a moment when nothing was on its way was written after it. *)
Lemma mem_applied_later cfg t0 s2 s3 l es u :
  (0 <= t0)%Z → mreach cfg t0 s2 → mreach cfg t0 s3 → ms_hist s3 = ms_hist s2 ++ l → on_the_way (ms_inst s2) = [] →
  in_events (ms_inst s3) = in_events (ms_inst s2) ++ es → u ∈ hev_updates es → u ∈ map sn_upd l.
Proof.
  intros H0 Hr2 Hr3 El Hway Hev Hu.
  destruct (mem_cache _ _ _ H0 Hr2) as (Hm2 & _). rewrite Hway, app_nil_r in Hm2.
  destruct (mem_cache _ _ _ H0 Hr3) as (Hm3 & _). unfold applied in *. rewrite Hev, hev_updates_app, El, map_app, Hm2, <-app_assoc in Hm3.
  apply app_inv_head in Hm3. rewrite Hm3. apply elem_of_app. by left.
Qed.

Lemma mem_silent_es cfg t0 s1 s2 s3 es k b :
  (0 <= t0)%Z → mreach cfg t0 s1 → rtc (mstep cfg) s1 s2 → rtc (mstep cfg) s2 s3 → on_the_way (ms_inst s2) = [] →
  in_events (ms_inst s3) = in_events (ms_inst s2) ++ es →
  (∀ i ci, in_calls (ms_inst s3) !! i = Some ci → SetsState ci k b →
     ∃ c1, in_calls (ms_inst s1) !! i = Some c1 ∧ returned c1) →
  ∀ w, Update (StateCmd b) k w ∉ hev_updates es.
Proof.
  intros H0 Hr1 Hr12 Hr23 Hway Hev Hoth w Hw.
  assert (Hr2 : mreach cfg t0 s2) by (by eapply rtc_transitive).
  assert (Hr3 : mreach cfg t0 s3) by (by eapply rtc_transitive).
  assert (Hr13 : rtc (mstep cfg) s1 s3) by (by eapply rtc_transitive).
  destruct (mrtc_grows _ _ _ Hr12) as [[l12 E12] _]. destruct (mrtc_grows _ _ _ Hr23) as [[l23 E23] _].
  assert (E13 : ms_hist s3 = ms_hist s1 ++ (l12 ++ l23)) by (by rewrite E23, E12, app_assoc).
  apply (mem_silent_state _ _ _ _ _ _ _ H0 Hr1 Hr13 E13 Hoth w). rewrite map_app. apply elem_of_app. right.
  by eapply (mem_applied_later cfg t0 s2 s3 l23 es).
Qed.

(** A ticket whose last state change was a deactivation is not offered. *)
Lemma mem_deactivated_not_offered cfg t0 s1 s2 s3 i ci v r j cj ts :
  (0 <= t0)%Z → mreach cfg t0 s1 → rtc (mstep cfg) s1 s2 → rtc (mstep cfg) s2 s3 →
  in_calls (ms_inst s1) !! i = Some ci → Creates ci v → r ∈ cl_got ci →
  length (in_calls (ms_inst s1)) <= j → in_calls (ms_inst s2) !! j = Some cj → SetsState cj (r_result r) false → returned cj →
  (∀ i' c', in_calls (ms_inst s3) !! i' = Some c' → SetsState c' (r_result r) true →
     ∃ c1, in_calls (ms_inst s1) !! i' = Some c1 ∧ returned c1) →
  on_the_way (ms_inst s2) = [] →
  SnapshotBetween cfg (ms_inst s2) (ms_inst s3) ts →
  ∀ t, t ∈ ts → tk_id t ≠ r_result r.
Proof.
  intros H0 Hr1 Hr12 Hr23 Hi Hc Hin Hj Hcj Hset Hret Hoth Hway Hs.
  assert (Hr2 : mreach cfg t0 s2) by (by eapply rtc_transitive).
  destruct (mem_state_applied cfg t0 s1 s2 i ci v r j cj false) as [Ht Hl]; try done.
  { by eapply (mem_opposite_earlier cfg s1 s2 s3). }
  assert (Hs' := Hs). destruct Hs' as (es & sn & Hev & _).
  eapply (mem_not_offered cfg t0 s2 s3 (hev_updates es)); try done.
  - by rewrite Ht.
  - by rewrite Hl.
  - unfold applied. by rewrite Hev, hev_updates_app.
  - intros w. by eapply (mem_silent_es cfg t0 s1 s2 s3 es (r_result r) true).
Qed.

(** A ticket whose last state change was an activation reaches the functions. *)
Lemma mem_activated_in_snapshot cfg t0 s1 s2 s3 i ci v r j cj ts :
  (0 <= t0)%Z →
  mreach cfg t0 s1 → rtc (mstep cfg) s1 s2 → rtc (mstep cfg) s2 s3 →
  in_calls (ms_inst s1) !! i = Some ci → Creates ci v → r ∈ cl_got ci →
  length (in_calls (ms_inst s1)) <= j → in_calls (ms_inst s2) !! j = Some cj → SetsState cj (r_result r) true → returned cj →
  (∀ i' c', in_calls (ms_inst s3) !! i' = Some c' → SetsState c' (r_result r) false →
     ∃ c1, in_calls (ms_inst s1) !! i' = Some c1 ∧ returned c1) →
  on_the_way (ms_inst s2) = [] →
  (∀ x, x ∈ hev_visits (in_events (ms_inst s3)) →
        ¬ OlderThan (cfg_ticket_ttl cfg) x.2 (r_result r) ∧ ¬ ExpiredAt x.2 (stored_ticket (r_result r) v)) →
  SnapshotBetween cfg (ms_inst s2) (ms_inst s3) ts →
  stored_ticket (r_result r) v ∈ ts.
Proof.
  intros H0 Hr1 Hr12 Hr23 Hi Hc Hin Hj Hcj Hset Hret Hoth Hway Hvis Hs.
  assert (Hr2 : mreach cfg t0 s2) by (by eapply rtc_transitive).
  assert (Hr3 : mreach cfg t0 s3) by (by eapply rtc_transitive).
  destruct Hs as (es & sn & Hev & Hok & ->).
  assert (Hoth2 := mem_opposite_earlier cfg s1 s2 s3 (r_result r) false Hr23 Hoth).
  rewrite Hev, hev_visits_app in Hvis.
  destruct (mem_last_state cfg t0 s1 s2 i ci v r j cj true) as [Ht Hi2]; try done.
  { intros x Hx. apply Hvis. apply elem_of_app. by left. }
  destruct (mem_state_applied cfg t0 s1 s2 i ci v r j cj true) as [Hta _]; try done.
  unfold active_tickets. apply elem_of_list_fmap. exists (r_result r, stored_ticket (r_result r) v). split; [done|].
  apply stably_active_taken; [done|]. intros m _. apply stays_active; try done.
  - intros Hx. by apply Hi2 in Hx.
  - eapply (mem_no_second cfg t0 s2 s3); try done. by rewrite Hta.
  - intros w. by eapply (mem_silent_es cfg t0 s1 s2 s3 es (r_result r) false).
  - intros x Hx. apply Hvis. apply elem_of_app. by right.
Qed.

Lemma mem_activated_reaches cfg t0 s1 s2 s3 i ci v r j cj ts p got n :
  (0 <= t0)%Z → SaneTTL (cfg_ticket_ttl cfg) →
  mreach cfg t0 s1 → rtc (mstep cfg) s1 s2 → rtc (mstep cfg) s2 s3 → ValidCreates cfg (ms_inst s3) →
  in_calls (ms_inst s1) !! i = Some ci → Creates ci v → r ∈ cl_got ci →
  length (in_calls (ms_inst s1)) <= j → in_calls (ms_inst s2) !! j = Some cj → SetsState cj (r_result r) true → returned cj →
  (∀ i' c', in_calls (ms_inst s3) !! i' = Some c' → SetsState c' (r_result r) false →
     ∃ c1, in_calls (ms_inst s1) !! i' = Some c1 ∧ returned c1) →
  on_the_way (ms_inst s2) = [] →
  (∀ x, x ∈ hev_visits (in_events (ms_inst s3)) →
        ¬ OlderThan (cfg_ticket_ttl cfg) x.2 (r_result r) ∧ ¬ ExpiredAt x.2 (stored_ticket (r_result r) v)) →
  SnapshotBetween cfg (ms_inst s2) (ms_inst s3) ts → CountFits p ts → FunctionGets p ts got →
  Eligible p n (stored_ticket (r_result r) v) →
  stored_ticket (r_result r) v ∈ PoolTickets got n.
Proof.
  intros H0 Httl Hr1 Hr12 Hr23 Hvc Hi Hc Hin Hj Hcj Hset Hret Hoth Hway Hvis Hs Hf Hg Hel.
  assert (Hr2 : mreach cfg t0 s2) by (by eapply rtc_transitive).
  assert (Hr3 : mreach cfg t0 s3) by (by eapply rtc_transitive).
  destruct (functions_get p ts got) as (_ & _ & Hp); try done; [by eapply (mem_no_filter_panic cfg t0 s2 s3)|].
  rewrite Hp. apply elem_of_list_filter. split; [done|].
  by eapply (mem_activated_in_snapshot cfg t0 s1 s2 s3 i ci v r j cj ts).
Qed.
