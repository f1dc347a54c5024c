(** End to end with several instances on one Redis stream. *)
From Coq Require Import Ascii String ZArith NArith.
From stdpp Require Import prelude strings gmap relations.
From Verif.Model Require Import GoStrings Types Filter Wire Proto Cache Replica Handlers MemRepl Queues RedisRepl Snapshot Chunk System RedisSystem.
From Verif.Spec Require Import HandlerSpec CacheSpec RedisSpec ChunkSpec SystemSpec EndToEndSpec.
From Verif.Proofs Require Import CacheLemmas HistoryLemmas SnapshotLemmas HandlerLemmas HandlerMore ChunkMore
  RedisReadLemmas MemSystemLemmas MemSystemMore RedisSystemLemmas RedisSystemRead RedisSystemMore RedisSystemOrder EndToEndLemmas EndToEndMem.

Lemma red_snapshot_source cfg s1 s2 n x1 x2 ts t :
  yreach cfg s1 → rtc (ystep cfg) s1 s2 → ry_insts s1 !! n = Some x1 → ry_insts s2 !! n = Some x2 →
  SnapshotBetween cfg (rx_inst x1) (rx_inst x2) ts → t ∈ ts →
  ∃ m y i cl v, ry_insts s2 !! m = Some y ∧ in_calls (rx_inst y) !! i = Some cl ∧ Creates cl v ∧
    t = stored_ticket (tk_id t) v ∧ tickets_for (tk_id t) (history s2) = [v] ∧
    (AllSendable y → ∀ r, r ∈ cl_got cl → Good r → r_result r = tk_id t).
Proof.
  intros Hr Hr12 Hx1 Hx2 (es & sn & Hev & Hok & ->) Ht.
  assert (Hr2 : yreach cfg s2) by (by eapply rtc_transitive).
  destruct (red_cache _ _ _ _ Hr Hx1) as [Hca _]. rewrite Hca in Ht.
  apply snapshot_source in Ht as (v & Hv & Et). rewrite <-Hev in Hv.
  assert (Hh : Update CmdTicket (tk_id t) v ∈ history s2).
  { eapply sublist_elem; [by eapply red_subsequence|]. apply elem_of_app. by left. }
  destruct (history_ticket _ _ _ _ Hr2 Hh) as (e & y & cl & He & Ek & Ev & Hy & Hcl & Hc).
  exists (le_src e), y, (rq_chan (le_req e)), cl, v. split_and!; try done.
  - rewrite Ek. by eapply history_ticket_unique.
  - intros Ha r Hin Hg. rewrite Ek. eapply red_told; try eassumption. by rewrite Hc.
Qed.

Lemma red_snapshot_nodup cfg s1 n x1 (x2 : inst redis_call) ts :
  yreach cfg s1 → ry_insts s1 !! n = Some x1 → SnapshotBetween cfg (rx_inst x1) x2 ts → NoDup (map tk_id ts).
Proof.
  intros Hr Hx (es & sn & Hev & Hok & ->). destruct (red_cache _ _ _ _ Hr Hx) as [Hca _]. rewrite Hca in *.
  by apply snapshot_ids_distinct.
Qed.

Lemma red_no_filter_panic cfg s1 s2 n x1 x2 ts p :
  SaneTTL (cfg_ticket_ttl cfg) →
  yreach cfg s1 → rtc (ystep cfg) s1 s2 → ry_insts s1 !! n = Some x1 → ry_insts s2 !! n = Some x2 →
  AllValidCreates cfg s2 → SnapshotBetween cfg (rx_inst x1) (rx_inst x2) ts → NoFilterPanic p ts.
Proof.
  intros Httl Hr Hr12 Hx1 Hx2 Hv Hs t m q Ht _ _.
  destruct (red_snapshot_source _ _ _ _ _ _ _ _ Hr Hr12 Hx1 Hx2 Hs Ht) as (k & y & i & cl & v & Hy & Hcl & Hc & Et & _).
  apply elem_of_list_lookup_2 in Hcl. destruct (Hv k y Hy cl v Hcl Hc) as (now & req & Hcc). rewrite Et.
  destruct (create_call_stored _ _ _ _ v (tk_id t) Httl Hcc Hc) as [_ Hnp]. apply Hnp.
Qed.

Lemma red_served cfg s1 s2 n x1 x2 p tsn :
  SaneTTL (cfg_ticket_ttl cfg) →
  yreach cfg s1 → rtc (ystep cfg) s1 s2 → ry_insts s1 !! n = Some x1 → ry_insts s2 !! n = Some x2 →
  AllValidCreates cfg s2 → SnapshotBetween cfg (rx_inst x1) (rx_inst x2) tsn.*1 →
  NamesFit p tsn → CountFits p tsn.*1 →
  ∃ cs, build_requests p tsn = Done cs ∧
    ∀ rcs, rcs.*1 = cs → pool_orders_fit rcs → ∃ got, get_chunked_request rcs = Done (Received got).
Proof.
  intros Httl Hr Hr12 Hx1 Hx2 Hv Hs Hnf Hf. apply functions_served; try done.
  by eapply (red_no_filter_panic cfg s1 s2 n x1 x2).
Qed.

Lemma red_functions_get cfg s1 s2 n x1 x2 ts p got q :
  SaneTTL (cfg_ticket_ttl cfg) →
  yreach cfg s1 → rtc (ystep cfg) s1 s2 → ry_insts s1 !! n = Some x1 → ry_insts s2 !! n = Some x2 →
  AllValidCreates cfg s2 → SnapshotBetween cfg (rx_inst x1) (rx_inst x2) ts →
  CountFits p ts → FunctionGets p ts got →
  NoDup (map tk_id (PoolTickets got q)) ∧
  ∀ t, t ∈ PoolTickets got q →
    Eligible p q t ∧
    ∃ m y i cl now req, ry_insts s2 !! m = Some y ∧ in_calls (rx_inst y) !! i = Some cl ∧ CreateCall cfg cl now req ∧
      StoredAs (cfg_ticket_ttl cfg) now (tk_id t) req t ∧
      (AllSendable y → ∀ r, r ∈ cl_got cl → Good r → r_result r = tk_id t).
Proof.
  intros Httl Hr Hr12 Hx1 Hx2 Hv Hs Hf Hg.
  destruct (functions_get p ts got) as (_ & _ & Hp); try done; [by eapply (red_no_filter_panic cfg s1 s2 n x1 x2)|].
  rewrite Hp. split.
  - eapply (sublist_nodup _ (map tk_id ts)); [|by eapply red_snapshot_nodup].
    apply (fmap_sublist tk_id). apply filter_sub.
  - intros t [He Ht]%elem_of_list_filter. split; [done|].
    destruct (red_snapshot_source _ _ _ _ _ _ _ _ Hr Hr12 Hx1 Hx2 Hs Ht) as (m & y & i & cl & v & Hy & Hcl & Hc & Et & _ & Hres).
    assert (Hin := elem_of_list_lookup_2 _ _ _ Hcl). destruct (Hv m y Hy cl v Hin Hc) as (now & req & Hcc).
    destruct (create_call_stored _ _ _ _ v (tk_id t) Httl Hcc Hc) as [Hst _]. rewrite <-Et in Hst.
    by exists m, y, i, cl, now, req.
Qed.

Lemma omap_sublist {A B} (f : A → option B) (l k : list A) : l `sublist_of` k → omap f l `sublist_of` omap f k.
Proof.
  induction 1 as [|x l k H IH|x l k H IH]; [constructor| |]; cbn [omap list_omap]; destruct (f x); try done; by constructor.
Qed.

Lemma red_no_second cfg s2 n x2 (x1 : inst redis_call) es k :
  yreach cfg s2 → ry_insts s2 !! n = Some x2 → in_events (rx_inst x2) = in_events x1 ++ es →
  tickets_for k (applied x1) ≠ [] → tickets_for k (hev_updates es) = [].
Proof.
  intros Hr Hx Hev Hne. destruct (tickets_for k (applied x1)) as [|v l] eqn:E1; [done|].
  pose proof (red_subsequence _ _ _ _ Hr Hx) as Hsub.
  apply (omap_sublist (λ u, match u_cmd u with CmdTicket => if decide (u_key u = k) then Some (u_value u) else None | _ => None end)) in Hsub.
  change (tickets_for k (applied (rx_inst x2) ++ on_the_way (rx_inst x2)) `sublist_of` tickets_for k (history s2)) in Hsub.
  assert (Hel : v ∈ tickets_for k (applied x1)) by (rewrite E1; left).
  assert (Hh : Update CmdTicket k v ∈ history s2).
  { eapply sublist_elem; [by eapply red_subsequence|]. apply elem_of_app. left. unfold applied. rewrite Hev, hev_updates_app.
    apply elem_of_app. left. by apply tickets_for_elem. }
  destruct (history_ticket _ _ _ _ Hr Hh) as (e & y & cl & He & Ek & Ev & _).
  rewrite Ek in Hsub at 2. rewrite (history_ticket_unique _ _ _ _ Hr He Ev) in Hsub.
  apply sublist_length in Hsub. unfold applied in *. rewrite Hev, hev_updates_app, !tickets_for_app, E1, !app_length in Hsub.
  simpl in Hsub. apply nil_length_inv. lia.
Qed.

Lemma red_reaches cfg s1 s2 s3 n x i ci v r m y j cj k r' w z2 z3 ts p got q :
  SaneTTL (cfg_ticket_ttl cfg) →
  yreach cfg s1 → rtc (ystep cfg) s1 s2 → rtc (ystep cfg) s2 s3 → AllValidCreates cfg s3 →
  ry_insts s1 !! n = Some x → AllSendable x → in_calls (rx_inst x) !! i = Some ci → Creates ci v → r ∈ cl_got ci → Good r →
  NotYet s1 m j →
  ry_insts s2 !! m = Some y → AllSendable y → in_calls (rx_inst y) !! j = Some cj →
  cl_ups cj !! k = Some (Update CmdActivate (r_result r) ""%string) → cl_got cj !! k = Some r' → Good r' →
  ry_insts s2 !! w = Some z2 → CaughtUp s2 z2 → ry_insts s3 !! w = Some z3 →
  (∀ v', Update CmdDeactivate (r_result r) v' ∉ history s3) →
  (∀ e, e ∈ hev_visits (in_events (rx_inst z3)) →
        ¬ OlderThan (cfg_ticket_ttl cfg) e.2 (r_result r) ∧ ¬ ExpiredAt e.2 (stored_ticket (r_result r) v)) →
  SnapshotBetween cfg (rx_inst z2) (rx_inst z3) ts → CountFits p ts → FunctionGets p ts got →
  Eligible p q (stored_ticket (r_result r) v) →
  stored_ticket (r_result r) v ∈ PoolTickets got q.
Proof.
  intros Httl Hr1 Hr12 Hr23 Hvc Hx Ha Hi Hc Hrin Hg Hny Hy Ha' Hcj Hu Hp Hg' Hz2 Hcu Hz3 Hnd Hvis Hs Hf Hgets Hel.
  assert (Hr2 : yreach cfg s2) by (by eapply rtc_transitive).
  assert (Hr3 : yreach cfg s3) by (by eapply rtc_transitive).
  destruct (functions_get p ts got) as (_ & _ & Hpt); try done; [by eapply (red_no_filter_panic cfg s2 s3 w z2 z3)|].
  rewrite Hpt. apply elem_of_list_filter. split; [done|].
  destruct Hs as (es & sn & Hev & Hok & ->).
  assert (Hnd2 : ∀ v', Update CmdDeactivate (r_result r) v' ∉ history s2).
  { intros v' Hv'. apply (Hnd v'). destruct (yrtc_grows _ _ _ Hr23) as [l El]. unfold history. rewrite El, map_app.
    apply elem_of_app. by left. }
  assert (Hnda : ∀ v', Update CmdDeactivate (r_result r) v' ∉ applied (rx_inst z3)).
  { intros v' Hv'. apply (Hnd v'). eapply sublist_elem; [by eapply red_subsequence|]. apply elem_of_app. by left. }
  unfold applied in Hnda. rewrite Hev in Hnda, Hvis. rewrite hev_updates_app in Hnda. rewrite hev_visits_app in Hvis.
  destruct (red_end_to_end cfg s1 s2 n x i ci v r m y j cj k r' w z2) as [Hac Ht]; try done.
  { intros e He. apply Hvis. apply elem_of_app. by left. }
  unfold active_tickets. apply elem_of_list_fmap. exists (r_result r, stored_ticket (r_result r) v). split; [done|].
  apply stably_active_taken; [done|]. intros l _. apply stays_active; try done.
  - apply Hac.
  - eapply (red_no_second cfg s3 w z3 (rx_inst z2)); try done.
    destruct (red_cache _ _ _ _ Hr2 Hz2) as [Hca _]. rewrite Hca in Ht.
    destruct (run_sound cfg (in_events (rx_inst z2))) as (Hxx & _). apply Hxx in Ht as (v' & Hv' & _).
    unfold applied. intros E. by rewrite E in Hv'.
  - intros w' Hw. apply (Hnda w'). apply elem_of_app. by right.
  - intros e He. apply Hvis. apply elem_of_app. by right.
Qed.

Lemma red_not_offered cfg s1 s2 n x1 x2 us ts k :
  yreach cfg s1 → rtc (ystep cfg) s1 s2 → ry_insts s1 !! n = Some x1 → ry_insts s2 !! n = Some x2 →
  tickets_for k (applied (rx_inst x1)) ≠ [] →
  last (state_cmds_for k (applied (rx_inst x1))) ≠ Some true →
  applied (rx_inst x2) = applied (rx_inst x1) ++ us → (∀ w, Update CmdActivate k w ∉ us) →
  SnapshotBetween cfg (rx_inst x1) (rx_inst x2) ts →
  ∀ t, t ∈ ts → tk_id t ≠ k.
Proof.
  intros Hr Hr12 Hx1 Hx2 Hst Hl Hap Hus (es & sn & Hev & Hok & ->).
  assert (Hr2 : yreach cfg s2) by (by eapply rtc_transitive).
  assert (hev_updates es = us) as <-.
  { unfold applied in Hap. rewrite Hev, hev_updates_app in Hap. by apply app_inv_head in Hap. }
  destruct (red_cache _ _ _ _ Hr Hx1) as [Hca _]. rewrite Hca in *.
  apply not_offered; try done. by eapply (red_no_second cfg s2 n x2 (rx_inst x1)).
Qed.

Lemma red_only_activated cfg s1 s2 n x1 x2 ts t :
  yreach cfg s1 → rtc (ystep cfg) s1 s2 → ry_insts s1 !! n = Some x1 → ry_insts s2 !! n = Some x2 →
  SnapshotBetween cfg (rx_inst x1) (rx_inst x2) ts → t ∈ ts →
  tickets_for (tk_id t) (applied (rx_inst x1)) ≠ [] →
  ∃ m y j cj, ry_insts s2 !! m = Some y ∧ in_calls (rx_inst y) !! j = Some cj ∧ Activates cfg cj (tk_id t).
Proof.
  intros Hr Hr12 Hx1 Hx2 Hs Ht Hst. assert (Hs' := Hs). destruct Hs' as (es & sn & Hev & Hok & _).
  assert (Hr2 : yreach cfg s2) by (by eapply rtc_transitive).
  assert (Hact : ∀ w, Update CmdActivate (tk_id t) w ∈ applied (rx_inst x2) →
            ∃ m y j cj, ry_insts s2 !! m = Some y ∧ in_calls (rx_inst y) !! j = Some cj ∧ Activates cfg cj (tk_id t)).
  { intros w Hin. assert (Hh : Update CmdActivate (tk_id t) w ∈ history s2).
    { eapply sublist_elem; [by eapply red_subsequence|]. apply elem_of_app. by left. }
    apply elem_of_list_fmap in Hh as (e & Eu & He). symmetry in Eu.
    destruct (log_call _ _ _ Hr2 He) as (y & cl & Hy & Hcl & Hu & Hiss).
    unfold as_read in Eu. destruct (rq_update (le_req e)) as [cm key w'] eqn:Eq. cbn [u_cmd u_key u_value] in Eu.
    destruct cm; try done. injection Eu as -> <-.
    destruct (issues_activate _ _ _ _ _ Hiss Hu) as (-> & _ & ids & Hids & Hsd).
    exists (le_src e), y, (rq_chan (le_req e)), cl. split_and!; try done. by exists ids. }
  assert (Hsp : applied (rx_inst x2) = applied (rx_inst x1) ++ hev_updates es).
  { unfold applied. by rewrite Hev, hev_updates_app. }
  destruct (decide (last (state_cmds_for (tk_id t) (applied (rx_inst x1))) = Some true)) as [Hl|Hl].
  - destruct (last_state_split _ _ Hl) as (us1 & w & us2 & E & _). apply (Hact w). rewrite Hsp, E.
    rewrite !elem_of_app. left. right. left.
  - destruct (decide (Exists (λ u, u_cmd u = CmdActivate ∧ u_key u = tk_id t) (hev_updates es))) as [Hx|Hx].
    + apply Exists_exists in Hx as ([cm key w] & Hu & Hc & Hk). simpl in *. subst. apply (Hact w).
      rewrite Hsp, elem_of_app. by right.
    + exfalso. eapply (red_not_offered cfg s1 s2 n x1 x2 (hev_updates es) ts (tk_id t)); try done.
      intros w Hw. apply Hx. apply Exists_exists. eexists. split; [exact Hw|]. done.
Qed.
