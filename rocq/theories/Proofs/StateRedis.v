(** The last state change wins: a group of instances on one Redis stream. *)
From Coq Require Import Ascii String ZArith NArith Lia.
From stdpp Require Import prelude strings gmap relations.
From Verif.Model Require Import GoStrings Types Filter Wire Proto Cache Replica Handlers MemRepl Queues RedisRepl RedisReader Snapshot Chunk System RedisSystem.
From Verif.Spec Require Import HandlerSpec CacheSpec ChunkSpec RedisSpec SystemSpec EndToEndSpec AssignSpec StateSpec.
From Verif.Proofs Require Import CacheLemmas HistoryLemmas SnapshotLemmas MemSystemLemmas MemSystemMore RedisReadLemmas RedisSystemLemmas
  RedisSystemRead RedisSystemMore RedisSystemOrder EndToEndLemmas EndToEndMem EndToEndRedis AssignRedis StateLemmas.
Local Open Scope nat_scope.

Lemma as_read_state i u b k w : as_read i u = Update (StateCmd b) k w → ∃ w', u = Update (StateCmd b) k w'.
Proof.
  unfold as_read. destruct u as [cm key w']. destruct cm, b; simpl; intros H; try done; injection H as -> _; by eexists.
Qed.

Lemma red_silent_state cfg s1 s2 l k b :
  yreach cfg s1 → rtc (ystep cfg) s1 s2 → ry_log s2 = ry_log s1 ++ l →
  (∀ n x i ci, ry_insts s2 !! n = Some x → in_calls (rx_inst x) !! i = Some ci → SetsState ci k b →
     ∃ x1 c1, ry_insts s1 !! n = Some x1 ∧ AllSendable x1 ∧ in_calls (rx_inst x1) !! i = Some c1 ∧ AllGood c1) →
  ∀ w, Update (StateCmd b) k w ∉ map (λ e, as_read (le_id e) (rq_update (le_req e))) l.
Proof.
  intros Hr1 Hr12 El Hoth w (e & Ee & He)%elem_of_list_fmap. symmetry in Ee. apply as_read_state in Ee as [w' Ee].
  assert (Hr2 : yreach cfg s2) by (by eapply rtc_transitive).
  assert (He2 : e ∈ ry_log s2) by (rewrite El; apply elem_of_app; by right).
  destruct (log_call _ _ _ Hr2 He2) as (x & cl & Hx & Hcl & Hu & _). rewrite Ee in Hu.
  destruct (Hoth _ _ _ _ Hx Hcl) as (x1 & c1 & Hx1 & Hs1 & Hc1 & Hg1); [by exists w'|].
  by eapply (red_returned_silent cfg s1 s2 l (le_src e) x1 (rq_chan (le_req e)) c1 e).
Qed.

Lemma red_state_applied cfg s1 s2 n x i ci v r m y j cj p b u r' w z :
  yreach cfg s1 → rtc (ystep cfg) s1 s2 →
  ry_insts s1 !! n = Some x → AllSendable x → in_calls (rx_inst x) !! i = Some ci → Creates ci v → r ∈ cl_got ci → Good r →
  NotYet s1 m j →
  ry_insts s2 !! m = Some y → AllSendable y → in_calls (rx_inst y) !! j = Some cj →
  cl_ups cj !! p = Some (Update (StateCmd b) (r_result r) u) → cl_got cj !! p = Some r' → Good r' →
  (∀ n' x' i' c', ry_insts s2 !! n' = Some x' → in_calls (rx_inst x') !! i' = Some c' → SetsState c' (r_result r) (negb b) →
     ∃ x1 c1, ry_insts s1 !! n' = Some x1 ∧ AllSendable x1 ∧ in_calls (rx_inst x1) !! i' = Some c1 ∧ AllGood c1) →
  ry_insts s2 !! w = Some z → CaughtUp s2 z →
  tickets_for (r_result r) (applied (rx_inst z)) = [v] ∧
  last (state_cmds_for (r_result r) (applied (rx_inst z))) = Some b.
Proof.
  intros Hr1 Hr12 Hx Ha Hi Hc Hin Hg Hny Hy Ha' Hj Hu Hp Hg' Hoth Hz Hcu.
  assert (Hr2 : yreach cfg s2) by (by eapply rtc_transitive).
  destruct (yrtc_grows _ _ _ Hr12) as [l El]. unfold CaughtUp in Hcu. rewrite Hcu.
  pose proof (red_created _ _ _ _ _ _ _ _ Hr1 Hx Ha Hi Hc Hin Hg) as Ht1.
  assert (Hh : history s2 = history s1 ++ map (λ e, as_read (le_id e) (rq_update (le_req e))) l).
  { unfold history. by rewrite El, map_app. }
  assert (Ht2 : tickets_for (r_result r) (history s2) = [v]).
  { assert (Hel : Update CmdTicket (r_result r) v ∈ history s2).
    { rewrite Hh. apply elem_of_app. left. apply tickets_for_elem. rewrite Ht1. left. }
    destruct (history_ticket _ _ _ _ Hr2 Hel) as (e & y' & cl & He & Ek & Ev & _). rewrite Ek. by eapply history_ticket_unique. }
  split; [done|]. rewrite Hh in *. apply last_state_later.
  - rewrite tickets_for_app in Ht2. eapply second_none; [exact Ht2|]. rewrite Ht1. left.
  - destruct (red_answers _ _ _ _ _ _ _ _ Hr2 Hy Ha' Hj Hp Hg') as (u' & e & Hu' & He & Hs & Hq & _).
    rewrite Hu in Hu'. injection Hu' as <-. rewrite El in He. apply elem_of_app in He as [He|He].
    + exfalso. destruct (log_call _ _ _ Hr1 He) as (y1 & cl & Hy1 & Hcl & _). rewrite Hs in Hy1. rewrite Hq in Hcl. cbn in Hcl.
      apply lookup_lt_Some in Hcl. specialize (Hny y1 Hy1). lia.
    + exists ""%string. apply elem_of_list_fmap. exists e. split; [|done]. rewrite Hq. by destruct b.
  - by eapply (red_silent_state cfg s1 s2 l (r_result r) (negb b)).
Qed.

Lemma red_last_state cfg s1 s2 n x i ci v r m y j cj p b u r' w z :
  yreach cfg s1 → rtc (ystep cfg) s1 s2 →
  ry_insts s1 !! n = Some x → AllSendable x → in_calls (rx_inst x) !! i = Some ci → Creates ci v → r ∈ cl_got ci → Good r →
  NotYet s1 m j →
  ry_insts s2 !! m = Some y → AllSendable y → in_calls (rx_inst y) !! j = Some cj →
  cl_ups cj !! p = Some (Update (StateCmd b) (r_result r) u) → cl_got cj !! p = Some r' → Good r' →
  (∀ n' x' i' c', ry_insts s2 !! n' = Some x' → in_calls (rx_inst x') !! i' = Some c' → SetsState c' (r_result r) (negb b) →
     ∃ x1 c1, ry_insts s1 !! n' = Some x1 ∧ AllSendable x1 ∧ in_calls (rx_inst x1) !! i' = Some c1 ∧ AllGood c1) →
  ry_insts s2 !! w = Some z → CaughtUp s2 z →
  (∀ e, e ∈ hev_visits (in_events (rx_inst z)) →
        ¬ OlderThan (cfg_ticket_ttl cfg) e.2 (r_result r) ∧ ¬ ExpiredAt e.2 (stored_ticket (r_result r) v)) →
  c_tickets (in_cache (rx_inst z)) !! r_result r = Some (stored_ticket (r_result r) v) ∧
  (r_result r ∈ c_inactive (in_cache (rx_inst z)) ↔ b = false).
Proof.
  intros Hr1 Hr12 Hx Ha Hi Hc Hin Hg Hny Hy Ha' Hj Hu Hp Hg' Hoth Hz Hcu Hvis.
  assert (Hr2 : yreach cfg s2) by (by eapply rtc_transitive).
  destruct (red_state_applied cfg s1 s2 n x i ci v r m y j cj p b u r' w z) as [Ht Hl]; try done.
  destruct (red_cache _ _ _ _ Hr2 Hz) as [Hca _]. rewrite Hca. by apply state_at_the_end.
Qed.

Lemma red_opposite_earlier cfg s1 s2 s3 k b :
  rtc (ystep cfg) s2 s3 →
  (∀ n x i ci, ry_insts s3 !! n = Some x → in_calls (rx_inst x) !! i = Some ci → SetsState ci k b →
     ∃ x1 c1, ry_insts s1 !! n = Some x1 ∧ AllSendable x1 ∧ in_calls (rx_inst x1) !! i = Some c1 ∧ AllGood c1) →
  ∀ n x i ci, ry_insts s2 !! n = Some x → in_calls (rx_inst x) !! i = Some ci → SetsState ci k b →
     ∃ x1 c1, ry_insts s1 !! n = Some x1 ∧ AllSendable x1 ∧ in_calls (rx_inst x1) !! i = Some c1 ∧ AllGood c1.
Proof.
  intros Hr23 Hoth n x i ci Hx Hi [w Hw]. destruct (yrtc_ups _ _ _ _ _ _ _ Hr23 Hx Hi) as (x3 & c3 & H3 & Hc3 & E3).
  apply (Hoth n x3 i c3 H3 Hc3). exists w. by rewrite E3.
Qed.

(** What an instance applies after it had caught up was written after that. *)
Lemma red_applied_later cfg s2 s3 l w z2 z3 es u :
  yreach cfg s3 → ry_log s3 = ry_log s2 ++ l → CaughtUp s2 z2 → ry_insts s3 !! w = Some z3 →
  in_events (rx_inst z3) = in_events (rx_inst z2) ++ es → u ∈ hev_updates es →
  u ∈ map (λ e, as_read (le_id e) (rq_update (le_req e))) l.
Proof.
  intros Hr3 El Hcu Hz3 Hev Hu. pose proof (red_subsequence _ _ _ _ Hr3 Hz3) as Hsub.
  apply sublist_submseteq in Hsub. unfold CaughtUp, applied in *. rewrite Hev, hev_updates_app, Hcu in Hsub.
  assert (Hh : history s3 = history s2 ++ map (λ e, as_read (le_id e) (rq_update (le_req e))) l).
  { unfold history. by rewrite El, map_app. }
  rewrite Hh, <-app_assoc in Hsub. apply submseteq_app_inv_l in Hsub.
  eapply elem_of_submseteq; [|exact Hsub]. apply elem_of_app. by left.
Qed.

Lemma red_silent_es cfg s1 s2 s3 w z2 z3 es k b :
  yreach cfg s1 → rtc (ystep cfg) s1 s2 → rtc (ystep cfg) s2 s3 → CaughtUp s2 z2 → ry_insts s3 !! w = Some z3 →
  in_events (rx_inst z3) = in_events (rx_inst z2) ++ es →
  (∀ n x i ci, ry_insts s3 !! n = Some x → in_calls (rx_inst x) !! i = Some ci → SetsState ci k b →
     ∃ x1 c1, ry_insts s1 !! n = Some x1 ∧ AllSendable x1 ∧ in_calls (rx_inst x1) !! i = Some c1 ∧ AllGood c1) →
  ∀ u, Update (StateCmd b) k u ∉ hev_updates es.
Proof.
  intros Hr1 Hr12 Hr23 Hcu Hz3 Hev Hoth u Hu.
  assert (Hr13 : rtc (ystep cfg) s1 s3) by (by eapply rtc_transitive).
  assert (Hr3 : yreach cfg s3) by (by eapply rtc_transitive).
  destruct (yrtc_grows _ _ _ Hr12) as [l12 E12]. destruct (yrtc_grows _ _ _ Hr23) as [l23 E23].
  assert (E13 : ry_log s3 = ry_log s1 ++ (l12 ++ l23)) by (by rewrite E23, E12, app_assoc).
  apply (red_silent_state _ _ _ _ _ _ Hr1 Hr13 E13 Hoth u). rewrite map_app. apply elem_of_app. right.
  by eapply (red_applied_later cfg s2 s3 l23 w z2 z3 es).
Qed.

Lemma red_deactivated_not_offered cfg s1 s2 s3 n x i ci v r m y j cj p u r' w z2 z3 ts :
  yreach cfg s1 → rtc (ystep cfg) s1 s2 → rtc (ystep cfg) s2 s3 →
  ry_insts s1 !! n = Some x → AllSendable x → in_calls (rx_inst x) !! i = Some ci → Creates ci v → r ∈ cl_got ci → Good r →
  NotYet s1 m j →
  ry_insts s2 !! m = Some y → AllSendable y → in_calls (rx_inst y) !! j = Some cj →
  cl_ups cj !! p = Some (Update CmdDeactivate (r_result r) u) → cl_got cj !! p = Some r' → Good r' →
  (∀ n' x' i' c', ry_insts s3 !! n' = Some x' → in_calls (rx_inst x') !! i' = Some c' → SetsState c' (r_result r) true →
     ∃ x1 c1, ry_insts s1 !! n' = Some x1 ∧ AllSendable x1 ∧ in_calls (rx_inst x1) !! i' = Some c1 ∧ AllGood c1) →
  ry_insts s2 !! w = Some z2 → CaughtUp s2 z2 → ry_insts s3 !! w = Some z3 →
  SnapshotBetween cfg (rx_inst z2) (rx_inst z3) ts →
  ∀ t, t ∈ ts → tk_id t ≠ r_result r.
Proof.
  intros Hr1 Hr12 Hr23 Hx Ha Hi Hc Hin Hg Hny Hy Ha' Hj Hu Hp Hg' Hoth Hz2 Hcu Hz3 Hs.
  assert (Hr2 : yreach cfg s2) by (by eapply rtc_transitive).
  destruct (red_state_applied cfg s1 s2 n x i ci v r m y j cj p false u r' w z2) as [Ht Hl]; try done.
  { by eapply (red_opposite_earlier cfg s1 s2 s3). }
  assert (Hs' := Hs). destruct Hs' as (es & sn & Hev & _).
  eapply (red_not_offered cfg s2 s3 w z2 z3 (hev_updates es)); try done.
  - by rewrite Ht.
  - by rewrite Hl.
  - unfold applied. by rewrite Hev, hev_updates_app.
  - intros u'. by eapply (red_silent_es cfg s1 s2 s3 w z2 z3 es (r_result r) true).
Qed.

Lemma red_activated_in_snapshot cfg s1 s2 s3 n x i ci v r m y j cj k u r' w z2 z3 ts :
  yreach cfg s1 → rtc (ystep cfg) s1 s2 → rtc (ystep cfg) s2 s3 →
  ry_insts s1 !! n = Some x → AllSendable x → in_calls (rx_inst x) !! i = Some ci → Creates ci v → r ∈ cl_got ci → Good r →
  NotYet s1 m j →
  ry_insts s2 !! m = Some y → AllSendable y → in_calls (rx_inst y) !! j = Some cj →
  cl_ups cj !! k = Some (Update CmdActivate (r_result r) u) → cl_got cj !! k = Some r' → Good r' →
  (∀ n' x' i' c', ry_insts s3 !! n' = Some x' → in_calls (rx_inst x') !! i' = Some c' → SetsState c' (r_result r) false →
     ∃ x1 c1, ry_insts s1 !! n' = Some x1 ∧ AllSendable x1 ∧ in_calls (rx_inst x1) !! i' = Some c1 ∧ AllGood c1) →
  ry_insts s2 !! w = Some z2 → CaughtUp s2 z2 → ry_insts s3 !! w = Some z3 →
  (∀ e, e ∈ hev_visits (in_events (rx_inst z3)) →
        ¬ OlderThan (cfg_ticket_ttl cfg) e.2 (r_result r) ∧ ¬ ExpiredAt e.2 (stored_ticket (r_result r) v)) →
  SnapshotBetween cfg (rx_inst z2) (rx_inst z3) ts →
  stored_ticket (r_result r) v ∈ ts.
Proof.
  intros Hr1 Hr12 Hr23 Hx Ha Hi Hc Hin Hg Hny Hy Ha' Hj Hu Hp Hg' Hoth Hz2 Hcu Hz3 Hvis Hs.
  assert (Hr2 : yreach cfg s2) by (by eapply rtc_transitive).
  assert (Hr3 : yreach cfg s3) by (by eapply rtc_transitive).
  destruct Hs as (es & sn & Hev & Hok & ->).
  assert (Hoth2 := red_opposite_earlier cfg s1 s2 s3 (r_result r) false Hr23 Hoth).
  rewrite Hev, hev_visits_app in Hvis.
  destruct (red_last_state cfg s1 s2 n x i ci v r m y j cj k true u r' w z2) as [Ht Hi2]; try done.
  { intros e He. apply Hvis. apply elem_of_app. by left. }
  destruct (red_state_applied cfg s1 s2 n x i ci v r m y j cj k true u r' w z2) as [Hta _]; try done.
  unfold active_tickets. apply elem_of_list_fmap. exists (r_result r, stored_ticket (r_result r) v). split; [done|].
  apply stably_active_taken; [done|]. intros l _. apply stays_active; try done.
  - intros Hxx. by apply Hi2 in Hxx.
  - eapply (red_no_second cfg s3 w z3 (rx_inst z2)); try done. by rewrite Hta.
  - intros u'. by eapply (red_silent_es cfg s1 s2 s3 w z2 z3 es (r_result r) false).
  - intros e He. apply Hvis. apply elem_of_app. by right.
Qed.

Lemma red_activated_reaches cfg s1 s2 s3 n x i ci v r m y j cj k u r' w z2 z3 ts p got q :
  SaneTTL (cfg_ticket_ttl cfg) →
  yreach cfg s1 → rtc (ystep cfg) s1 s2 → rtc (ystep cfg) s2 s3 → AllValidCreates cfg s3 →
  ry_insts s1 !! n = Some x → AllSendable x → in_calls (rx_inst x) !! i = Some ci → Creates ci v → r ∈ cl_got ci → Good r →
  NotYet s1 m j →
  ry_insts s2 !! m = Some y → AllSendable y → in_calls (rx_inst y) !! j = Some cj →
  cl_ups cj !! k = Some (Update CmdActivate (r_result r) u) → cl_got cj !! k = Some r' → Good r' →
  (∀ n' x' i' c', ry_insts s3 !! n' = Some x' → in_calls (rx_inst x') !! i' = Some c' → SetsState c' (r_result r) false →
     ∃ x1 c1, ry_insts s1 !! n' = Some x1 ∧ AllSendable x1 ∧ in_calls (rx_inst x1) !! i' = Some c1 ∧ AllGood c1) →
  ry_insts s2 !! w = Some z2 → CaughtUp s2 z2 → ry_insts s3 !! w = Some z3 →
  (∀ e, e ∈ hev_visits (in_events (rx_inst z3)) →
        ¬ OlderThan (cfg_ticket_ttl cfg) e.2 (r_result r) ∧ ¬ ExpiredAt e.2 (stored_ticket (r_result r) v)) →
  SnapshotBetween cfg (rx_inst z2) (rx_inst z3) ts → CountFits p ts → FunctionGets p ts got →
  Eligible p q (stored_ticket (r_result r) v) →
  stored_ticket (r_result r) v ∈ PoolTickets got q.
Proof.
  intros Httl Hr1 Hr12 Hr23 Hvc Hx Ha Hi Hc Hin Hg Hny Hy Ha' Hj Hu Hp Hg' Hoth Hz2 Hcu Hz3 Hvis Hs Hf Hgets Hel.
  assert (Hr2 : yreach cfg s2) by (by eapply rtc_transitive).
  assert (Hr3 : yreach cfg s3) by (by eapply rtc_transitive).
  destruct (functions_get p ts got) as (_ & _ & Hpt); try done; [by eapply (red_no_filter_panic cfg s2 s3 w z2 z3)|].
  rewrite Hpt. apply elem_of_list_filter. split; [done|].
  by eapply (red_activated_in_snapshot cfg s1 s2 s3 n x i ci v r m y j cj k u r' w z2 z3 ts).
Qed.
