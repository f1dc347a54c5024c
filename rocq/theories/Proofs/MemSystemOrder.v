(** Order of calls, and progress, for the instance with the in-memory store. *)
From Coq Require Import Ascii String ZArith NArith Lia ZifyBool ZifyN Sorting.
From stdpp Require Import prelude strings gmap relations.
From Verif.Model Require Import GoStrings Types Proto Cache Replica Handlers MemRepl Queues System.
From Verif.Spec Require Import IdSpec CacheSpec SystemSpec.
From Verif.Proofs Require Import StringLemmas MemLemmas HistoryLemmas HistoryMore InstLemmas MemSystemLemmas MemSystemMore.
Local Open Scope nat_scope.

Lemma mstep_grows cfg s s' : mstep cfg s s' →
  (∃ l, ms_hist s' = ms_hist s ++ l) ∧ (∃ es, in_events (ms_inst s') = in_events (ms_inst s) ++ es).
Proof.
  destruct 1 as [x x' m t h Hl| | | |]; simpl; try (by split; exists []; rewrite app_nil_r).
  - split; [exists []; by rewrite app_nil_r|]. by eapply lstep_events.
  - split; [by eexists|]. exists []. by rewrite app_nil_r.
Qed.

Lemma mrtc_grows cfg s s' : rtc (mstep cfg) s s' →
  (∃ l, ms_hist s' = ms_hist s ++ l) ∧ (∃ es, in_events (ms_inst s') = in_events (ms_inst s) ++ es).
Proof.
  induction 1 as [s|s s1 s' Hs _ [[l IH1] [es IH2]]]; [by split; exists []; rewrite app_nil_r|].
  destruct (mstep_grows _ _ _ Hs) as [[l' E1] [es' E2]].
  split; [exists (l' ++ l)|exists (es' ++ es)]; rewrite ?IH1, ?IH2, ?E1, ?E2; by rewrite app_assoc.
Qed.

(** A call that begins after CreateTicket has returned an id has its updates
    replicated after that ticket. *)
Lemma mem_order cfg t0 s1 s2 i ci v r j cj u :
  (0 <= t0)%Z → mreach cfg t0 s1 → rtc (mstep cfg) s1 s2 →
  in_calls (ms_inst s1) !! i = Some ci → Creates ci v → r ∈ cl_got ci →
  length (in_calls (ms_inst s1)) <= j → in_calls (ms_inst s2) !! j = Some cj → returned cj → u ∈ cl_ups cj →
  u_cmd u ≠ CmdTicket →
  ∃ h1 h2 h3, map sn_upd (ms_hist s2) = h1 ++ Update CmdTicket (r_result r) v :: h2 ++ u :: h3.
Proof.
  intros H0 Hr1 Hr12 Hi Hc Hrin Hj Hcj Hret Hu Hnt.
  assert (Hr2 : mreach cfg t0 s2) by (by eapply rtc_transitive).
  destruct (mem_created _ _ _ _ _ _ _ H0 Hr1 Hi Hc Hrin) as (_ & _ & Ht).
  assert (Hin1 : Update CmdTicket (r_result r) v ∈ map sn_upd (ms_hist s1)).
  { apply tickets_for_elem. rewrite Ht. apply elem_of_list_here. }
  apply elem_of_list_split in Hin1 as (h1 & h2 & E1).
  destruct (mrtc_grows _ _ _ Hr12) as [[l El] _].
  pose proof (mem_call_done _ _ _ _ _ H0 Hr2 Hcj Hret) as Hd.
  assert (Hl2 : ∃ e, e ∈ l ∧ rq_update (sn_req e) = u).
  { destruct Hret as [_ Hlen].
    apply elem_of_list_lookup in Hu as [n Hn].
    assert (∃ r', zip (cl_ups cj) (cl_got cj) !! n = Some (u, r')) as [r' Hz].
    { destruct (lookup_lt_is_Some_2 (cl_got cj) n) as [r' Hr'].
      { rewrite Hlen. by eapply lookup_lt_Some. }
      exists r'. rewrite lookup_zip_with, Hn. simpl. by rewrite Hr'. }
    rewrite <-Hd in Hz. apply list_lookup_fmap_inv in Hz as (e & [= -> ->] & He).
    apply elem_of_list_lookup_2, elem_of_list_filter in He as [Hech He].
    exists e. split; [|done]. rewrite El in He. apply elem_of_app in He as [He|He]; [|done]. exfalso.
    destruct (hist_request _ _ _ _ H0 Hr1 He) as (cl & Hcl & _). apply lookup_lt_Some in Hcl. lia. }
  destruct Hl2 as (e & He & Eu). apply elem_of_list_split in He as (l1 & l2 & ->).
  destruct (mreach_inv _ _ _ H0 Hr2) as [_ _ Ho _ _ _]. apply Forall_app in Ho as [Ho _].
  assert (Hew : sn_upd e = u).
  { rewrite Forall_forall in Ho. destruct (Ho e) as [_ Hw].
    { rewrite El. apply elem_of_app. right. apply elem_of_app. right. apply elem_of_list_here. }
    rewrite Hw, Eu. unfold AsStored. by destruct (u_cmd u). }
  exists h1, (h2 ++ map sn_upd l1), (map sn_upd l2).
  rewrite El, map_app, E1, map_app. cbn [map]. rewrite Hew. rewrite <-!app_assoc. simpl. by rewrite <-?app_assoc.
Qed.

Lemma mem_end_to_end cfg t0 s1 s2 i ci v r j cj :
  (0 <= t0)%Z → mreach cfg t0 s1 → rtc (mstep cfg) s1 s2 →
  in_calls (ms_inst s1) !! i = Some ci → Creates ci v → r ∈ cl_got ci →
  length (in_calls (ms_inst s1)) <= j → in_calls (ms_inst s2) !! j = Some cj → returned cj →
  Update CmdActivate (r_result r) ""%string ∈ cl_ups cj →
  on_the_way (ms_inst s2) = [] →
  (∀ w, Update CmdDeactivate (r_result r) w ∉ applied (ms_inst s2)) →
  (∀ x, x ∈ hev_visits (in_events (ms_inst s2)) →
        ¬ OlderThan (cfg_ticket_ttl cfg) x.2 (r_result r) ∧ ¬ ExpiredAt x.2 (stored_ticket (r_result r) v)) →
  Active (in_cache (ms_inst s2)) (r_result r) ∧
  c_tickets (in_cache (ms_inst s2)) !! r_result r = Some (stored_ticket (r_result r) v).
Proof.
  intros H0 Hr1 Hr12 Hi Hc Hrin Hj Hcj Hret Hu Hway Hnd Hvis.
  destruct (mem_order _ _ _ _ _ _ _ _ _ _ _ H0 Hr1 Hr12 Hi Hc Hrin Hj Hcj Hret Hu) as (h1 & h2 & h3 & E); [done|].
  assert (Hr2 : mreach cfg t0 s2) by (by eapply rtc_transitive).
  destruct (mem_cache _ _ _ H0 Hr2) as (Hm & Hca & _). rewrite Hway, app_nil_r, E in Hm.
  set (k := r_result r) in *.
  assert (Hut : tickets_for k (applied (ms_inst s2)) = [v]).
  { assert (Hnd2 := mem_ids_nodup _ _ _ H0 Hr2).
    destruct (mreach_inv _ _ _ H0 Hr2) as [_ _ Ho _ _ _]. apply Forall_app in Ho as [Ho _].
    rewrite <-Hm, <-E.
    assert (Hin : Update CmdTicket k v ∈ map sn_upd (ms_hist s2)).
    { rewrite E. apply elem_of_app. right. apply elem_of_list_here. }
    apply elem_of_list_fmap in Hin as (e & Ee & He). by eapply tickets_for_unique. }
  assert (Htk : c_tickets (in_cache (ms_inst s2)) !! k = Some (stored_ticket k v)).
  { rewrite Hca. apply run_ticket_kept; [naive_solver|naive_solver|]. fold (applied (ms_inst s2)). by rewrite Hut. }
  split; [|done]. split; [by eexists|]. rewrite Hca. intros Hin.
  destruct (run_sound cfg (in_events (ms_inst s2))) as (_ & Hs & _). apply Hs in Hin.
  fold (applied (ms_inst s2)) in Hin. rewrite <-Hm in Hin, Hut, Hnd.
  change (h1 ++ Update CmdTicket k v :: h2 ++ Update CmdActivate k "" :: h3)
    with (h1 ++ [Update CmdTicket k v] ++ h2 ++ [Update CmdActivate k ""%string] ++ h3) in *.
  rewrite !state_cmds_for_app, !tickets_for_app in *.
  assert (Hk1 : tickets_for k [Update CmdTicket k v] = [v]).
  { unfold tickets_for. simpl. by rewrite decide_True. }
  assert (Hk3 : tickets_for k h3 = []).
  { rewrite Hk1 in Hut. change (tickets_for k [Update CmdActivate k ""%string]) with (@nil string) in Hut.
    apply (f_equal length) in Hut. rewrite !app_length in Hut. simpl in Hut. apply nil_length_inv. lia. }
  assert (Hall : Forall (λ b, b = true) (state_cmds_for k h3)).
  { apply Forall_forall. intros b ([cm key w] & Hu3 & Eb)%elem_of_list_omap. simpl in Eb.
    destruct (decide (key = k)) as [->|]; [|done]. destruct cm; simpl in Eb; simplify_eq; try done; exfalso.
    - assert (w ∈ tickets_for k h3) as Hw; [|rewrite Hk3 in Hw; by apply elem_of_nil in Hw].
      unfold tickets_for. apply elem_of_list_omap. eexists. split; [exact Hu3|]. simpl. by rewrite decide_True.
    - apply (Hnd w). rewrite !elem_of_app. tauto. }
  assert (Hl3 : last ([true] ++ state_cmds_for k h3) = Some true).
  { rewrite last_app. destruct (last (state_cmds_for k h3)) as [b|] eqn:El; [|done].
    apply last_Some_elem_of in El. rewrite Forall_forall in Hall. by rewrite (Hall b El). }
  assert (Hact : state_cmds_for k [Update CmdActivate k ""%string] = [true]).
  { unfold state_cmds_for. simpl. by rewrite decide_True. }
  rewrite Hact in Hin. rewrite 3!last_app, Hl3 in Hin. done.
Qed.
