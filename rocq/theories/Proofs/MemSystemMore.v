(** Consequences of the invariants of MemSystemLemmas.v. *)
From Coq Require Import Ascii String ZArith NArith Lia ZifyBool ZifyN Sorting.
From stdpp Require Import prelude strings gmap relations.
From Verif.Model Require Import GoStrings Types Proto Cache Replica Handlers MemRepl Queues System.
From Verif.Spec Require Import IdSpec CacheSpec SystemSpec.
From Verif.Proofs Require Import StringLemmas MemLemmas HistoryLemmas HistoryMore InstLemmas MemSystemLemmas.
Local Open Scope nat_scope.

Notation hist_ids s := (map (λ e, r_result (sn_resp e)) (ms_hist s)).

(** ** What handlers can ask for *)
Lemma issues_ticket cfg us cap k v :
  issues cfg us cap → Update CmdTicket k v ∈ us →
  k = ""%string ∧ us = [Update CmdTicket ""%string v] ∧ cap = 0 ∧
  ∃ now o t, create_ticket (cfg_ticket_ttl cfg) now o (Some t) = Send us.
Proof.
  assert (Hst : ∀ c ids, c ≠ CmdTicket → Update CmdTicket k v ∉ state_updates c ids).
  { intros c ids Hc (id & E & _)%elem_of_list_fmap. injection E as E _ _. by subst c. }
  destruct 1 as [now o req us Hc|ids us Hc|ids us Hc|ids|oe r us Hc]; intros Hin.
  - destruct req as [t|]; [|done]. pose proof Hc as Hc'. unfold create_ticket in Hc.
    destruct (marshal_ticket o (prepare_ticket (cfg_ticket_ttl cfg) now t)) as [w|]; [|done].
    injection Hc as <-. apply elem_of_list_singleton in Hin as [= -> ->]. split_and!; try done. by exists now, o, t.
  - unfold activate_start, set_active_start in Hc. cbv zeta in Hc. destruct (_ =? 0)%Z; [done|].
    destruct (_ <? _)%Z; [done|]. injection Hc as <-. by apply Hst in Hin.
  - unfold deactivate_start, set_active_start in Hc. cbv zeta in Hc. destruct (_ =? 0)%Z; [done|].
    destruct (_ <? _)%Z; [done|]. injection Hc as <-. by apply Hst in Hin.
  - by apply Hst in Hin.
  - unfold create_assignments_start in Hc. destruct (ro_assignment r); [|done].
    destruct (marshal_assignment oe a) as [w|]; [|done]. injection Hc as <-.
    by apply elem_of_list_fmap in Hin as (? & [=] & _).
Qed.

Lemma issues_activate cfg us cap k v :
  issues cfg us cap → Update CmdActivate k v ∈ us →
  v = ""%string ∧ valid_ticket_id k = true ∧ ∃ ids, k ∈ ids ∧ activate_start cfg ids = Send us.
Proof.
  destruct 1 as [now o req us Hc|ids us Hc|ids us Hc|ids|oe r us Hc]; intros Hin.
  - destruct req as [t|]; [|done]. unfold create_ticket in Hc.
    destruct (marshal_ticket o (prepare_ticket (cfg_ticket_ttl cfg) now t)) as [w|]; [|done].
    injection Hc as <-. by apply elem_of_list_singleton in Hin.
  - pose proof Hc as Hc'. unfold activate_start, set_active_start in Hc. cbv zeta in Hc. destruct (_ =? 0)%Z; [done|].
    destruct (_ <? _)%Z; [done|]. injection Hc as <-.
    apply elem_of_list_fmap in Hin as (id & [= -> ->] & Hid). apply elem_of_list_filter in Hid as [Hv Hid].
    split_and!; try done. by exists ids.
  - unfold deactivate_start, set_active_start in Hc. cbv zeta in Hc. destruct (_ =? 0)%Z; [done|].
    destruct (_ <? _)%Z; [done|]. injection Hc as <-. by apply elem_of_list_fmap in Hin as (? & [=] & _).
  - by apply elem_of_list_fmap in Hin as (? & [=] & _).
  - unfold create_assignments_start in Hc. destruct (ro_assignment r); [|done].
    destruct (marshal_assignment oe a) as [w|]; [|done]. injection Hc as <-.
    by apply elem_of_list_fmap in Hin as (? & [=] & _).
Qed.

(** ** Answers *)
Lemma of_call_elem i h e : e ∈ of_call i h ↔ e ∈ h ∧ rq_chan e.1 = i.
Proof. unfold of_call. rewrite elem_of_list_filter. tauto. Qed.

Lemma call_prefix {S} (infl : S → list request) (undel : S → list (nat * response)) cfg h (o : out_pc S) i cl n u r :
  call_ok infl undel cfg h o i cl → (of_call i h) !! n = Some (Request u i, r) → cl_ups cl !! n = Some u.
Proof.
  intros [_ Hs Hq _ _] Hn. rewrite reqs_of_app, map_app, <-of_call_reqs in Hq.
  assert (H : map rq_update (of_call i h).*1 !! n = Some u).
  { rewrite !list_lookup_fmap, Hn. done. }
  assert (H2 : take (cl_sent cl) (cl_ups cl) !! n = Some u).
  { rewrite <-Hq. by apply lookup_app_l_Some. }
  apply lookup_take_Some in H2. tauto.
Qed.

Lemma of_call_nth {S} (infl : S → list request) (undel : S → list (nat * response)) cfg h (o : out_pc S) i cl n r :
  call_ok infl undel cfg h o i cl → cl_got cl !! n = Some r →
  ∃ u, cl_ups cl !! n = Some u ∧ of_call i h !! n = Some (Request u i, r).
Proof.
  intros Hok Hn. pose proof Hok as [_ Hs Hq Hr _].
  assert (H : (of_call i h).*2 !! n = Some r) by (rewrite Hr; by apply lookup_app_l_Some).
  apply list_lookup_fmap_inv in H as ([q r'] & -> & H). simpl.
  assert (He : (q, r') ∈ of_call i h) by (by eapply elem_of_list_lookup_2).
  apply of_call_elem in He as [_ He]. destruct q as [u j]. simpl in He. subst j.
  exists u. split; [|done]. by eapply call_prefix.
Qed.

Lemma answered_elem u i r h : (Request u i, r) ∈ map answered_by h → ∃ e, e ∈ h ∧ sn_req e = Request u i ∧ sn_resp e = r.
Proof. intros ([q r' w] & [= -> ->] & He)%elem_of_list_fmap. by eexists. Qed.

Lemma mem_answers cfg t0 s i cl n r :
  (0 <= t0)%Z → mreach cfg t0 s → in_calls (ms_inst s) !! i = Some cl → cl_got cl !! n = Some r →
  r_err r = None ∧ ∃ u, cl_ups cl !! n = Some u ∧ Sent (Request u i) r (AsStored u (r_result r)) ∈ ms_hist s.
Proof.
  intros H0 Hr Hi Hn. destruct (mreach_inv _ _ _ H0 Hr) as [Hin _ Ho _ _ _].
  destruct (of_call_nth _ _ _ _ _ _ _ _ _ (ok_calls _ _ _ _ _ Hin i cl Hi) Hn) as (u & Hu & Hc).
  apply elem_of_list_lookup_2 in Hc. apply of_call_elem in Hc as [Hc _].
  apply answered_elem in Hc as ([q r' w] & He & [= ->] & [= ->]).
  apply Forall_app in Ho as [Ho _]. rewrite Forall_forall in Ho. destruct (Ho _ He) as [Ho1 Ho2]. simpl in *.
  subst w. split; [done|]. by exists u.
Qed.

(** Everything a call has been answered or not, in order. *)
Lemma mem_call_done cfg t0 s i cl :
  (0 <= t0)%Z → mreach cfg t0 s → in_calls (ms_inst s) !! i = Some cl → returned cl →
  map (λ e, (rq_update (sn_req e), sn_resp e)) (filter (λ e, rq_chan (sn_req e) = i) (ms_hist s)) =
    zip (cl_ups cl) (cl_got cl).
Proof.
  intros H0 Hr Hi [Hs Hg]. destruct (mreach_inv _ _ _ H0 Hr) as [Hin _ _ _ _ _].
  pose proof (ok_calls _ _ _ _ _ Hin i cl Hi) as Hok.
  pose proof (call_ok_counts _ _ _ _ _ _ _ Hok) as Hn. destruct Hok as [_ _ Hq Hresp _].
  rewrite reqs_of_app in Hq.
  assert (reqs_of i (out_reqs mc_todo (in_out (ms_inst s))) = []) as E by (apply nil_length_inv; lia).
  rewrite E, app_nil_r, Hs, firstn_all in Hq.
  assert (cl_buf cl = []) as E2 by (apply nil_length_inv; lia).
  assert (results_of i (out_results mc_undel (in_out (ms_inst s))) = []) as E3 by (apply nil_length_inv; lia).
  rewrite E2, E3, app_nil_r in Hresp. simpl in Hresp.
  rewrite <-Hq, <-Hresp, <-of_call_reqs. clear. induction (ms_hist s) as [|[q r w] h IH]; [done|].
  unfold of_call in *. cbn [map]. rewrite !filter_cons. cbn [answered_by sn_req sn_resp fst].
  destruct (decide (rq_chan q = i)); [|exact IH]. cbn. f_equal. exact IH.
Qed.

Lemma mem_ids_nodup cfg t0 s : (0 <= t0)%Z → mreach cfg t0 s → NoDup (hist_ids s).
Proof.
  intros H0 Hr. destruct (mreach_inv _ _ _ H0 Hr) as [_ _ _ Hd _ _].
  destruct Hd as (ps & Hps & Hs & Hp & _).
  rewrite map_app in Hps.
  assert (NoDup (hist_ids s ++ map (λ e, r_result (sn_resp e)) (offered (in_out (ms_inst s))))) as Hnd.
  { apply increasing_nodup. by exists ps. }
  by apply NoDup_app in Hnd as [Hnd _].
Qed.

Lemma nodup_by {A B} (f : A → B) l x y : NoDup (map f l) → x ∈ l → y ∈ l → f x = f y → x = y.
Proof.
  induction l as [|z l IH]; simpl; intros Hnd Hx Hy E; [by apply elem_of_nil in Hx|].
  apply NoDup_cons in Hnd as [Hz Hnd]. apply elem_of_cons in Hx as [->|Hx], Hy as [->|Hy]; try done.
  - exfalso. apply Hz. rewrite E. by apply elem_of_list_fmap_1.
  - exfalso. apply Hz. rewrite <-E. by apply elem_of_list_fmap_1.
  - auto.
Qed.

Lemma mem_ids_distinct cfg t0 s i j ci cj m n r r' :
  (0 <= t0)%Z → mreach cfg t0 s → in_calls (ms_inst s) !! i = Some ci → in_calls (ms_inst s) !! j = Some cj →
  cl_got ci !! m = Some r → cl_got cj !! n = Some r' → r_result r = r_result r' → i = j ∧ m = n.
Proof.
  intros H0 Hr Hi Hj Hm Hn E. pose proof (mreach_inv _ _ _ H0 Hr) as Hinv.
  pose proof (ok_calls _ _ _ _ _ (mi_inst _ _ Hinv)) as Hok.
  destruct (of_call_nth _ _ _ _ _ _ _ _ _ (Hok i ci Hi) Hm) as (u & _ & Hu).
  destruct (of_call_nth _ _ _ _ _ _ _ _ _ (Hok j cj Hj) Hn) as (u' & _ & Hu').
  pose proof (mem_ids_nodup _ _ _ H0 Hr) as Hnd.
  assert (Hnd2 : NoDup (map (λ e : request * response, r_result e.2) (map answered_by (ms_hist s)))).
  { rewrite map_map. exact Hnd. }
  assert (Heq : (Request u i, r) = (Request u' j, r')).
  { apply (nodup_by _ _ _ _ Hnd2); [| |done].
    - apply elem_of_list_lookup_2, of_call_elem in Hu. tauto.
    - apply elem_of_list_lookup_2, of_call_elem in Hu'. tauto. }
  injection Heq as -> -> ->. split; [done|].
  assert (Hnd3 : NoDup (of_call j (map answered_by (ms_hist s)))).
  { unfold of_call. apply NoDup_filter. by apply NoDup_fmap_1 in Hnd2. }
  by eapply NoDup_lookup.
Qed.

(** ** Tickets are replicated once, under the id their creator is told *)
Lemma own_ticket_key h e k v : Forall own h → e ∈ h → sn_upd e = Update CmdTicket k v → k = r_result (sn_resp e).
Proof.
  rewrite Forall_forall. intros Ho He E. destruct (Ho e He) as [_ E2]. rewrite E in E2. unfold AsStored in E2.
  destruct (rq_update (sn_req e)) as [[] ? ?]; simpl in E2; by injection E2.
Qed.

Lemma tickets_for_unique h e k v :
  Forall own h → NoDup (map (λ e, r_result (sn_resp e)) h) → e ∈ h → sn_upd e = Update CmdTicket k v →
  tickets_for k (map sn_upd h) = [v].
Proof.
  intros Ho Hnd He E. apply elem_of_list_split in He as (h1 & h2 & ->).
  rewrite map_app, tickets_for_app. cbn [map]. rewrite E.
  change (Update CmdTicket k v :: map sn_upd h2) with ([Update CmdTicket k v] ++ map sn_upd h2).
  rewrite tickets_for_app. assert (tickets_for k [Update CmdTicket k v] = [v]) as ->.
  { unfold tickets_for. simpl. by rewrite decide_True. }
  assert (Hk : k = r_result (sn_resp e)).
  { eapply (own_ticket_key (h1 ++ e :: h2)); [done| |exact E]. apply elem_of_app. right. apply elem_of_list_here. }
  assert (Hno : ∀ h', (∀ e', e' ∈ h' → own e' ∧ r_result (sn_resp e') ≠ k) → tickets_for k (map sn_upd h') = []).
  { clear. induction h' as [|e' h' IH]; intros H; [done|]. cbn [map].
    change (sn_upd e' :: map sn_upd h') with ([sn_upd e'] ++ map sn_upd h'). rewrite tickets_for_app, IH.
    - rewrite app_nil_r. unfold tickets_for. simpl. destruct (u_cmd (sn_upd e')) eqn:Ec; try done.
      destruct (H e') as [Ho Hne]; [apply elem_of_list_here|]. rewrite decide_False; [done|]. intros Hk. apply Hne.
      symmetry. destruct (sn_upd e') as [cm kk vv] eqn:Eu. simpl in *. subst.
      eapply (own_ticket_key [e']); [by constructor|apply elem_of_list_here|exact Eu].
    - intros e'' He''. apply H. by apply elem_of_list_further. }
  rewrite map_app in Hnd. cbn [map] in Hnd. apply NoDup_app in Hnd as (_ & Hd & Hnd). apply NoDup_cons in Hnd as [Hn2 _].
  apply Forall_app in Ho as [Ho1 Ho2]. apply Forall_cons in Ho2 as [_ Ho2]. rewrite Forall_forall in Ho1, Ho2.
  rewrite !Hno; [done| |].
  - intros e' He'. split; [auto|]. intros Heq. apply Hn2. rewrite <-Hk, <-Heq.
    by apply (elem_of_list_fmap_1 (λ e, r_result (sn_resp e))).
  - intros e' He'. split; [auto|]. intros Heq. apply (Hd k).
    + rewrite <-Heq. by apply (elem_of_list_fmap_1 (λ e, r_result (sn_resp e))).
    + rewrite Hk. apply elem_of_list_here.
Qed.

Lemma mem_created cfg t0 s i cl v r :
  (0 <= t0)%Z → mreach cfg t0 s → in_calls (ms_inst s) !! i = Some cl → Creates cl v → r ∈ cl_got cl →
  cl_got cl = [r] ∧ r_err r = None ∧ tickets_for (r_result r) (map sn_upd (ms_hist s)) = [v].
Proof.
  intros H0 Hr Hi Hc Hin. apply elem_of_list_lookup in Hin as [n Hn].
  destruct (mem_answers _ _ _ _ _ _ _ H0 Hr Hi Hn) as (He & u & Hu & Hsent).
  unfold Creates in Hc. rewrite Hc in Hu. apply list_lookup_singleton_Some in Hu as [-> <-].
  split; [|split; [done|]].
  - pose proof (mreach_inv _ _ _ H0 Hr) as Hinv.
    pose proof (ok_calls _ _ _ _ _ (mi_inst _ _ Hinv) i cl Hi) as Hok.
    pose proof (call_ok_counts _ _ _ _ _ _ _ Hok) as Hcnt. pose proof (ok_sent _ _ _ _ _ _ _ Hok) as Hs.
    rewrite Hc in Hs. simpl in Hs. destruct (cl_got cl) as [|r0 [|r1 g]]; simpl in *; [done| |lia].
    by injection Hn as ->.
  - destruct (mreach_inv _ _ _ H0 Hr) as [_ _ Ho _ _ _]. apply Forall_app in Ho as [Ho _].
    eapply tickets_for_unique; [done|by eapply mem_ids_nodup|exact Hsent|done].
Qed.

(** ** The cache *)
Lemma mem_cache cfg t0 s :
  (0 <= t0)%Z → mreach cfg t0 s →
  map sn_upd (ms_hist s) = applied (ms_inst s) ++ on_the_way (ms_inst s) ∧
  in_cache (ms_inst s) = hev_run cfg empty_cache (in_events (ms_inst s)) ∧
  hev_fits cfg empty_cache (in_events (ms_inst s)).
Proof.
  intros H0 Hr. destruct (mreach_inv _ _ _ H0 Hr) as [Hin _ _ _ Hread _]. split.
  - rewrite Hread. unfold read_so_far, applied, on_the_way. done.
  - split; [by eapply ok_cache|by eapply ok_fits].
Qed.

Lemma hist_request cfg t0 s e :
  (0 <= t0)%Z → mreach cfg t0 s → e ∈ ms_hist s →
  ∃ cl, in_calls (ms_inst s) !! (rq_chan (sn_req e)) = Some cl ∧ rq_update (sn_req e) ∈ cl_ups cl ∧
        issues cfg (cl_ups cl) (cl_cap cl) ∧ (∀ r, cl_ups cl = [rq_update (sn_req e)] → r ∈ cl_got cl → r = sn_resp e).
Proof.
  intros H0 Hr He. destruct (mreach_inv _ _ _ H0 Hr) as [Hin _ _ _ _ _].
  assert (Hm : answered_by e ∈ map answered_by (ms_hist s)) by (by apply elem_of_list_fmap_1).
  assert (Hch : rq_chan (sn_req e) < length (in_calls (ms_inst s))).
  { pose proof (ok_chans _ _ _ _ _ Hin) as Hf. rewrite Forall_forall in Hf. apply Hf. apply elem_of_app. left.
    by apply (elem_of_list_fmap_1 fst) in Hm. }
  destruct (lookup_lt_is_Some_2 _ _ Hch) as [cl Hcl]. exists cl. split; [done|].
  pose proof (ok_calls _ _ _ _ _ Hin _ _ Hcl) as Hok.
  assert (Hoc : answered_by e ∈ of_call (rq_chan (sn_req e)) (map answered_by (ms_hist s))).
  { apply of_call_elem. done. }
  apply elem_of_list_lookup in Hoc as [n Hn]. destruct e as [[u j] r w]. change (answered_by (Sent (Request u j) r w)) with (Request u j, r) in Hn. cbn [sn_req sn_resp rq_chan rq_update] in *.
  pose proof (call_prefix _ _ _ _ _ _ _ _ _ _ Hok Hn) as Hu. split; [by eapply elem_of_list_lookup_2|].
  split; [by eapply ok_issues|]. intros r' Heq Hr'. rewrite Heq in Hu. apply list_lookup_singleton_Some in Hu as [-> _].
  apply elem_of_list_lookup in Hr' as [n' Hn'].
  destruct (of_call_nth _ _ _ _ _ _ _ _ _ Hok Hn') as (u' & Hu' & Hoc').
  rewrite Heq in Hu'. apply list_lookup_singleton_Some in Hu' as [-> _]. congruence.
Qed.

Lemma applied_in_hist cfg t0 s u :
  (0 <= t0)%Z → mreach cfg t0 s → u ∈ applied (ms_inst s) → ∃ e, e ∈ ms_hist s ∧ sn_upd e = u.
Proof.
  intros H0 Hr Hu. destruct (mem_cache _ _ _ H0 Hr) as [Hm _].
  assert (H : u ∈ map sn_upd (ms_hist s)) by (rewrite Hm; apply elem_of_app; by left).
  apply elem_of_list_fmap in H as (e & -> & He). by exists e.
Qed.

Lemma tickets_for_elem k v us : v ∈ tickets_for k us → Update CmdTicket k v ∈ us.
Proof.
  unfold tickets_for. intros ([cm key w] & Hu & E)%elem_of_list_omap. destruct cm; simpl in E; try done.
  destruct (decide (key = k)) as [->|]; [|done]. by injection E as ->.
Qed.

(** Every ticket in the cache was made by a CreateTicket call, which is told its
    id. *)
Lemma mem_only_created cfg t0 s k t :
  (0 <= t0)%Z → mreach cfg t0 s → c_tickets (in_cache (ms_inst s)) !! k = Some t →
  ∃ i cl v, in_calls (ms_inst s) !! i = Some cl ∧ Creates cl v ∧ t = stored_ticket k v ∧
    (∀ r, r ∈ cl_got cl → r = Response k None).
Proof.
  intros H0 Hr Ht. destruct (mem_cache _ _ _ H0 Hr) as (_ & Hca & _). rewrite Hca in Ht.
  destruct (run_sound cfg (in_events (ms_inst s))) as (Hs & _). apply Hs in Ht as (v & Hv & ->).
  assert (Hel : v ∈ tickets_for k (applied (ms_inst s))) by (by apply last_Some_elem_of).
  apply tickets_for_elem in Hel. destruct (applied_in_hist _ _ _ _ H0 Hr Hel) as (e & He & Eu).
  destruct (hist_request _ _ _ _ H0 Hr He) as (cl & Hcl & Hu & Hiss & Hres).
  destruct (mreach_inv _ _ _ H0 Hr) as [_ _ Ho _ _ _]. apply Forall_app in Ho as [Ho _].
  pose proof (own_ticket_key _ _ _ _ Ho He Eu) as Hk.
  rewrite Forall_forall in Ho. destruct (Ho e He) as [Ho1 Ho2]. rewrite Eu in Ho2. unfold AsStored in Ho2.
  destruct (rq_update (sn_req e)) as [cm key w] eqn:Eq. destruct cm; simpl in Ho2; try done. injection Ho2 as _ ->.
  destruct (issues_ticket _ _ _ _ _ Hiss Hu) as (-> & Hups & _).
  exists (rq_chan (sn_req e)), cl, w. split_and!; try done.
  intros r Hin. rewrite (Hres r) by done. rewrite Hk. destruct (sn_resp e) as [res err]. simpl in *. by subst err.
Qed.

(** ** Pools *)
Lemma last_state_split k us :
  last (state_cmds_for k us) = Some true →
  ∃ us1 w us2, us = us1 ++ Update CmdActivate k w :: us2 ∧ state_cmds_for k us2 = [].
Proof.
  induction us as [|u us IH] using rev_ind; [done|].
  rewrite state_cmds_for_app, last_app. destruct (last (state_cmds_for k [u])) as [b|] eqn:E.
  - intros [= ->]. destruct u as [cm key w]. unfold state_cmds_for in E. simpl in E.
    destruct (decide (key = k)) as [->|]; [|done]. destruct cm; simpl in E; try done. by exists us, w, [].
  - intros H. destruct (IH H) as (us1 & w & us2 & -> & E2). exists us1, w, (us2 ++ [u]).
    rewrite <-app_assoc. split; [done|]. rewrite state_cmds_for_app, E2. simpl.
    destruct (state_cmds_for k [u]) as [|b l] eqn:El; [done|]. exfalso.
    assert (b :: l ≠ []) as Hne by done. apply last_not_nil in Hne as [? Hne]. congruence.
Qed.

Lemma mem_active cfg t0 s k :
  (0 <= t0)%Z → mreach cfg t0 s → Active (in_cache (ms_inst s)) k →
  ∃ us1 us2 v, applied (ms_inst s) = us1 ++ Update CmdActivate k ""%string :: us2 ∧
    Update CmdTicket k v ∈ us1 ∧ state_cmds_for k us2 = [] ∧
    ∃ j cj, in_calls (ms_inst s) !! j = Some cj ∧ Activates cfg cj k.
Proof.
  intros H0 Hr Ha. destruct (mem_cache _ _ _ H0 Hr) as (_ & Hca & _). rewrite Hca in Ha.
  pose proof (run_active _ _ _ Ha) as Hl. destruct (last_state_split _ _ Hl) as (us1 & w & us2 & E & E2).
  fold (applied (ms_inst s)) in E.
  assert (Hin : Update CmdActivate k w ∈ applied (ms_inst s)).
  { rewrite E. apply elem_of_app. right. apply elem_of_list_here. }
  destruct (applied_in_hist _ _ _ _ H0 Hr Hin) as (e & He & Eu).
  destruct (hist_request _ _ _ _ H0 Hr He) as (cl & Hcl & Hu & Hiss & _).
  destruct (mreach_inv _ _ _ H0 Hr) as [_ _ Ho _ _ _]. apply Forall_app in Ho as [Ho _].
  rewrite Forall_forall in Ho. destruct (Ho e He) as [_ Ho2]. rewrite Eu in Ho2. unfold AsStored in Ho2.
  destruct (rq_update (sn_req e)) as [cm key w'] eqn:Eq. destruct cm; simpl in Ho2; try done. injection Ho2 as <- <-.
  destruct (issues_activate _ _ _ _ _ Hiss Hu) as (-> & _ & ids & Hids & Hst).
  destruct Ha as [[t Ht] _]. destruct (run_sound cfg (in_events (ms_inst s))) as (Hs & _).
  apply Hs in Ht as (v & Hv & ->). fold (applied (ms_inst s)) in Hv.
  exists us1, us2, v. split; [done|]. split; [|split; [done|]].
  - apply tickets_for_elem. rewrite E, tickets_for_app in Hv.
    change (Update CmdActivate k "" :: us2) with ([Update CmdActivate k ""%string] ++ us2) in Hv.
    rewrite tickets_for_app in Hv. assert (tickets_for k us2 = []) as E3.
    { destruct (tickets_for k us2) eqn:E3; [done|]. exfalso. apply (ticket_then_state k us2); [by rewrite E3|done]. }
    rewrite E3 in Hv. change (tickets_for k [Update CmdActivate k ""%string]) with (@nil string) in Hv. simpl in Hv.
    rewrite app_nil_r in Hv. by apply last_Some_elem_of.
  - exists (rq_chan (sn_req e)), cl. split; [done|]. by exists ids.
Qed.
