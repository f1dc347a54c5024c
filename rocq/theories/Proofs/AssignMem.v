(** Assignments in the instance with the in-memory store. *)
From Coq Require Import Ascii String ZArith NArith Lia.
From stdpp Require Import prelude strings gmap relations.
From Verif.Model Require Import GoStrings Types Wire Proto Cache Replica Handlers MemRepl Queues System Watch WatchSystem.
From Verif.Spec Require Import CacheSpec SystemSpec WatchSpec AssignSpec.
From Verif.Proofs Require Import HistoryLemmas InstLemmas MemSystemLemmas MemSystemMore MemSystemOrder WatchLemmas AssignLemmas.
Local Open Scope nat_scope.

(** Some call has an update that stores [a] for [k]. *)
Definition asked {S} (x : inst S) (k : string) (a : assignment) : Prop :=
  ∃ i cl v, in_calls x !! i = Some cl ∧ Update CmdAssign k v ∈ cl_ups cl ∧ a = unmarshal_assignment v.

Lemma asked_assigned {S} (x : inst S) k a : ValidAssigns x → asked x k a → AssignedIn x k a.
Proof.
  intros Hv (i & cl & v & Hcl & Hu & ->). exists i, cl. split; [done|].
  eapply assign_update_call; [done|by eapply elem_of_list_lookup_2|done].
Qed.

Lemma mem_stored_update cfg t0 s u :
  (0 <= t0)%Z → mreach cfg t0 s → u_cmd u ≠ CmdTicket → u ∈ map sn_upd (ms_hist s) →
  ∃ e cl, e ∈ ms_hist s ∧ sn_upd e = u ∧ in_calls (ms_inst s) !! rq_chan (sn_req e) = Some cl ∧ u ∈ cl_ups cl.
Proof.
  intros H0 Hr Hnt (e & -> & He)%elem_of_list_fmap.
  destruct (hist_request _ _ _ _ H0 Hr He) as (cl & Hcl & Hu & _). exists e, cl. split_and!; try done.
  destruct (mreach_inv _ _ _ H0 Hr) as [_ _ Ho _ _ _]. apply Forall_app in Ho as [Ho _].
  rewrite Forall_forall in Ho. destruct (Ho e He) as [_ Hw]. unfold AsStored in Hw.
  destruct (u_cmd (rq_update (sn_req e))) eqn:Ec; try by rewrite Hw. by rewrite Hw in Hnt.
Qed.

Lemma mem_asked cfg t0 s k a :
  (0 <= t0)%Z → mreach cfg t0 s → c_assign (in_cache (ms_inst s)) !! k = Some a → asked (ms_inst s) k a.
Proof.
  intros H0 Hr Ha. destruct (mem_cache _ _ _ H0 Hr) as (Hm & Hca & _). rewrite Hca in Ha.
  destruct (run_sound cfg (in_events (ms_inst s))) as (_ & _ & Hs). apply Hs in Ha as (v & Hv & ->).
  apply last_Some_elem_of, assigns_for_elem in Hv.
  destruct (mem_stored_update cfg t0 s (Update CmdAssign k v)) as (e & cl & He & Eu & Hcl & Hu); [done|done|done| |].
  - rewrite Hm. apply elem_of_app. by left.
  - by exists (rq_chan (sn_req e)), cl, v.
Qed.

Lemma mem_assigned cfg t0 s k a :
  (0 <= t0)%Z → mreach cfg t0 s → ValidAssigns (ms_inst s) → c_assign (in_cache (ms_inst s)) !! k = Some a →
  AssignedIn (ms_inst s) k a.
Proof. intros H0 Hr Hv Ha. apply asked_assigned; [done|]. by eapply mem_asked. Qed.

(** The calls of an instance only grow. *)
Lemma mstep_ups cfg s s' i cl : mstep cfg s s' → in_calls (ms_inst s) !! i = Some cl →
  ∃ cl', in_calls (ms_inst s') !! i = Some cl' ∧ cl_ups cl' = cl_ups cl.
Proof.
  destruct 1 as [x x' m t h Hl| | | |]; simpl; try (by exists cl).
  intros Hi. destruct (lstep_calls_grow _ _ _ _ _ _ Hl Hi) as (cl' & l & H1 & H2 & _). by exists cl'.
Qed.
Lemma mrtc_ups cfg s s' i cl : rtc (mstep cfg) s s' → in_calls (ms_inst s) !! i = Some cl →
  ∃ cl', in_calls (ms_inst s') !! i = Some cl' ∧ cl_ups cl' = cl_ups cl.
Proof.
  intros H. revert cl. induction H as [s|s s1 s' Hs _ IH]; intros cl Hi; [by exists cl|].
  destruct (mstep_ups _ _ _ _ _ Hs Hi) as (c1 & H1 & E1). destruct (IH _ H1) as (c2 & H2 & E2).
  exists c2. by rewrite E2, E1.
Qed.

(** A call that has returned writes nothing more. *)
Lemma mem_returned_silent cfg t0 s1 s2 l i ci e :
  (0 <= t0)%Z → mreach cfg t0 s1 → rtc (mstep cfg) s1 s2 → ms_hist s2 = ms_hist s1 ++ l →
  in_calls (ms_inst s1) !! i = Some ci → returned ci → e ∈ l → rq_chan (sn_req e) ≠ i.
Proof.
  intros H0 Hr1 Hr12 El Hi Hret He Hch.
  assert (Hr2 : mreach cfg t0 s2) by (by eapply rtc_transitive).
  pose proof (mem_call_done _ _ _ _ _ H0 Hr1 Hi Hret) as Hd. apply (f_equal length) in Hd.
  rewrite map_length, zip_with_length in Hd. destruct Hret as [_ Hg].
  destruct (mrtc_ups _ _ _ _ _ Hr12 Hi) as (c2 & H2 & E2).
  destruct (mreach_inv _ _ _ H0 Hr2) as [Hin _ _ _ _ _].
  pose proof (ok_calls _ _ _ _ _ Hin i c2 H2) as [_ Hs Hq _ _].
  apply (f_equal length) in Hq. rewrite map_length, reqs_of_app, app_length, take_length, <-of_call_reqs, fmap_length in Hq.
  rewrite El, map_app, of_call_app, app_length in Hq. rewrite E2 in Hq, Hs.
  assert (Hlen : ∀ h, length (of_call i (map answered_by h)) = length (filter (λ e, rq_chan (sn_req e) = i) h)).
  { clear. induction h as [|[q r w] h IH]; [done|]. unfold of_call in *. cbn [map]. rewrite !filter_cons. cbn [answered_by sn_req fst].
    destruct (decide (rq_chan q = i)); cbn [length]; by rewrite ?IH. }
  rewrite !Hlen in Hq.
  assert (Hpos : 0 < length (filter (λ e, rq_chan (sn_req e) = i) l)).
  { assert (Hin2 : e ∈ filter (λ e, rq_chan (sn_req e) = i) l) by (by apply elem_of_list_filter).
    destruct (filter (λ e, rq_chan (sn_req e) = i) l); [by apply elem_of_nil in Hin2|simpl; lia]. }
  lia.
Qed.

(** The last assignment wins. *)
Lemma mem_last_assignment cfg t0 s1 s2 k b j cj :
  (0 <= t0)%Z → mreach cfg t0 s1 → rtc (mstep cfg) s1 s2 → ValidAssigns (ms_inst s2) →
  length (in_calls (ms_inst s1)) <= j →
  in_calls (ms_inst s2) !! j = Some cj → AssignCall cj b k → returned cj →
  (∀ i ci a, in_calls (ms_inst s2) !! i = Some ci → AssignCall ci a k →
     a = b ∨ ∃ c1, in_calls (ms_inst s1) !! i = Some c1 ∧ returned c1) →
  on_the_way (ms_inst s2) = [] →
  (∀ x, x ∈ hev_visits (in_events (ms_inst s2)) → ¬ OlderThan (cfg_ticket_ttl cfg + cfg_assign_ttl cfg) x.2 k) →
  c_assign (in_cache (ms_inst s2)) !! k = Some b.
Proof.
  intros H0 Hr1 Hr12 Hv Hj Hcj Hac Hret Hoth Hway Hvis.
  assert (Hr2 : mreach cfg t0 s2) by (by eapply rtc_transitive).
  destruct (mrtc_grows _ _ _ Hr12) as [[l El] _].
  destruct (mem_cache _ _ _ H0 Hr2) as (Hm & Hca & _). rewrite Hway, app_nil_r in Hm. rewrite Hca.
  eapply (assigned_at_the_end cfg _ (map sn_upd (ms_hist s1)) (map sn_upd l)); [|..|exact Hvis].
  - unfold applied in Hm. by rewrite <-Hm, El, map_app.
  - destruct (assign_call_update _ _ _ Hac) as (v & Hu & _). exists v.
    apply elem_of_list_lookup in Hu as [n Hn]. destruct Hret as [_ Hlen].
    destruct (lookup_lt_is_Some_2 (cl_got cj) n) as [r' Hr']; [rewrite Hlen; by eapply lookup_lt_Some|].
    destruct (mem_answers _ _ _ _ _ _ _ H0 Hr2 Hcj Hr') as (_ & u & Hu & Hs). rewrite Hn in Hu. injection Hu as <-.
    rewrite El in Hs. apply elem_of_app in Hs as [Hs|Hs].
    + exfalso. destruct (hist_request _ _ _ _ H0 Hr1 Hs) as (cl & Hcl & _). apply lookup_lt_Some in Hcl. simpl in Hcl. lia.
    + apply elem_of_list_fmap. eexists. split; [|exact Hs]. done.
  - intros v (e & Ee & He)%elem_of_list_fmap.
    assert (He2 : e ∈ ms_hist s2) by (rewrite El; apply elem_of_app; by right).
    destruct (hist_request _ _ _ _ H0 Hr2 He2) as (cl & Hcl & Hu & _).
    destruct (mreach_inv _ _ _ H0 Hr2) as [_ _ Ho _ _ _]. apply Forall_app in Ho as [Ho _].
    rewrite Forall_forall in Ho. destruct (Ho e He2) as [_ Hw]. rewrite <-Ee in Hw.
    assert (Eu : rq_update (sn_req e) = Update CmdAssign k v).
    { unfold AsStored in Hw. by destruct (u_cmd (rq_update (sn_req e))). }
    rewrite Eu in Hu.
    pose proof (assign_update_call _ _ _ _ Hv (elem_of_list_lookup_2 _ _ _ Hcl) Hu) as Hc.
    destruct (Hoth _ _ _ Hcl Hc) as [->|(c1 & Hc1 & Hret1)]; [done|]. exfalso.
    by eapply (mem_returned_silent cfg t0 s1 s2 l).
Qed.

(** ** Watches *)
Lemma asked_mstep cfg s s' k a : mstep cfg s s' → asked (ms_inst s) k a → asked (ms_inst s') k a.
Proof.
  intros Hs (i & cl & v & Hi & Hu & E). destruct (mstep_ups _ _ _ _ _ Hs Hi) as (cl' & H1 & H2).
  exists i, cl', v. by rewrite H2.
Qed.

Lemma mem_watch_genuine cfg t0 ttl ids s0 now asg g s w :
  (0 <= t0)%Z → mreach cfg t0 s0 → asg ⊆ mem_assigns s0 →
  rtc (along (mstep cfg) mem_assigns ttl ids) (s0, w_init ids now asg g) (s, w) →
  ValidAssigns (ms_inst s) →
  ∀ k a, (k, a) ∈ w_sent w → k ∈ ids ∧ AssignedIn (ms_inst s) k a.
Proof.
  intros H0 Hr Hsub Hal Hv k a Hin. split.
  - apply along_later in Hal. destruct (watch_answers ttl ids now asg g w Hal) as (_ & Hsub2 & _).
    eapply elem_of_submseteq; [|exact Hsub2]. by apply (elem_of_list_fmap_1 fst) in Hin.
  - apply asked_assigned; [done|].
    destruct (justified_later (mstep cfg) mem_assigns ttl ids (λ s, asked (ms_inst s)) (mreach cfg t0)
      (s0, w_init ids now asg g) (s, w)) as (_ & _ & H); [| | | | |done|by apply H].
    + intros s1 s2 H1 H2. by eapply rtc_r.
    + intros s1 H1 k1 a1. by apply (mem_asked cfg t0).
    + intros s1 s2 _ H2 k1 a1. by eapply asked_mstep.
    + done.
    + apply (justified_init mem_assigns ids (λ s, asked (ms_inst s))); [|done]. intros k1 a1. by apply (mem_asked cfg t0).
Qed.
