(** Assignments in a group of instances on one Redis stream. *)
From Coq Require Import Ascii String ZArith NArith Lia.
From stdpp Require Import prelude strings gmap relations.
From Verif.Model Require Import GoStrings Types Wire Proto Cache Replica Handlers MemRepl Queues RedisRepl RedisReader System RedisSystem Watch WatchSystem.
From Verif.Spec Require Import CacheSpec RedisSpec SystemSpec WatchSpec AssignSpec.
From Verif.Proofs Require Import RedisSendLemmas RedisReadLemmas HistoryLemmas InstLemmas MemSystemLemmas MemSystemMore RedisSystemLemmas
  RedisSystemRead RedisSystemMore RedisSystemOrder WatchLemmas AssignLemmas AssignMem.
Local Open Scope nat_scope.

Definition asked_at (s : rsys) (k : string) (a : assignment) : Prop :=
  ∃ n x, ry_insts s !! n = Some x ∧ asked (rx_inst x) k a.

Lemma asked_at_assigned s k a : AllValidAssigns s → asked_at s k a → AssignedAt s k a.
Proof.
  intros Hv (n & x & Hx & Ha). exists n, x. split; [done|]. apply asked_assigned; [by eapply Hv|done].
Qed.

Lemma as_read_assign i u k v : as_read i u = Update CmdAssign k v → u = Update CmdAssign k v.
Proof. unfold as_read. destruct u as [cm key w]. destruct cm; simpl; intros H; done. Qed.

Lemma red_asked cfg s n k a :
  yreach cfg s → red_assigns n s !! k = Some a → asked_at s k a.
Proof.
  intros Hr Ha. unfold red_assigns in Ha. destruct (ry_insts s !! n) as [x|] eqn:Hx; [|done].
  destruct (red_cache _ _ _ _ Hr Hx) as [Hca _]. rewrite Hca in Ha.
  destruct (run_sound cfg (in_events (rx_inst x))) as (_ & _ & Hs). apply Hs in Ha as (v & Hv & ->).
  apply last_Some_elem_of, assigns_for_elem in Hv.
  assert (Hh : Update CmdAssign k v ∈ history s).
  { eapply sublist_elem; [by eapply red_subsequence|]. apply elem_of_app. by left. }
  apply elem_of_list_fmap in Hh as (e & Ee & He). symmetry in Ee. apply as_read_assign in Ee.
  destruct (log_call _ _ _ Hr He) as (y & cl & Hy & Hcl & Hu & _). rewrite Ee in Hu.
  exists (le_src e), y. split; [done|]. by exists (rq_chan (le_req e)), cl, v.
Qed.

Lemma red_assigned cfg s n x k a :
  yreach cfg s → AllValidAssigns s → ry_insts s !! n = Some x → c_assign (in_cache (rx_inst x)) !! k = Some a →
  AssignedAt s k a.
Proof.
  intros Hr Hv Hx Ha. apply asked_at_assigned; [done|]. eapply (red_asked cfg s n); [done|]. unfold red_assigns. by rewrite Hx.
Qed.

(** Instances stay, and their calls only grow. *)
Lemma ystep_ups cfg s s' n x i cl : ystep cfg s s' → ry_insts s !! n = Some x → in_calls (rx_inst x) !! i = Some cl →
  ∃ x' cl', ry_insts s' !! n = Some x' ∧ in_calls (rx_inst x') !! i = Some cl' ∧ cl_ups cl' = cl_ups cl.
Proof.
  assert (Hset : ∀ (xs : list rinst) m y y', xs !! n = Some x → xs !! m = Some y → in_calls (rx_inst x) !! i = Some cl →
    (in_calls (rx_inst y) !! i = Some cl → ∃ cl', in_calls (rx_inst y') !! i = Some cl' ∧ cl_ups cl' = cl_ups cl) →
    ∃ x' cl', <[m := y']> xs !! n = Some x' ∧ in_calls (rx_inst x') !! i = Some cl' ∧ cl_ups cl' = cl_ups cl).
  { intros xs m y y' Hn Hm Hi Hy. destruct (decide (n = m)) as [->|Hne].
    - rewrite Hm in Hn. injection Hn as ->. destruct (Hy Hi) as (cl' & H1 & H2). exists y', cl'.
      split; [|done]. apply list_lookup_insert. by eapply lookup_lt_Some.
    - exists x, cl. by rewrite list_lookup_insert_ne. }
  destruct 1; simpl; intros Hn Hi; try (by exists x, cl).
  - exists x, cl. split; [|done]. by apply lookup_app_l_Some.
  - eapply Hset; [done|done|done|]. intros Hi'.
    match goal with H : lstep _ _ _ _ |- _ => destruct (lstep_calls_grow _ _ _ _ _ _ H Hi') as (cl' & l & H1 & H2 & _) end. by exists cl'.
  - eapply Hset; [done|done|done|]. intros Hi'. by exists cl.
  - eapply Hset; [done|done|done|]. intros Hi'. by exists cl.
  - eapply Hset; [done|done|done|]. intros Hi'. by exists cl.
  - eapply Hset; [done|done|done|]. intros Hi'. by exists cl.
  - eapply Hset; [done|done|done|]. intros Hi'. exists cl. split; [|done]. unfold poll_redis.
    by destruct (redis_get _ _ _ _) as [[|] c].
Qed.
Lemma yrtc_ups cfg s s' n x i cl : rtc (ystep cfg) s s' → ry_insts s !! n = Some x → in_calls (rx_inst x) !! i = Some cl →
  ∃ x' cl', ry_insts s' !! n = Some x' ∧ in_calls (rx_inst x') !! i = Some cl' ∧ cl_ups cl' = cl_ups cl.
Proof.
  intros H. revert x cl. induction H as [s|s s1 s' Hs _ IH]; intros x cl Hx Hi; [by exists x, cl|].
  destruct (ystep_ups _ _ _ _ _ _ _ Hs Hx Hi) as (x1 & c1 & H1 & H2 & E1).
  destruct (IH _ _ H1 H2) as (x2 & c2 & H3 & H4 & E2). exists x2, c2. by rewrite E2, E1.
Qed.

(** A call all of whose updates have been acknowledged writes nothing more. *)
Lemma acked_all h : Forall Good h.*2 → length (acked h) = length h ∧ ∀ x, x ∈ acked h → ∃ r, (x.1, r) ∈ h.
Proof.
  intros Hg. split.
  - induction h as [|[q r] h IH]; [done|]. apply Forall_cons in Hg as [Hq Hg]. unfold acked in *. cbn [omap list_omap].
    simpl in Hq. rewrite ack1_good by done. simpl. f_equal. by apply IH.
  - intros [q v] Hx. unfold acked in Hx. apply elem_of_list_omap in Hx as ([q' r] & Hin & E). unfold ack1 in E. simpl in E. exists r.
    destruct (r_err r); [done|]. case_decide; [done|]. by injection E as -> _.
Qed.

Lemma filter_all {A} (P : A → Prop) `{∀ x, Decision (P x)} (l : list A) : (∀ x, x ∈ l → P x) → filter P l = l.
Proof.
  induction l as [|x l IH]; intros Hl; [done|]. rewrite filter_cons, decide_True by (apply Hl; left). f_equal. apply IH.
  intros y Hy. apply Hl. by right.
Qed.

Lemma log_filter n i l :
  length (filter (λ x : request * string, rq_chan x.1 = i) (map log_ack (log_of n l))) =
  length (filter (λ e, le_src e = n ∧ rq_chan (le_req e) = i) l).
Proof.
  unfold log_of. induction l as [|e l IH]; [done|]. rewrite !filter_cons.
  destruct (decide (le_src e = n)) as [E|E]; cbn [map].
  - rewrite filter_cons. cbn [log_ack fst]. destruct (decide (rq_chan (le_req e) = i)) as [E2|E2].
    + rewrite decide_True by done. simpl. by f_equal.
    + rewrite decide_False by tauto. done.
  - rewrite (decide_False (P := le_src e = n ∧ rq_chan (le_req e) = i)) by tauto. done.
Qed.

Lemma red_returned_silent cfg s1 s2 l n x i ci e :
  yreach cfg s1 → rtc (ystep cfg) s1 s2 → ry_log s2 = ry_log s1 ++ l →
  ry_insts s1 !! n = Some x → AllSendable x → in_calls (rx_inst x) !! i = Some ci → AllGood ci →
  e ∈ l → le_src e = n → rq_chan (le_req e) ≠ i.
Proof.
  intros Hr1 Hr12 El Hx Ha Hi [Hret Hgood] He Hsrc Hch.
  assert (Hr2 : yreach cfg s2) by (by eapply rtc_transitive).
  destruct (yrtc_ups _ _ _ _ _ _ _ Hr12 Hx Hi) as (x2 & c2 & Hx2 & Hi2 & E2).
  pose proof (red_once _ _ _ _ _ _ Hr2 Hx2 Hi2) as Honce. apply submseteq_length in Honce.
  unfold updates_logged in Honce. rewrite map_length, El, filter_app, app_length, E2 in Honce.
  assert (Hpos : 0 < length (filter (λ e, le_src e = n ∧ rq_chan (le_req e) = i) l)).
  { assert (Hin2 : e ∈ filter (λ e, le_src e = n ∧ rq_chan (le_req e) = i) l) by (by apply elem_of_list_filter).
    destruct (filter (λ e, le_src e = n ∧ rq_chan (le_req e) = i) l); [by apply elem_of_nil in Hin2|simpl; lia]. }
  pose proof (yi_inst _ _ (yreach_inv _ _ Hr1) n x Hx) as [Hin _ _ Hac]. specialize (Hac Ha).
  pose proof (ok_calls _ _ _ _ _ Hin i ci Hi) as Hok.
  destruct Hok as [_ _ _ Hresp _]. destruct Hret as [Hsn Hg].
  assert (Hcnt := call_ok_counts _ _ _ _ _ _ _ (ok_calls _ _ _ _ _ Hin i ci Hi)).
  assert (E1 : cl_buf ci = []) by (apply nil_length_inv; lia).
  assert (E3 : results_of i (out_results no_undel (in_out (rx_inst x))) = []) by (apply nil_length_inv; lia).
  rewrite E1, E3, app_nil_r in Hresp. simpl in Hresp.
  destruct (acked_all (of_call i (rx_hist x))) as [Hlen Hall]; [by rewrite Hresp|].
  assert (Hsub : acked (of_call i (rx_hist x)) ⊆+ map log_ack (log_of n (ry_log s1))).
  { apply sublist_submseteq. etrans; [|exact Hac]. etrans; [|apply sublist_inserts_r; reflexivity].
    unfold acked, of_call. apply omap_filter_sublist. }
  apply (submseteq_filter (λ x : request * string, rq_chan x.1 = i)) in Hsub.
  rewrite filter_all in Hsub.
  - apply submseteq_length in Hsub. rewrite log_filter, Hlen in Hsub.
    apply (f_equal length) in Hresp. rewrite fmap_length in Hresp. lia.
  - intros y Hy. destruct (Hall y Hy) as [r Hin3]. by apply of_call_elem in Hin3 as [_ ?].
Qed.

(** The last assignment wins, in every instance that has caught up. *)
Lemma red_last_assignment cfg s1 s2 m y k b j cj p r w z :
  yreach cfg s1 → rtc (ystep cfg) s1 s2 → AllValidAssigns s2 →
  NotYet s1 m j →
  ry_insts s2 !! m = Some y → AllSendable y → in_calls (rx_inst y) !! j = Some cj → AssignCall cj b k →
  (∃ v, cl_ups cj !! p = Some (Update CmdAssign k v)) → cl_got cj !! p = Some r → Good r →
  (∀ n x i ci a, ry_insts s2 !! n = Some x → in_calls (rx_inst x) !! i = Some ci → AssignCall ci a k →
     a = b ∨ ∃ x1 c1, ry_insts s1 !! n = Some x1 ∧ AllSendable x1 ∧ in_calls (rx_inst x1) !! i = Some c1 ∧ AllGood c1) →
  ry_insts s2 !! w = Some z → CaughtUp s2 z →
  (∀ x, x ∈ hev_visits (in_events (rx_inst z)) → ¬ OlderThan (cfg_ticket_ttl cfg + cfg_assign_ttl cfg) x.2 k) →
  c_assign (in_cache (rx_inst z)) !! k = Some b.
Proof.
  intros Hr1 Hr12 Hv Hny Hy Ha Hj Hac [v Hp] Hr Hg Hoth Hz Hcu Hvis.
  assert (Hr2 : yreach cfg s2) by (by eapply rtc_transitive).
  destruct (yrtc_grows _ _ _ Hr12) as [l El].
  destruct (red_cache _ _ _ _ Hr2 Hz) as [Hca _]. rewrite Hca. unfold CaughtUp, applied in Hcu.
  set (f := λ e, as_read (le_id e) (rq_update (le_req e))).
  eapply (assigned_at_the_end cfg _ (map f (ry_log s1)) (map f l)); [|..|exact Hvis].
  - rewrite Hcu. unfold history. fold f. by rewrite El, map_app.
  - exists v. destruct (red_answers _ _ _ _ _ _ _ _ Hr2 Hy Ha Hj Hr Hg) as (u & e & Hu & He & Hs & Hq & _).
    rewrite Hp in Hu. injection Hu as <-. rewrite El in He. apply elem_of_app in He as [He|He].
    + exfalso. destruct (log_call _ _ _ Hr1 He) as (y1 & cl & Hy1 & Hcl & _). rewrite Hs in Hy1. rewrite Hq in Hcl. cbn in Hcl.
      apply lookup_lt_Some in Hcl. specialize (Hny y1 Hy1). lia.
    + apply elem_of_list_fmap. exists e. split; [|done]. unfold f. by rewrite Hq.
  - intros v' (e & Ee & He)%elem_of_list_fmap. symmetry in Ee. apply as_read_assign in Ee.
    assert (He2 : e ∈ ry_log s2) by (rewrite El; apply elem_of_app; by right).
    destruct (log_call _ _ _ Hr2 He2) as (x & cl & Hx & Hcl & Hu & _). rewrite Ee in Hu.
    pose proof (assign_update_call _ _ _ _ (Hv _ _ Hx) (elem_of_list_lookup_2 _ _ _ Hcl) Hu) as Hc.
    destruct (Hoth _ _ _ _ _ Hx Hcl Hc) as [->|(x1 & c1 & Hx1 & Hs1 & Hc1 & Hg1)]; [done|]. exfalso.
    by eapply (red_returned_silent cfg s1 s2 l (le_src e) x1 (rq_chan (le_req e)) c1 e).
Qed.

(** ** Watches *)
Lemma asked_at_ystep cfg s s' k a : ystep cfg s s' → asked_at s k a → asked_at s' k a.
Proof.
  intros Hs (n & x & Hx & i & cl & v & Hi & Hu & E). destruct (ystep_ups _ _ _ _ _ _ _ Hs Hx Hi) as (x' & cl' & H0 & H1 & H2).
  exists n, x'. split; [done|]. exists i, cl', v. by rewrite H2.
Qed.

Lemma red_watch_genuine cfg n ttl ids s0 now asg g s w :
  yreach cfg s0 → asg ⊆ red_assigns n s0 →
  rtc (along (ystep cfg) (red_assigns n) ttl ids) (s0, w_init ids now asg g) (s, w) →
  AllValidAssigns s →
  ∀ k a, (k, a) ∈ w_sent w → k ∈ ids ∧ AssignedAt s k a.
Proof.
  intros Hr Hsub Hal Hv k a Hin. split.
  - apply along_later in Hal. destruct (watch_answers ttl ids now asg g w Hal) as (_ & Hsub2 & _).
    eapply elem_of_submseteq; [|exact Hsub2]. by apply (elem_of_list_fmap_1 fst) in Hin.
  - apply asked_at_assigned; [done|].
    destruct (justified_later (ystep cfg) (red_assigns n) ttl ids asked_at (yreach cfg)
      (s0, w_init ids now asg g) (s, w)) as (_ & _ & H); [| | | | |done|by apply H].
    + intros s1 s2 H1 H2. by eapply rtc_r.
    + intros s1 H1 k1 a1. by apply (red_asked cfg).
    + intros s1 s2 _ H2 k1 a1. by eapply asked_at_ystep.
    + done.
    + apply (justified_init (red_assigns n) ids asked_at); [|done]. intros k1 a1. by apply (red_asked cfg).
Qed.
