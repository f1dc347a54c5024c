(** What the client of a CreateTicket call is told: lemmas. *)
From Coq Require Import Ascii String ZArith NArith Lia.
From stdpp Require Import prelude strings gmap relations.
From Verif.Model Require Import GoStrings Types Proto Cache Replica Handlers MemRepl Queues RedisRepl System RedisSystem.
From Verif.Spec Require Import StringSpec IdSpec RedisSpec CacheSpec SystemSpec ReplySpec.
From Verif.Proofs Require Import StringLemmas MemLemmas RedisLemmas RedisSendLemmas RedisReadLemmas HistoryLemmas InstLemmas
  MemSystemLemmas MemSystemMore RedisSystemLemmas RedisSystemRead RedisSystemMore.
Local Open Scope nat_scope.

Lemma text_accepted p : (0 <= p.1 ∧ 0 <= p.2)%Z → WellFormedId (id_text p) ∧ valid_ticket_id (id_text p) = true.
Proof.
  intros [H1 H2]. destruct p as [t k]. assert (Hw : WellFormedId (id_text (t, k))) by (apply formatted_id_wf; simpl in *; lia).
  split; [done|]. by apply valid_ticket_id_spec, wf_has_dash.
Qed.

(** ** One instance *)
Lemma mem_told cfg t0 s i cl v :
  (0 <= t0)%Z → mreach cfg t0 s → in_calls (ms_inst s) !! i = Some cl → Creates cl v → returned cl →
  ∃ k, Told cl k ∧ WellFormedId k ∧ valid_ticket_id k = true ∧ tickets_for k (map sn_upd (ms_hist s)) = [v].
Proof.
  intros H0 Hr Hi Hc [_ Hl]. pose proof Hc as Hc'. unfold Creates in Hc'. rewrite Hc' in Hl.
  destruct (cl_got cl) as [|r [|r' g]] eqn:Eg; try done.
  assert (Hin : r ∈ cl_got cl) by (rewrite Eg; apply elem_of_list_here).
  destruct (mem_created _ _ _ _ _ _ _ H0 Hr Hi Hc Hin) as (_ & He & Ht).
  assert (Hn : cl_got cl !! 0 = Some r) by (by rewrite Eg).
  destruct (mem_answers _ _ _ _ _ _ _ H0 Hr Hi Hn) as (_ & u & Hu & Hs).
  exists (r_result r). split.
  { exists r. split; [done|]. unfold create_ticket_reply. by rewrite He. }
  destruct (mi_ids _ _ (mreach_inv _ _ _ H0 Hr)) as (ps & Ep & _ & Hp & _).
  assert (Hk : r_result r ∈ map id_text ps).
  { rewrite <-Ep. apply elem_of_list_fmap. eexists. split; [|apply elem_of_app; left; exact Hs]. done. }
  apply elem_of_list_fmap in Hk as (p & Ek & Hpin). rewrite Forall_forall in Hp.
  destruct (text_accepted p (Hp p Hpin)). rewrite Ek in *. done.
Qed.

Lemma mem_no_error cfg t0 s i cl :
  (0 <= t0)%Z → mreach cfg t0 s → in_calls (ms_inst s) !! i = Some cl → ¬ ToldError cl.
Proof.
  intros H0 Hr Hi (r & k & e & Eg & Ek). assert (Hn : cl_got cl !! 0 = Some r) by (by rewrite Eg).
  destruct (mem_answers _ _ _ _ _ _ _ H0 Hr Hi Hn) as (He & _). unfold create_ticket_reply in Ek. by rewrite He in Ek.
Qed.

(** ** Redis: refused commands *)
Definition ref1 (e : request * response) : option request :=
  match r_err e.2 with Some _ => Some e.1 | None => None end.
Definition refused (h : list (request * response)) : list request := omap ref1 h.
Definition ref_reply (e : (request * list string) * option sid) : option request :=
  match e.2 with Some _ => None | None => Some e.1.1 end.
Definition flight_refused (o : out_pc redis_call) : list request :=
  match o with OStore c => omap ref_reply (zip (cmds_of (rc_batch c)) (rc_replies c)) | _ => [] end.

Lemma refused_results b : ∀ rs, Forall (λ q, Sendable (rq_update q)) b →
  refused (zip b (redis_results b rs)) = omap ref_reply (zip (cmds_of b) rs).
Proof.
  unfold redis_results. induction b as [|q b IH]; intros rs Hb; [done|]. apply Forall_cons in Hb as [Hq Hb].
  apply encode_sendable in Hq as [f Hf]. cbn [map local_errs merge_replies cmds_of]. rewrite Hf.
  fold (local_errs (map rq_update b)). unfold refused. destruct rs as [|r rs].
  - change (omap ref1 (zip b (merge_replies (map rq_update b) (local_errs (map rq_update b)) [])) = []).
    specialize (IH [] Hb). unfold refused in IH. rewrite IH. by destruct (cmds_of b).
  - specialize (IH rs Hb). unfold refused in IH. destruct r as [i|].
    + exact IH.
    + change (q :: omap ref1 (zip b (merge_replies (map rq_update b) (local_errs (map rq_update b)) rs)) =
              q :: omap ref_reply (zip (cmds_of b) rs)).
      by rewrite <-IH.
Qed.

(** Everything accepted is in the stream, refused, still to be sent, or lost. *)
Definition ref_ok (os : list (nat * list (request * list string))) (lg : list logent) (n : nat) (x : rinst) : Prop :=
  AllSendable x →
  map le_req (log_of n lg) ++ (late_cmds n os).*1 ++ (out_cmds (in_out (rx_inst x))).*1 ++
    refused (rx_hist x) ++ flight_refused (in_out (rx_inst x)) ⊆+
  (rx_hist x).*1 ++ out_batch (in_out (rx_inst x)).

Lemma ref_ok_frame os lg os' lg' n x :
  ref_ok os lg n x → log_of n lg' = log_of n lg → late_cmds n os' = late_cmds n os → ref_ok os' lg' n x.
Proof. unfold ref_ok. intros H -> ->. done. Qed.

Lemma ref_ok_shrink os lg os' n x :
  ref_ok os lg n x → late_cmds n os' `sublist_of` late_cmds n os → ref_ok os' lg n x.
Proof.
  intros H Hs Ha. etrans; [|exact (H Ha)].
  apply submseteq_app; [done|]. apply submseteq_app; [|done]. apply sublist_submseteq. by apply fmap_sublist.
Qed.

Lemma ref_ok_local cfg os lg n x i' :
  ref_ok os lg n x → lstep cfg redis_begin (rx_inst x) i' → ref_ok os lg n (RInst i' (rx_cursor x) (rx_hist x)).
Proof.
  intros H Hl Ha. assert (Ha' : AllSendable x) by (destruct x; by eapply sendable_lstep). specialize (H Ha').
  cbn [rx_inst rx_hist]. destruct (lstep_out _ _ _ Hl) as [->|[Hno Hst]]; [done|].
  assert (Ec : out_cmds (in_out (rx_inst x)) = [] ∧ out_batch (in_out (rx_inst x)) = [] ∧ flight_refused (in_out (rx_inst x)) = []).
  { destruct (in_out (rx_inst x)); done. }
  destruct Ec as (Ec1 & Ec2 & Ec3). rewrite Ec1, Ec2, Ec3 in H. cbn [fmap list_fmap] in H. rewrite !app_nil_r in H. cbn [app] in H.
  destruct Hst as [Hst|[b ->]].
  - assert (out_cmds (in_out i') = [] ∧ out_batch (in_out i') = [] ∧ flight_refused (in_out i') = []) as (-> & -> & ->)
      by (by destruct (in_out i')).
    cbn [fmap list_fmap app]. by rewrite !app_nil_r.
  - cbn [out_cmds out_batch redis_begin rc_cmds rc_batch flight_refused rc_replies].
    assert (omap ref_reply (zip (cmds_of b) []) = []) as -> by (by destruct (cmds_of b)). rewrite app_nil_r.
    rewrite (Permutation_app_comm (cmds_of b).*1), !app_assoc. apply submseteq_app; [|apply sublist_submseteq, cmds_of_sublist].
    by rewrite <-!app_assoc.
Qed.

Lemma ref_ok_reply cfg os lg n x b q c cmds rs r lg' :
  rx_ok cfg os lg n x → ref_ok os lg n x → in_out (rx_inst x) = OStore (RedisCall b ((q, c) :: cmds) rs) →
  lg' = match r with Some i => lg ++ [LogEnt i q n] | None => lg end →
  ref_ok os lg' n (RInst (set_out (OStore (RedisCall b cmds (rs ++ [r]))) (rx_inst x)) (rx_cursor x) (rx_hist x)).
Proof.
  intros [_ H2 _ _] H Eo ->. destruct (H2 _ Eo) as [Hlen Hdrop]. cbn [rc_replies rc_cmds rc_batch] in Hlen, Hdrop.
  intros Ha. specialize (H Ha). rewrite Eo in H.
  cbn [rx_inst rx_hist set_out in_out out_cmds out_batch flight_refused rc_cmds rc_batch rc_replies] in *.
  rewrite (zip_snoc_drop _ _ _ _ _ Hdrop), omap_app'. etrans; [|exact H]. cbn [fmap list_fmap fst]. destruct r as [i|].
  - rewrite log_of_app, log_of_self, map_app. cbn [map le_req omap list_omap ref_reply snd]. rewrite app_nil_r, <-!app_assoc.
    apply submseteq_app; [done|]. simpl. by rewrite Permutation_middle.
  - change (omap ref_reply [(q, c, None)]) with [q]. apply submseteq_app; [done|]. apply submseteq_app; [done|].
    cbn [app]. rewrite !app_assoc, <-Permutation_cons_append. done.
Qed.

Lemma ref_ok_finish cfg os lg n x b cmds rs0 rs os' :
  rx_ok cfg os lg n x → ref_ok os lg n x → in_out (rx_inst x) = OStore (RedisCall b cmds rs0) →
  rs = [] ∨ (rs = rs0 ∧ cmds = []) →
  (late_cmds n os').*1 `sublist_of` (late_cmds n os).*1 ++ cmds.*1 →
  ref_ok os' lg n (finish_send b rs x).
Proof.
  intros [H1 _ _ _] H Eo Hrs Hos Ha. pose proof (redis_results_length b rs) as Hl.
  assert (Eo' : ∃ l, in_out (rx_inst (finish_send b rs x)) = ODeliver l).
  { unfold finish_send, set_out, to_deliver. cbn [rx_inst in_out]. rewrite distribute_zip by lia. by eexists. }
  destruct Eo' as [l Eo']. assert (Ha' : AllSendable x) by exact Ha. specialize (H Ha').
  pose proof (batch_sendable _ _ _ H1 Ha' Eo) as Hs. rewrite Eo in H. rewrite Eo'.
  cbn [out_cmds out_batch flight_refused rc_cmds rc_batch rc_replies] in *. cbn [fmap list_fmap app]. rewrite !app_nil_r.
  unfold finish_send. cbn [rx_hist]. rewrite fmap_app, zip_fst_all by done. etrans; [|exact H].
  apply submseteq_app; [done|]. unfold refused. rewrite omap_app'. fold (refused (rx_hist x)).
  change (omap ref1 (zip b (redis_results b rs))) with (refused (zip b (redis_results b rs))).
  rewrite refused_results by exact Hs. rewrite (app_assoc (late_cmds n os).*1 (cmds.*1)).
  apply sublist_submseteq in Hos. apply submseteq_app; [done|]. destruct Hrs as [->|[-> _]]; [|done].
  assert (omap ref_reply (zip (cmds_of b) []) = []) as -> by (by destruct (cmds_of b)). rewrite app_nil_r.
  by apply submseteq_inserts_r.
Qed.

Lemma ystep_ref cfg s s' : ystep cfg s s' → yinv cfg s →
  (∀ n x, ry_insts s !! n = Some x → ref_ok (ry_orphans s) (ry_log s) n x) →
  ∀ n x, ry_insts s' !! n = Some x → ref_ok (ry_orphans s') (ry_log s') n x.
Proof.
  destruct 1 as [xs s os lg ts|xs s os lg ts n x i' Hx Hl|xs s os lg ts n x b q c cmds rs ms Hx Eo
    |xs s os lg ts n x b q c cmds rs Hx Eo|xs s os lg ts n x b rs now Hx Eo|xs s os lg ts n x b cmds rs Hx Eo
    |xs s os lg ts k n q c cmds ms Hk|xs s os lg ts k n now Hk|xs s os lg ts k o Hk|xs s os lg ts n x ok Hx Hp];
    intros [I1 I2 I3 _] H; cbn [ry_insts ry_log ry_orphans] in *.
  - intros n x Hn. apply lookup_app_Some in Hn as [Hn|[Hge Hn]]; [auto|].
    apply list_lookup_singleton_Some in Hn as [Hn0 <-]. assert (n = length xs) as -> by lia.
    intros _. cbn [rinst0 rx_hist rx_inst]. rewrite log_of_none, late_none by done. done.
  - eapply (upd_inst xs n x _ (λ m y, ref_ok os lg m y)); [done| |auto]. by eapply ref_ok_local; [apply H|].
  - eapply (upd_inst xs n x _ (λ m y, ref_ok os (lg ++ [LogEnt (xadd s ms c).2 q n]) m y)); [done| |].
    + eapply ref_ok_reply; [by apply I1|by apply H|exact Eo|done].
    + intros m y Hm Hy. eapply ref_ok_frame; [by apply H| |done]. by rewrite log_of_app, log_of_other, app_nil_r.
  - eapply (upd_inst xs n x _ (λ m y, ref_ok os lg m y)); [done| |auto].
    by eapply (ref_ok_reply cfg os lg n x b q c cmds rs None); [apply I1|apply H| |].
  - eapply (upd_inst xs n x _ (λ m y, ref_ok os lg m y)); [done| |auto].
    eapply ref_ok_finish; [by apply I1|by apply H|exact Eo|by right|]. by apply sublist_inserts_r.
  - eapply (upd_inst xs n x _ (λ m y, ref_ok (os ++ [(n, cmds)]) lg m y)); [done| |].
    + eapply ref_ok_finish; [by apply I1|by apply H|exact Eo|by left|]. by rewrite late_app, late_self, fmap_app.
    + intros m y Hm Hy. eapply ref_ok_frame; [by apply H|done|]. by rewrite late_app, late_other, app_nil_r.
  - intros m y Hy. specialize (H m y Hy). destruct (late_insert n m k os cmds (q, c) Hk) as [[E Hne]|[-> (l1 & l2 & E1 & E2)]].
    + eapply ref_ok_frame; [exact H| |done]. by rewrite log_of_app, log_of_other, app_nil_r.
    + intros Ha. specialize (H Ha). rewrite E2, log_of_app, log_of_self, map_app. etrans; [|exact H]. rewrite E1.
      rewrite !fmap_app. cbn [map fmap list_fmap fst le_req]. rewrite <-!app_assoc.
      apply submseteq_app; [done|]. simpl. by rewrite Permutation_middle.
  - intros m y Hy. eapply ref_ok_shrink; [by apply H|]. apply late_delete.
  - intros m y Hy. eapply ref_ok_shrink; [by apply H|]. apply late_delete.
  - eapply (upd_inst xs n x _ (λ m y, ref_ok os lg m y)); [done| |auto].
    assert (Ein : in_out (rx_inst (poll_redis cfg s ok x)) = in_out (rx_inst x) ∧ rx_hist (poll_redis cfg s ok x) = rx_hist x ∧
                  in_calls (rx_inst (poll_redis cfg s ok x)) = in_calls (rx_inst x)).
    { unfold poll_redis. by destruct (redis_get _ _ _ _) as [[us|] c]. }
    destruct Ein as (E1 & E2 & E3). unfold ref_ok, AllSendable. rewrite E1, E2, E3. exact (H n x Hx).
Qed.

Lemma yreach_ref cfg s n x : yreach cfg s → ry_insts s !! n = Some x → ref_ok (ry_orphans s) (ry_log s) n x.
Proof.
  intros Hr. revert n x. revert s Hr.
  apply (rtc_ind_r (λ s, ∀ n x, ry_insts s !! n = Some x → ref_ok (ry_orphans s) (ry_log s) n x)); [done|].
  intros s s' Hr Hs H. eapply ystep_ref; [exact Hs|by eapply yreach_inv|exact H].
Qed.

Lemma elem_omap {A B} (f : A → option B) (l : list A) x y : x ∈ l → f x = Some y → y ∈ omap f l.
Proof. intros Hx Hy. apply elem_of_list_omap. by exists x. Qed.

(** A call with a single update, answered with an error, has nothing in the stream. *)
Lemma red_error_not_written cfg s n x i cl r e :
  yreach cfg s → ry_insts s !! n = Some x → AllSendable x → in_calls (rx_inst x) !! i = Some cl → length (cl_ups cl) = 1 →
  r ∈ cl_got cl → r_err r = Some e → updates_logged s n i = [].
Proof.
  intros Hr Hx Ha Hi Hl Hin He. pose proof (yreach_ref _ _ _ _ Hr Hx Ha) as H.
  pose proof (yi_inst _ _ (yreach_inv _ _ Hr) _ x Hx) as [Hok _ _ _].
  pose proof (ok_calls _ _ _ _ _ Hok i cl Hi) as Hc. pose proof (ok_reqs _ _ _ _ _ _ _ Hc) as Hq.
  apply elem_of_list_lookup in Hin as [m Hm].
  destruct (of_call_nth _ _ _ _ _ _ _ _ _ Hc Hm) as (u & Hu & Hh). apply elem_of_list_lookup_2, of_call_elem in Hh as [Hh _].
  assert (Hrf : Request u i ∈ refused (rx_hist x)).
  { eapply elem_omap; [exact Hh|]. unfold ref1. cbn [fst snd]. by rewrite He. }
  assert (H1 : map le_req (log_of n (ry_log s)) ++ [Request u i] ⊆+ (rx_hist x).*1 ++ out_reqs rc_batch (in_out (rx_inst x))).
  { etrans; [|apply submseteq_app; [reflexivity|apply out_batch_sub]]. etrans; [|exact H]. apply submseteq_app; [done|].
    do 2 apply submseteq_inserts_l. apply submseteq_inserts_r. by apply singleton_submseteq_l. }
  apply (submseteq_filter (λ q, rq_chan q = i)), submseteq_length in H1.
  fold (reqs_of i ((rx_hist x).*1 ++ out_reqs rc_batch (in_out (rx_inst x)))) in H1.
  apply (f_equal length) in Hq. rewrite map_length, take_length, Hl in Hq. rewrite Hq in H1.
  rewrite filter_app, app_length, (filter_cons _ (Request u i)), decide_True in H1 by done. cbn [length] in H1.
  assert (E : length (updates_logged s n i) = length (filter (λ q, rq_chan q = i) (map le_req (log_of n (ry_log s))))).
  { unfold updates_logged. rewrite map_length. clear. induction (ry_log s) as [|e l IH]; [done|].
    unfold log_of in *. rewrite !filter_cons. destruct (decide (le_src e = n)) as [E|E]; cbn [map].
    - rewrite filter_cons. destruct (decide (rq_chan (le_req e) = i)) as [E2|E2].
      + rewrite decide_True by done. cbn [length]. by f_equal.
      + by rewrite decide_False by naive_solver.
    - by rewrite decide_False by naive_solver. }
  apply nil_length_inv. lia.
Qed.

Lemma red_told_id cfg s n x i cl v k :
  yreach cfg s → ry_insts s !! n = Some x → AllSendable x → in_calls (rx_inst x) !! i = Some cl → Creates cl v →
  Told cl k → k ≠ ""%string →
  WellFormedId k ∧ valid_ticket_id k = true ∧ tickets_for k (history s) = [v].
Proof.
  intros Hr Hx Ha Hi Hc (r & Eg & Ek) Hk. unfold create_ticket_reply in Ek. injection Ek as Er Ee.
  assert (Hg : Good r) by (split; [done|by rewrite Er]).
  assert (Hm : cl_got cl !! 0 = Some r) by (by rewrite Eg).
  assert (Hin : r ∈ cl_got cl) by (rewrite Eg; apply elem_of_list_here).
  pose proof (red_created _ _ _ _ _ _ _ _ Hr Hx Ha Hi Hc Hin Hg) as Ht.
  destruct (red_answers _ _ _ _ _ _ _ _ Hr Hx Ha Hi Hm Hg) as (u & e & _ & He & _ & _ & E).
  destruct (yreach_nonneg _ _ Hr) as [_ Hn]. rewrite Forall_forall in Hn.
  destruct (text_accepted (le_id e) (Hn e He)) as [A B]. rewrite Er in *. rewrite <-E in A, B. done.
Qed.

Lemma red_told_error cfg s n x i cl v :
  yreach cfg s → ry_insts s !! n = Some x → AllSendable x → in_calls (rx_inst x) !! i = Some cl → Creates cl v →
  ToldError cl → updates_logged s n i = [].
Proof.
  intros Hr Hx Ha Hi Hc (r & k & e & Eg & Ek). unfold create_ticket_reply in Ek. injection Ek as _ Ee.
  eapply (red_error_not_written _ _ _ _ _ _ r); try done; [by rewrite Hc|rewrite Eg; apply elem_of_list_here].
Qed.
