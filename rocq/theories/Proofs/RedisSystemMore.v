(** Several instances and one Redis stream: answers, ids, tickets and pools. *)
From Coq Require Import Ascii String ZArith NArith Lia ZifyBool ZifyN Sorting.
From stdpp Require Import prelude strings gmap relations.
From Verif.Model Require Import GoStrings Types Filter Wire Proto Cache Replica Handlers MemRepl Queues RedisRepl RedisReader System RedisSystem.
From Verif.Spec Require Import IdSpec RedisSpec CacheSpec SystemSpec.
From Verif.Proofs Require Import StringLemmas WireLemmas MemLemmas RedisLemmas RedisSendLemmas RedisReadLemmas HistoryLemmas HistoryMore InstLemmas
  MemSystemLemmas MemSystemMore RedisSystemLemmas RedisSystemRead.
Local Open Scope nat_scope.

(** ** Reading *)
Lemma read_split {S} (x : inst S) : read_so_far x = applied x ++ on_the_way x.
Proof. unfold read_so_far, applied, on_the_way, poll_list. by destruct (in_poll x). Qed.

Lemma history_lg2 s : history s = map (λ p, as_read p.1 p.2) (lg2 (ry_log s)).
Proof. unfold history, lg2. by rewrite map_map. Qed.

Lemma red_subsequence cfg s n x :
  yreach cfg s → ry_insts s !! n = Some x →
  applied (rx_inst x) ++ on_the_way (rx_inst x) `sublist_of` history s.
Proof.
  intros Hr Hx. destruct (yreach_read _ _ Hr) as [slog HR]. destruct (yr_inst _ _ _ HR n x Hx) as (_ & dlog & HI & _).
  rewrite <-read_split, history_lg2. pose proof (ri_out _ _ _ _ HI) as E. cbn in E. rewrite E.
  apply fmap_sublist. apply (ri_dlog _ _ _ _ HI).
Qed.

Lemma red_prefix cfg s n x :
  yreach cfg s → Untrimmed s → ry_insts s !! n = Some x →
  ∃ rest, history s = applied (rx_inst x) ++ on_the_way (rx_inst x) ++ rest.
Proof.
  intros Hr Hu Hx. destruct (yreach_read _ _ Hr) as [slog HR]. destruct (yr_inst _ _ _ HR n x Hx) as (_ & dlog & HI & Hd).
  specialize (Hd Hu). setoid_rewrite app_assoc. rewrite <-read_split, history_lg2.
  pose proof (ri_out _ _ _ _ HI) as E. cbn in E. rewrite E.
  destruct (ri_log _ _ _ _ HI) as (Hs & _).
  exists (map (λ p, as_read p.1 p.2) (filter (After (rx_cursor x)) (lg2 (ry_log s)))).
  rewrite Hd, <-map_app. by rewrite split_sorted.
Qed.

Lemma red_cache cfg s n x :
  yreach cfg s → ry_insts s !! n = Some x →
  in_cache (rx_inst x) = hev_run cfg empty_cache (in_events (rx_inst x)) ∧
  hev_fits cfg empty_cache (in_events (rx_inst x)).
Proof.
  intros Hr Hx. destruct (yi_inst _ _ (yreach_inv _ _ Hr) n x Hx) as [Hin _ _ _].
  split; [by eapply ok_cache|by eapply ok_fits].
Qed.

(** Two instances: one has applied a prefix of what the other has. *)
Lemma red_same_order cfg s n m x y :
  yreach cfg s → Untrimmed s → ry_insts s !! n = Some x → ry_insts s !! m = Some y →
  applied (rx_inst x) `prefix_of` applied (rx_inst y) ∨ applied (rx_inst y) `prefix_of` applied (rx_inst x).
Proof.
  intros Hr Hu Hx Hy. destruct (red_prefix _ _ _ _ Hr Hu Hx) as [r1 E1]. destruct (red_prefix _ _ _ _ Hr Hu Hy) as [r2 E2].
  assert (H1 : applied (rx_inst x) `prefix_of` history s) by (rewrite E1; by apply prefix_app_r).
  assert (H2 : applied (rx_inst y) `prefix_of` history s) by (rewrite E2; by apply prefix_app_r).
  eapply prefix_weak_total; eassumption.
Qed.

Lemma red_no_crash cfg s n x :
  yreach cfg s → ry_insts s !! n = Some x → in_out (rx_inst x) ≠ OCrash ∧ in_poll (rx_inst x) ≠ PCrash.
Proof.
  intros Hr Hx. destruct (yi_inst _ _ (yreach_inv _ _ Hr) n x Hx) as [Hin _ _ _].
  destruct (yreach_read _ _ Hr) as [slog HR]. destruct (yr_inst _ _ _ HR n x Hx) as (Hp & _).
  split; [by eapply ok_alive|]. destruct Hp as [->|[l ->]]; done.
Qed.

(** ** Ids in the stream *)
Definition ids_nonneg (s : rsys) : Prop :=
  (0 <= (st_last (ry_stream s)).1 ∧ 0 <= (st_last (ry_stream s)).2)%Z ∧
  Forall (λ e, (0 <= (le_id e).1 ∧ 0 <= (le_id e).2)%Z) (ry_log s).

Lemma xadd_nonneg s ms c : (0 <= (st_last s).1 ∧ 0 <= (st_last s).2)%Z →
  (0 <= (xadd s ms c).2.1 ∧ 0 <= (xadd s ms c).2.2)%Z.
Proof. unfold xadd, next_sid. cbn [snd]. destruct (Z.ltb_spec (st_last s).1 ms); simpl; lia. Qed.

Lemma xtrim_last s t : st_last (xtrim_minid s t) = st_last s.
Proof. unfold xtrim_minid. by destruct (t <? 0)%Z. Qed.

Lemma yreach_nonneg cfg s : yreach cfg s → ids_nonneg s.
Proof.
  revert s. apply (rtc_ind_r (λ s, ids_nonneg s)).
  - split; [cbn; lia|constructor].
  - intros s s' _ Hs [H1 H2].
    destruct Hs; unfold ids_nonneg in *; cbn [ry_stream ry_log] in *; rewrite ?xtrim_last; try done.
    + split; [exact (xadd_nonneg _ ms c H1)|]. apply Forall_app. split; [done|]. constructor; [|done]. exact (xadd_nonneg _ ms c H1).
    + split; [exact (xadd_nonneg _ ms c H1)|]. apply Forall_app. split; [done|]. constructor; [|done]. exact (xadd_nonneg _ ms c H1).
Qed.

Lemma sorted_nodup (l : list (Z * Z)) : StronglySorted LexLt l → NoDup l.
Proof.
  induction 1 as [|x l Hs IH Hf]; constructor; [|done]. intros Hx. rewrite Forall_forall in Hf.
  by eapply LexLt_irrefl, Hf.
Qed.

Lemma log_ids_nodup cfg s : yreach cfg s → NoDup (map (λ e, id_text (le_id e)) (ry_log s)).
Proof.
  intros Hr. destruct (yreach_read _ _ Hr) as [slog HR]. destruct (yr_log _ _ _ HR) as (Hs & _).
  destruct (yreach_nonneg _ _ Hr) as [_ Hn].
  assert (Hnd : NoDup (map le_id (ry_log s))).
  { apply sorted_nodup. unfold lg2 in Hs. rewrite <-list_fmap_compose in Hs. exact Hs. }
  clear -Hn Hnd. induction Hn as [|e l He Hl IH]; [constructor|]. cbn [map] in *.
  apply NoDup_cons in Hnd as [Hne Hnd]. constructor; [|by apply IH].
  intros (e' & E & He')%elem_of_list_fmap. apply Hne. rewrite Forall_forall in Hl. specialize (Hl e' He').
  apply id_text_inj in E; [|lia..]. rewrite E. by apply elem_of_list_fmap_1.
Qed.

Lemma log_id_unique cfg s e e' :
  yreach cfg s → e ∈ ry_log s → e' ∈ ry_log s → id_text (le_id e) = id_text (le_id e') → e = e'.
Proof. intros Hr He He' E. by apply (nodup_by _ _ _ _ (log_ids_nodup _ _ Hr)). Qed.

(** ** Answers *)
Lemma ack1_good q r : Good r → ack1 (q, r) = Some (q, r_result r).
Proof. intros [H1 H2]. unfold ack1. cbn [fst snd]. rewrite H1. by rewrite decide_False. Qed.

Lemma log_of_elem n l e : e ∈ log_of n l ↔ e ∈ l ∧ le_src e = n.
Proof. unfold log_of. rewrite elem_of_list_filter. tauto. Qed.

Lemma acked_logged cfg s n x q r :
  yreach cfg s → ry_insts s !! n = Some x → AllSendable x → (q, r) ∈ rx_hist x → Good r →
  ∃ e, e ∈ ry_log s ∧ le_src e = n ∧ le_req e = q ∧ r_result r = id_text (le_id e).
Proof.
  intros Hr Hx Ha Hq Hg. destruct (yi_inst _ _ (yreach_inv _ _ Hr) n x Hx) as [_ _ _ Hac].
  assert (Hin : (q, r_result r) ∈ map log_ack (log_of n (ry_log s))).
  { eapply sublist_elem; [exact (Hac Ha)|]. apply elem_of_app. left. unfold acked. apply elem_of_list_omap.
    exists (q, r). split; [done|]. by apply ack1_good. }
  apply elem_of_list_fmap in Hin as (e & [= -> ->] & He). apply log_of_elem in He as [He1 He2].
  exists e. by rewrite sid_str_text.
Qed.

Lemma red_answers cfg s n x i cl m r :
  yreach cfg s → ry_insts s !! n = Some x → AllSendable x → in_calls (rx_inst x) !! i = Some cl →
  cl_got cl !! m = Some r → Good r →
  ∃ u e, cl_ups cl !! m = Some u ∧ e ∈ ry_log s ∧ le_src e = n ∧ le_req e = Request u i ∧ r_result r = id_text (le_id e).
Proof.
  intros Hr Hx Ha Hi Hm Hg. pose proof (yi_inst _ _ (yreach_inv _ _ Hr) n x Hx) as [Hin _ _ _].
  destruct (of_call_nth _ _ _ _ _ _ _ _ _ (ok_calls _ _ _ _ _ Hin i cl Hi) Hm) as (u & Hu & Hc).
  apply elem_of_list_lookup_2, of_call_elem in Hc as [Hc _].
  destruct (acked_logged _ _ _ _ _ _ Hr Hx Ha Hc Hg) as (e & He1 & He2 & He3 & He4). by exists u, e.
Qed.

(** Positions of acknowledged answers. *)
Lemma omap_pos {A B} (f : A → option B) (l : list A) i j x y b :
  NoDup (omap f l) → l !! i = Some x → l !! j = Some y → f x = Some b → f y = Some b → i = j.
Proof.
  revert i j. induction l as [|z l IH]; intros i j Hnd Hi Hj Hx Hy; [by rewrite lookup_nil in Hi|].
  destruct i as [|i], j as [|j]; simpl in Hi, Hj; [done| | |].
  - injection Hi as ->. exfalso. simpl in Hnd. rewrite Hx in Hnd. apply NoDup_cons in Hnd as [Hn _]. apply Hn.
    apply elem_of_list_omap. exists y. split; [by eapply elem_of_list_lookup_2|done].
  - injection Hj as ->. exfalso. simpl in Hnd. rewrite Hy in Hnd. apply NoDup_cons in Hnd as [Hn _]. apply Hn.
    apply elem_of_list_omap. exists x. split; [by eapply elem_of_list_lookup_2|done].
  - f_equal. eapply IH; try eassumption. simpl in Hnd. destruct (f z); [by apply NoDup_cons in Hnd as [_ ?]|done].
Qed.

Lemma sublist_nodup {A} (l k : list A) : l `sublist_of` k → NoDup k → NoDup l.
Proof.
  induction 1 as [|x l k H IH|x l k H IH]; intros Hnd; [done| |].
  - apply NoDup_cons in Hnd as [Hx Hnd]. constructor; [|auto]. intros Hin. apply Hx. by eapply sublist_elem.
  - apply NoDup_cons in Hnd as [_ Hnd]. auto.
Qed.

Lemma omap_filter_sublist {A B} (f : A → option B) (P : A → Prop) `{∀ x, Decision (P x)} (l : list A) :
  omap f (filter P l) `sublist_of` omap f l.
Proof.
  induction l as [|x l IH]; [done|]. rewrite filter_cons. case_decide; simpl; destruct (f x); try done.
  - by apply sublist_skip.
  - by apply sublist_cons.
Qed.

Lemma acks_nodup cfg s n x : yreach cfg s → ry_insts s !! n = Some x → AllSendable x → NoDup (acked (rx_hist x)).
Proof.
  intros Hr Hx Ha. destruct (yi_inst _ _ (yreach_inv _ _ Hr) n x Hx) as [_ _ _ Hac].
  eapply sublist_nodup; [etrans; [apply sublist_inserts_r; reflexivity|exact (Hac Ha)]|].
  pose proof (log_ids_nodup _ _ Hr) as Hnd.
  apply (NoDup_fmap_1 (λ p : request * string, p.2)).
  change (map log_ack (log_of n (ry_log s))) with (log_ack <$> log_of n (ry_log s)). rewrite <-list_fmap_compose.
  eapply sublist_nodup; [|exact Hnd]. 
  replace (map (λ e, id_text (le_id e)) (ry_log s)) with (((λ p : request * string, p.2) ∘ log_ack) <$> ry_log s).
  - apply fmap_sublist. apply filter_sublist.
  - apply list_fmap_ext. intros k e _. cbn. by rewrite sid_str_text.
Qed.

Lemma red_ids_distinct cfg s n x i ci k r n' x' i' ci' k' r' :
  yreach cfg s →
  ry_insts s !! n = Some x → AllSendable x → in_calls (rx_inst x) !! i = Some ci → cl_got ci !! k = Some r → Good r →
  ry_insts s !! n' = Some x' → AllSendable x' → in_calls (rx_inst x') !! i' = Some ci' → cl_got ci' !! k' = Some r' → Good r' →
  r_result r = r_result r' → n = n' ∧ i = i' ∧ k = k'.
Proof.
  intros Hr Hx Ha Hi Hk Hg Hx' Ha' Hi' Hk' Hg' E.
  destruct (red_answers _ _ _ _ _ _ _ _ Hr Hx Ha Hi Hk Hg) as (u & e & Hu & He1 & He2 & He3 & He4).
  destruct (red_answers _ _ _ _ _ _ _ _ Hr Hx' Ha' Hi' Hk' Hg') as (u' & e' & Hu' & He1' & He2' & He3' & He4').
  assert (e = e') as <- by (eapply log_id_unique; [done..|congruence]).
  subst n n'. rewrite Hx in Hx'. injection Hx' as <-. rewrite He3 in He3'. injection He3' as <- <-.
  rewrite Hi in Hi'. injection Hi' as <-. split_and!; try done.
  pose proof (yi_inst _ _ (yreach_inv _ _ Hr) _ x Hx) as [Hin _ _ _].
  pose proof (ok_calls _ _ _ _ _ Hin i ci Hi) as Hok.
  destruct (of_call_nth _ _ _ _ _ _ _ _ _ Hok Hk) as (w & Hw & Hc).
  destruct (of_call_nth _ _ _ _ _ _ _ _ _ Hok Hk') as (w' & Hw' & Hc').
  rewrite Hu in Hw. injection Hw as <-. rewrite Hu' in Hw'. injection Hw' as <-.
  eapply (omap_pos ack1 (of_call i (rx_hist x))); [|exact Hc|exact Hc'|by apply ack1_good|rewrite ack1_good by done; congruence].
  eapply sublist_nodup; [|by eapply acks_nodup]. unfold of_call, acked. apply omap_filter_sublist.
Qed.

(** ** At most once *)
Lemma submseteq_filter {A} (P : A → Prop) `{∀ x, Decision (P x)} (l k : list A) : l ⊆+ k → filter P l ⊆+ filter P k.
Proof.
  intros (l' & E)%submseteq_Permutation. rewrite E, filter_app. by apply submseteq_inserts_r.
Qed.

Lemma out_batch_sub (o : out_pc redis_call) : out_batch o ⊆+ out_reqs rc_batch o.
Proof. destruct o; try done. apply submseteq_nil_l. Qed.

Lemma red_once cfg s n x i cl :
  yreach cfg s → ry_insts s !! n = Some x → in_calls (rx_inst x) !! i = Some cl →
  updates_logged s n i ⊆+ cl_ups cl.
Proof.
  intros Hr Hx Hi. pose proof (yi_inst _ _ (yreach_inv _ _ Hr) _ x Hx) as [Hin _ Ho _].
  pose proof (ok_calls _ _ _ _ _ Hin i cl Hi) as Hok. pose proof (ok_reqs _ _ _ _ _ _ _ Hok) as Hq.
  assert (H1 : map le_req (log_of n (ry_log s)) ⊆+ (rx_hist x).*1 ++ out_reqs rc_batch (in_out (rx_inst x))).
  { etrans; [|apply submseteq_app; [reflexivity|apply out_batch_sub]]. etrans; [|exact Ho]. by apply submseteq_inserts_r. }
  apply (submseteq_filter (λ q, rq_chan q = i)) in H1. fold (reqs_of i ((rx_hist x).*1 ++ out_reqs rc_batch (in_out (rx_inst x)))) in H1.
  apply (fmap_submseteq rq_update) in H1.
  change (rq_update <$> reqs_of i ((rx_hist x).*1 ++ out_reqs rc_batch (in_out (rx_inst x))))
    with (map rq_update (reqs_of i ((rx_hist x).*1 ++ out_reqs rc_batch (in_out (rx_inst x))))) in H1.
  rewrite Hq in H1. etrans; [|apply sublist_submseteq, sublist_take]. etrans; [|exact H1].
  unfold updates_logged. clear. induction (ry_log s) as [|e l IH]; [done|].
  unfold log_of in *. rewrite !filter_cons. destruct (decide (le_src e = n)) as [E|E]; cbn [map].
  - rewrite filter_cons. destruct (decide (rq_chan (le_req e) = i)) as [E2|E2].
    + rewrite decide_True by done. cbn [map fmap list_fmap]. by apply submseteq_skip.
    + by rewrite decide_False by naive_solver.
  - by rewrite decide_False by naive_solver.
Qed.


(** ** Tickets *)
Lemma log_call cfg s e :
  yreach cfg s → e ∈ ry_log s →
  ∃ x cl, ry_insts s !! le_src e = Some x ∧ in_calls (rx_inst x) !! rq_chan (le_req e) = Some cl ∧
          rq_update (le_req e) ∈ cl_ups cl ∧ issues cfg (cl_ups cl) (cl_cap cl).
Proof.
  intros Hr He. pose proof (yreach_inv _ _ Hr) as HI. pose proof (yi_src _ _ HI) as Hs. rewrite Forall_forall in Hs.
  destruct (lookup_lt_is_Some_2 _ _ (Hs e He)) as [x Hx]. destruct (yi_inst _ _ HI _ x Hx) as [Hin _ Ho _].
  destruct (req_in_call _ _ _ _ _ (le_req e) Hin) as (cl & Hcl & Hu).
  { assert (H1 : map le_req (log_of (le_src e) (ry_log s)) ⊆+ (rx_hist x).*1 ++ out_reqs rc_batch (in_out (rx_inst x))).
    { etrans; [|apply submseteq_app; [reflexivity|apply out_batch_sub]]. etrans; [|exact Ho]. by apply submseteq_inserts_r. }
    eapply elem_of_submseteq; [|exact H1]. apply elem_of_list_fmap_1. by apply log_of_elem. }
  exists x, cl. split_and!; try done. by eapply ok_issues, ok_calls.
Qed.

Lemma as_read_ticket i u k v : as_read i u = Update CmdTicket k v →
  k = id_text i ∧ u_cmd u = CmdTicket ∧ u_value u = v ∨ u_cmd u = CmdOther.
Proof. unfold as_read. destruct (u_cmd u) eqn:E; intros H; try done; [left; by injection H as <- <-|by right]. Qed.

Lemma issues_no_other cfg us cap u : issues cfg us cap → u ∈ us → u_cmd u ≠ CmdOther.
Proof.
  destruct 1 as [now o req us Hc|ids us Hc|ids us Hc|ids|oe r us Hc]; intros Hin.
  - destruct req as [t|]; [|done]. unfold create_ticket in Hc.
    destruct (marshal_ticket o (prepare_ticket (cfg_ticket_ttl cfg) now t)) as [w|]; [|done].
    injection Hc as <-. by apply elem_of_list_singleton in Hin as ->.
  - unfold activate_start, set_active_start in Hc. cbv zeta in Hc. destruct (_ =? 0)%Z; [done|].
    destruct (_ <? _)%Z; [done|]. injection Hc as <-. by apply elem_of_list_fmap in Hin as (? & -> & _).
  - unfold deactivate_start, set_active_start in Hc. cbv zeta in Hc. destruct (_ =? 0)%Z; [done|].
    destruct (_ <? _)%Z; [done|]. injection Hc as <-. by apply elem_of_list_fmap in Hin as (? & -> & _).
  - by apply elem_of_list_fmap in Hin as (? & -> & _).
  - unfold create_assignments_start in Hc. destruct (ro_assignment r); [|done].
    destruct (marshal_assignment oe a) as [w|]; [|done]. injection Hc as <-.
    by apply elem_of_list_fmap in Hin as (? & -> & _).
Qed.

(** A ticket in the history comes from a CreateTicket call. *)
Lemma history_ticket cfg s k v :
  yreach cfg s → Update CmdTicket k v ∈ history s →
  ∃ e x cl, e ∈ ry_log s ∧ k = id_text (le_id e) ∧ rq_update (le_req e) = Update CmdTicket ""%string v ∧
    ry_insts s !! le_src e = Some x ∧ in_calls (rx_inst x) !! rq_chan (le_req e) = Some cl ∧ Creates cl v.
Proof.
  intros Hr Hin. apply elem_of_list_fmap in Hin as (e & E & He). symmetry in E.
  destruct (log_call _ _ _ Hr He) as (x & cl & Hx & Hcl & Hu & Hiss).
  apply as_read_ticket in E as [(-> & Ec & Ev)|Ec]; [|by eapply issues_no_other in Hu].
  destruct (rq_update (le_req e)) as [cm key w] eqn:Eq. simpl in Ec, Ev. subst cm w.
  destruct (issues_ticket _ _ _ _ _ Hiss Hu) as (-> & Hups & _).
  exists e, x, cl. done.
Qed.

Lemma history_ticket_unique cfg s e v :
  yreach cfg s → e ∈ ry_log s → rq_update (le_req e) = Update CmdTicket ""%string v →
  tickets_for (id_text (le_id e)) (history s) = [v].
Proof.
  intros Hr He Ev. pose proof (log_ids_nodup _ _ Hr) as Hnd.
  assert (Hno : ∀ e', e' ∈ ry_log s → u_cmd (rq_update (le_req e')) ≠ CmdOther).
  { intros e' He'. destruct (log_call _ _ _ Hr He') as (x & cl & _ & _ & Hu & Hiss). by eapply issues_no_other. }
  unfold history. set (k := id_text (le_id e)).
  apply elem_of_list_split in He as (l1 & l2 & El). rewrite El in *.
  assert (Hnone : ∀ l, (∀ e', e' ∈ l → u_cmd (rq_update (le_req e')) ≠ CmdOther ∧ id_text (le_id e') ≠ k) →
    tickets_for k (map (λ e, as_read (le_id e) (rq_update (le_req e))) l) = []).
  { clear. induction l as [|e' l IH]; intros H; [done|]. cbn [map].
    destruct (H e') as [Ho Hne]; [apply elem_of_list_here|].
    change (?a :: ?b) with ([a] ++ b). rewrite tickets_for_app, IH.
    - rewrite app_nil_r. unfold tickets_for, as_read. simpl.
      destruct (u_cmd (rq_update (le_req e'))) eqn:Ec; cbn; try done. by rewrite decide_False.
    - intros e'' He''. apply H. by apply elem_of_list_further. }
  rewrite map_app in Hnd. cbn [map] in Hnd. apply NoDup_app in Hnd as (_ & Hd & Hnd). apply NoDup_cons in Hnd as [Hn2 _].
  rewrite map_app. cbn [map]. rewrite Ev. change (as_read (le_id e) (Update CmdTicket "" v)) with (Update CmdTicket k v).
  change (Update CmdTicket k v :: ?b) with ([Update CmdTicket k v] ++ b). rewrite !tickets_for_app.
  assert (tickets_for k [Update CmdTicket k v] = [v]) as ->.
  { unfold tickets_for. simpl. by rewrite decide_True. }
  rewrite !Hnone; [done| |].
  - intros e' He'. split; [apply Hno; apply elem_of_app; right; by apply elem_of_list_further|].
    intros E. apply Hn2. unfold k in E. rewrite <-E. by apply (elem_of_list_fmap_1 (λ e, id_text (le_id e))).
  - intros e' He'. split; [apply Hno; apply elem_of_app; by left|].
    intros E. apply (Hd k); [|apply elem_of_list_here]. rewrite <-E. by apply (elem_of_list_fmap_1 (λ e, id_text (le_id e))).
Qed.

Lemma red_created cfg s n x i cl v r :
  yreach cfg s → ry_insts s !! n = Some x → AllSendable x → in_calls (rx_inst x) !! i = Some cl → Creates cl v →
  r ∈ cl_got cl → Good r → tickets_for (r_result r) (history s) = [v].
Proof.
  intros Hr Hx Ha Hi Hc Hin Hg. apply elem_of_list_lookup in Hin as [m Hm].
  destruct (red_answers _ _ _ _ _ _ _ _ Hr Hx Ha Hi Hm Hg) as (u & e & Hu & He & Hs & Hq & ->).
  unfold Creates in Hc. rewrite Hc in Hu. apply list_lookup_singleton_Some in Hu as [_ <-].
  eapply history_ticket_unique; [done|done|]. by rewrite Hq.
Qed.

(** A single-update call is told the id of its own entry, if any. *)
Lemma red_told cfg s e x cl r :
  yreach cfg s → e ∈ ry_log s → ry_insts s !! le_src e = Some x → AllSendable x →
  in_calls (rx_inst x) !! rq_chan (le_req e) = Some cl → length (cl_ups cl) = 1 →
  r ∈ cl_got cl → Good r → r_result r = id_text (le_id e).
Proof.
  intros Hr He Hx Ha Hcl Hl Hin Hg. apply elem_of_list_lookup in Hin as [m Hm].
  destruct (red_answers _ _ _ _ _ _ _ _ Hr Hx Ha Hcl Hm Hg) as (u & e' & Hu & He' & Hs & Hq & ->).
  assert (e = e') as <-; [|done].
  pose proof (red_once _ _ _ _ _ _ Hr Hx Hcl) as Ho. apply submseteq_length in Ho. rewrite Hl in Ho.
  unfold updates_logged in Ho. rewrite map_length in Ho.
  assert (H1 : e ∈ filter (λ e0, le_src e0 = le_src e ∧ rq_chan (le_req e0) = rq_chan (le_req e)) (ry_log s)).
  { by apply elem_of_list_filter. }
  assert (H2 : e' ∈ filter (λ e0, le_src e0 = le_src e ∧ rq_chan (le_req e0) = rq_chan (le_req e)) (ry_log s)).
  { apply elem_of_list_filter. split; [|done]. rewrite Hq. done. }
  destruct (filter _ (ry_log s)) as [|a [|b l]]; simpl in Ho; [by apply elem_of_nil in H1| |lia].
  apply elem_of_list_singleton in H1, H2. congruence.
Qed.

Lemma red_only_created cfg s n x k t :
  yreach cfg s → ry_insts s !! n = Some x → c_tickets (in_cache (rx_inst x)) !! k = Some t →
  ∃ m y i cl v, ry_insts s !! m = Some y ∧ in_calls (rx_inst y) !! i = Some cl ∧ Creates cl v ∧ t = stored_ticket k v ∧
    tickets_for k (history s) = [v] ∧
    (AllSendable y → ∀ r, r ∈ cl_got cl → Good r → r_result r = k).
Proof.
  intros Hr Hx Ht. destruct (red_cache _ _ _ _ Hr Hx) as [Hca _]. rewrite Hca in Ht.
  destruct (run_sound cfg (in_events (rx_inst x))) as (Hs & _). apply Hs in Ht as (v & Hv & ->).
  assert (Hel : v ∈ tickets_for k (applied (rx_inst x))) by (by apply last_Some_elem_of).
  apply tickets_for_elem in Hel.
  assert (Hh : Update CmdTicket k v ∈ history s).
  { eapply sublist_elem; [by eapply red_subsequence|]. apply elem_of_app. by left. }
  destruct (history_ticket _ _ _ _ Hr Hh) as (e & y & cl & He & -> & Ev & Hy & Hcl & Hc).
  exists (le_src e), y, (rq_chan (le_req e)), cl, v. split_and!; try done.
  - by eapply history_ticket_unique.
  - intros Ha r Hin Hg. eapply red_told; try eassumption. by rewrite Hc.
Qed.

Lemma red_active cfg s n x k :
  yreach cfg s → ry_insts s !! n = Some x → Active (in_cache (rx_inst x)) k →
  ∃ us1 us2 v, applied (rx_inst x) = us1 ++ Update CmdActivate k ""%string :: us2 ∧
    Update CmdTicket k v ∈ us1 ∧ state_cmds_for k us2 = [] ∧
    ∃ m y j cj, ry_insts s !! m = Some y ∧ in_calls (rx_inst y) !! j = Some cj ∧ Activates cfg cj k.
Proof.
  intros Hr Hx Ha. destruct (red_cache _ _ _ _ Hr Hx) as [Hca _]. rewrite Hca in Ha.
  pose proof (run_active _ _ _ Ha) as Hl. destruct (last_state_split _ _ Hl) as (us1 & w & us2 & E & E2).
  fold (applied (rx_inst x)) in E.
  assert (Hin : Update CmdActivate k w ∈ history s).
  { eapply sublist_elem; [by eapply red_subsequence|]. apply elem_of_app. left. rewrite E. apply elem_of_app. right. apply elem_of_list_here. }
  apply elem_of_list_fmap in Hin as (e & Eu & He). symmetry in Eu.
  destruct (log_call _ _ _ Hr He) as (y & cl & Hy & Hcl & Hu & Hiss).
  unfold as_read in Eu. destruct (rq_update (le_req e)) as [cm key w'] eqn:Eq. cbn [u_cmd u_key u_value] in Eu.
  destruct cm; try done. injection Eu as -> <-.
  destruct (issues_activate _ _ _ _ _ Hiss Hu) as (-> & _ & ids & Hids & Hst).
  destruct Ha as [[t Ht] _]. destruct (run_sound cfg (in_events (rx_inst x))) as (Hs & _).
  apply Hs in Ht as (v & Hv & ->). fold (applied (rx_inst x)) in Hv.
  exists us1, us2, v. split; [done|]. split; [|split; [done|]].
  - apply tickets_for_elem. rewrite E, tickets_for_app in Hv.
    change (Update CmdActivate k "" :: us2) with ([Update CmdActivate k ""%string] ++ us2) in Hv.
    rewrite tickets_for_app in Hv. assert (tickets_for k us2 = []) as E3.
    { destruct (tickets_for k us2) eqn:E3; [done|]. exfalso. apply (ticket_then_state k us2); [by rewrite E3|done]. }
    rewrite E3 in Hv. change (tickets_for k [Update CmdActivate k ""%string]) with (@nil string) in Hv. simpl in Hv.
    rewrite app_nil_r in Hv. by apply last_Some_elem_of.
  - exists (le_src e), y, (rq_chan (le_req e)), cl. split_and!; try done. by exists ids.
Qed.

(** ** Which updates can be sent *)
Lemma enc_cons_ne f fs : enc_fields (f :: fs) ≠ ""%string.
Proof.
  cbn [enc_fields]. unfold enc_field. pose proof (enc_varint_nonempty (f.1 * 8 + wire_type f.2)) as H.
  by destruct (enc_varint (f.1 * 8 + wire_type f.2)).
Qed.

Lemma prepared_value_ne ttl now o t w : marshal_ticket o (prepare_ticket ttl now t) = Some w → w ≠ ""%string.
Proof.
  unfold marshal_ticket. destruct (utf8_ticket _ _); [|done]. intros H -> .
  apply (f_equal (from_option (λ s, s) "x"%string)) in H. revert H. exact (enc_cons_ne _ _).
Qed.

Lemma issues_sendable cfg us cap :
  issues cfg us cap →
  (∀ u, u ∈ us → u_cmd u = CmdDeactivate → u_key u ≠ ""%string) →
  (∀ u, u ∈ us → u_cmd u = CmdAssign → u_value u ≠ ""%string) →
  Forall Sendable us.
Proof.
  intros His Hd Has. apply Forall_forall. intros u Hu. specialize (Hd u Hu). specialize (Has u Hu).
  assert (Hv : valid_ticket_id ""%string = false) by done.
  destruct His as [now o req us Hc|ids us Hc|ids us Hc|ids|oe r us Hc].
  - destruct req as [t|]; [|done]. unfold create_ticket in Hc.
    destruct (marshal_ticket o (prepare_ticket (cfg_ticket_ttl cfg) now t)) as [w|] eqn:E; [|done].
    injection Hc as <-. apply elem_of_list_singleton in Hu as ->. cbn. by eapply prepared_value_ne.
  - unfold activate_start, set_active_start in Hc. cbv zeta in Hc. destruct (_ =? 0)%Z; [done|].
    destruct (_ <? _)%Z; [done|]. injection Hc as <-.
    apply elem_of_list_fmap in Hu as (id & -> & Hid). apply elem_of_list_filter in Hid as [Hid _]. cbn. by intros ->.
  - unfold deactivate_start, set_active_start in Hc. cbv zeta in Hc. destruct (_ =? 0)%Z; [done|].
    destruct (_ <? _)%Z; [done|]. injection Hc as <-.
    apply elem_of_list_fmap in Hu as (id & -> & Hid). cbn in *. by apply Hd.
  - apply elem_of_list_fmap in Hu as (id & -> & Hid). cbn in *. by apply Hd.
  - unfold create_assignments_start in Hc. destruct (ro_assignment r); [|done].
    destruct (marshal_assignment oe a) as [w|]; [|done]. injection Hc as <-.
    apply elem_of_list_fmap in Hu as (id & -> & Hid). apply elem_of_list_filter in Hid as [Hid _]. cbn in *. split; [done|]. by apply Has.
Qed.

Lemma red_sendable cfg s n x :
  yreach cfg s → ry_insts s !! n = Some x →
  (∀ cl u, cl ∈ in_calls (rx_inst x) → u ∈ cl_ups cl → u_cmd u = CmdDeactivate → u_key u ≠ ""%string) →
  (∀ cl u, cl ∈ in_calls (rx_inst x) → u ∈ cl_ups cl → u_cmd u = CmdAssign → u_value u ≠ ""%string) →
  AllSendable x.
Proof.
  intros Hr Hx H1 H2 cl Hcl. pose proof (yi_inst _ _ (yreach_inv _ _ Hr) n x Hx) as [Hin _ _ _].
  pose proof Hcl as Hcl'. apply elem_of_list_lookup in Hcl' as [i Hi].
  eapply issues_sendable; [by eapply ok_issues, ok_calls| |]; eauto.
Qed.
