(** Several instances and one Redis stream: calls and their answers
    (Model/RedisSystem.v). *)
From Coq Require Import Ascii String ZArith NArith Lia ZifyBool ZifyN.
From stdpp Require Import prelude strings gmap relations.
From Verif.Model Require Import GoStrings Types Proto Cache Replica Handlers MemRepl Queues RedisRepl System RedisSystem.
From Verif.Spec Require Import IdSpec RedisSpec SystemSpec.
From Verif.Proofs Require Import StringLemmas MemLemmas RedisLemmas RedisSendLemmas RedisReadLemmas HistoryLemmas InstLemmas MemSystemLemmas.
Local Open Scope nat_scope.

Definition no_undel (c : redis_call) : list (nat * response) := [].

(** ** Commands of a batch *)
Lemma cmds_of_sent b : (cmds_of b).*2 = sent_cmds (map rq_update b).
Proof.
  induction b as [|q b IH]; [done|]. cbn [cmds_of map sent_cmds]. destruct (redis_encode (rq_update q)); [done|].
  rewrite fmap_cons. by f_equal.
Qed.

Lemma cmds_of_sublist b : (cmds_of b).*1 `sublist_of` b.
Proof.
  induction b as [|q b IH]; [constructor|]. simpl. destruct (redis_encode (rq_update q)); simpl; by constructor.
Qed.

Lemma cmds_of_encode b q c : (q, c) ∈ cmds_of b → redis_encode (rq_update q) = inr c.
Proof.
  induction b as [|q' b IH]; simpl; [by intros ?%elem_of_nil|].
  destruct (redis_encode (rq_update q')) eqn:E; [done|]. intros [[= -> ->]|H]%elem_of_cons; [done|auto].
Qed.

Lemma cmds_of_sendable b : Forall (λ q, Sendable (rq_update q)) b → (cmds_of b).*1 = b.
Proof.
  induction 1 as [|q b Hq Hb IH]; [done|]. simpl. apply encode_sendable in Hq as [f ->]. rewrite fmap_cons. by f_equal.
Qed.

Lemma merge_length us : ∀ rs, length (merge_replies us (local_errs us) rs) = length us.
Proof.
  induction us as [|u us IH]; intros rs; [done|]. cbn [local_errs map merge_replies length].
  destruct rs; simpl; by rewrite (IH _).
Qed.

Lemma redis_results_length b rs : length (redis_results b rs) = length b.
Proof. unfold redis_results. by rewrite merge_length, map_length. Qed.

(** ** Answers that carry an id *)
Definition ack1 (e : request * response) : option (request * string) :=
  match r_err e.2 with
  | None => if decide (r_result e.2 = ""%string) then None else Some (e.1, r_result e.2)
  | Some _ => None
  end.
Definition acked (h : list (request * response)) : list (request * string) := omap ack1 h.

Definition ack_reply (e : (request * list string) * option sid) : option (request * string) :=
  match e.2 with Some i => Some (e.1.1, sid_str i) | None => None end.
Definition flight_acks (o : out_pc redis_call) : list (request * string) :=
  match o with OStore c => omap ack_reply (zip (cmds_of (rc_batch c)) (rc_replies c)) | _ => [] end.

Lemma omap_app' {A B} (f : A → option B) l k : omap f (l ++ k) = omap f l ++ omap f k.
Proof. apply omap_app. Qed.

Lemma sid_str_ne i : sid_str i ≠ ""%string.
Proof.
  unfold sid_str. intros H. apply (f_equal String.length) in H.
  rewrite !app_length_s in H. simpl in H. lia.
Qed.

Lemma acked_results b : ∀ rs, Forall (λ q, Sendable (rq_update q)) b →
  acked (zip b (redis_results b rs)) = omap ack_reply (zip (cmds_of b) rs).
Proof.
  unfold redis_results. induction b as [|q b IH]; intros rs Hb; [done|]. apply Forall_cons in Hb as [Hq Hb].
  apply encode_sendable in Hq as [f Hf]. cbn [map local_errs merge_replies cmds_of]. rewrite Hf.
  fold (local_errs (map rq_update b)). unfold acked. destruct rs as [|r rs].
  - change (omap ack1 (zip b (merge_replies (map rq_update b) (local_errs (map rq_update b)) [])) = []).
    specialize (IH [] Hb). unfold acked in IH. rewrite IH. by destruct (cmds_of b).
  - specialize (IH rs Hb). unfold acked in IH. destruct r as [i|].
    + change (omap ack1 ((q, Response (sid_str i) None) :: zip b (merge_replies (map rq_update b) (local_errs (map rq_update b)) rs)) =
              (q, sid_str i) :: omap ack_reply (zip (cmds_of b) rs)).
      rewrite <-IH. cbn [omap list_omap]. unfold ack1 at 1. cbn [fst snd r_err r_result].
      by rewrite decide_False by apply sid_str_ne.
    + exact IH.
Qed.

Lemma acked_broken b : acked (zip b (redis_results b [])) = [].
Proof.
  unfold redis_results. induction b as [|q b IH]; [done|]. cbn [map local_errs merge_replies zip zip_with].
  fold (local_errs (map rq_update b)). unfold acked. cbn [omap list_omap]. unfold ack1 at 1. cbn [fst snd r_err r_result].
  unfold acked in IH. cbn [omap] in IH.
  destruct (match redis_encode (rq_update q) with inl e => Some e | inr _ => None end); simpl; exact IH.
Qed.

(** ** What the steps inside an instance do to the outgoing queue *)
Definition nostore (o : out_pc redis_call) : Prop := match o with OStore _ => False | _ => True end.

Lemma after_select_store thr b e :
  nostore (after_select redis_begin (q_step thr (QState b []) e)) ∨
  ∃ b', after_select redis_begin (q_step thr (QState b []) e) = OStore (redis_begin b').
Proof. destruct (after_select_cases redis_begin thr b e) as [[-> _]|[_ ->]]; [by left|right; by eexists]. Qed.

Lemma lstep_out cfg x x' : lstep cfg redis_begin x x' →
  in_out x' = in_out x ∨
  nostore (in_out x) ∧ (nostore (in_out x') ∨ ∃ b, in_out x' = OStore (redis_begin b)).
Proof.
  destruct 1; cbn [in_out]; try (by left); right; split; try done; try (by left); apply after_select_store.
Qed.

Definition poll_fine (p : poll_pc) : Prop := p = PGet [] ∨ ∃ l, p = PPush l.

Lemma lstep_poll cfg x x' : lstep cfg redis_begin x x' → poll_fine (in_poll x) → poll_fine (in_poll x').
Proof.
  destruct 1; cbn [in_poll]; intros Hpf; try done.
  - right. by eexists.
  - by left.
  - right. by eexists.
Qed.

(** Every accepted request is one of its call's updates. *)
Lemma req_in_call {S} (infl : S → list request) undel cfg h (x : inst S) q :
  inst_ok infl undel cfg h x → q ∈ h.*1 ++ out_reqs infl (in_out x) →
  ∃ cl, in_calls x !! rq_chan q = Some cl ∧ rq_update q ∈ cl_ups cl.
Proof.
  intros Hok Hq. pose proof (ok_chans _ _ _ _ _ Hok) as Hc. rewrite Forall_forall in Hc.
  destruct (lookup_lt_is_Some_2 _ _ (Hc q Hq)) as [cl Hcl]. exists cl. split; [done|].
  pose proof (ok_reqs _ _ _ _ _ _ _ (ok_calls _ _ _ _ _ Hok _ _ Hcl)) as Hr.
  assert (rq_update q ∈ map rq_update (reqs_of (rq_chan q) (h.*1 ++ out_reqs infl (in_out x)))) as Hin.
  { apply elem_of_list_fmap_1. unfold reqs_of. apply elem_of_list_filter. done. }
  rewrite Hr in Hin. apply elem_of_take in Hin as (j & Hj & _). by eapply elem_of_list_lookup_2.
Qed.

(** ** The end of SendUpdates *)
Lemma of_call_zip i b : ∀ rs : list response, length rs = length b →
  (of_call i (zip b rs)).*2 = (results_of i (zip (map rq_chan b) rs)).*2.
Proof.
  unfold of_call, results_of. induction b as [|q b IH]; intros [|r rs] Hl; try done.
  cbn [map zip zip_with]. rewrite !filter_cons. cbn [fst]. injection Hl as Hl.
  destruct (decide (rq_chan q = i)); cbn [fmap list_fmap snd]; [|by apply IH]. f_equal. by apply IH.
Qed.

Lemma zip_fst_all {A B} (l : list A) : ∀ k : list B, length k = length l → (zip l k).*1 = l.
Proof. induction l as [|a l IH]; intros [|b k] H; try done. simpl. f_equal. apply IH. by injection H. Qed.

Lemma finish_ok cfg x b cmds rs0 rs :
  inst_ok rc_batch no_undel cfg (rx_hist x) (rx_inst x) → in_out (rx_inst x) = OStore (RedisCall b cmds rs0) →
  inst_ok rc_batch no_undel cfg (rx_hist (finish_send b rs x)) (rx_inst (finish_send b rs x)).
Proof.
  intros [I1 I2 I3 I4 I5 I6] Eo. unfold finish_send, set_out, to_deliver.
  pose proof (redis_results_length b rs) as Hl. set (rr := redis_results b rs) in *.
  rewrite distribute_zip by lia. rewrite Eo in *. cbn [out_reqs out_results rc_batch] in *. unfold no_undel in *.
  assert (Hz : (zip b rr).*1 = b) by by apply zip_fst_all.
  split; cbn [rx_hist rx_inst in_calls in_out in_cache in_events out_reqs out_results]; try done.
  - intros i cl Hi. destruct (I1 i cl Hi) as [C1 C2 C3 C4 C5]. cbn [out_reqs out_results rc_batch] in *.
    split; try done; cbn [out_reqs out_results].
    + by rewrite app_nil_r, fmap_app, Hz.
    + rewrite of_call_app, fmap_app, C4. change (results_of i []) with (@nil (nat * response)). cbn [fmap list_fmap].
      rewrite app_nil_r, <-app_assoc. do 2 f_equal. by apply of_call_zip.
  - by rewrite app_nil_r, fmap_app, Hz.
  - apply Forall_app in I2 as [_ I2]. clearbody rr. clear -I2 Hl. revert rr Hl.
    induction I2 as [|q b Hq Hb IH]; intros [|r rr] Hl; try done; simpl; constructor; [done|]. apply IH. by injection Hl.
Qed.

(** ** The invariant *)
Definition log_of (n : nat) (l : list logent) : list logent := filter (λ e, le_src e = n) l.
Definition late_cmds (n : nat) (os : list (nat * list (request * list string))) : list (request * list string) :=
  concat (filter (λ o : nat * list (request * list string), o.1 = n) os).*2.
Definition out_cmds (o : out_pc redis_call) : list (request * list string) :=
  match o with OStore c => rc_cmds c | _ => [] end.
Definition out_batch (o : out_pc redis_call) : list request :=
  match o with OStore c => rc_batch c | _ => [] end.
Definition log_ack (e : logent) : request * string := (le_req e, sid_str (le_id e)).

Record rx_ok (cfg : config) (os : list (nat * list (request * list string))) (lg : list logent) (n : nat) (x : rinst) : Prop := {
  rx_in : inst_ok rc_batch no_undel cfg (rx_hist x) (rx_inst x);
  rx_flight : ∀ c, in_out (rx_inst x) = OStore c →
    length (rc_replies c) <= length (cmds_of (rc_batch c)) ∧ drop (length (rc_replies c)) (cmds_of (rc_batch c)) = rc_cmds c;
  rx_once : map le_req (log_of n lg) ++ (late_cmds n os).*1 ++ (out_cmds (in_out (rx_inst x))).*1 ⊆+
            (rx_hist x).*1 ++ out_batch (in_out (rx_inst x));
  rx_acks : AllSendable x →
    acked (rx_hist x) ++ flight_acks (in_out (rx_inst x)) `sublist_of` map log_ack (log_of n lg)
}.

Record yinv (cfg : config) (s : rsys) : Prop := {
  yi_inst : ∀ n x, ry_insts s !! n = Some x → rx_ok cfg (ry_orphans s) (ry_log s) n x;
  yi_src : Forall (λ e, le_src e < length (ry_insts s)) (ry_log s);
  yi_late : Forall (λ o : nat * list (request * list string), o.1 < length (ry_insts s)) (ry_orphans s);
  yi_enc : (∀ n x q c, ry_insts s !! n = Some x → (q, c) ∈ out_cmds (in_out (rx_inst x)) → redis_encode (rq_update q) = inr c) ∧
           (∀ o q c, o ∈ ry_orphans s → (q, c) ∈ o.2 → redis_encode (rq_update q) = inr c)
}.

Lemma log_of_app n l k : log_of n (l ++ k) = log_of n l ++ log_of n k.
Proof. apply filter_app. Qed.
Lemma log_of_self i q n : log_of n [LogEnt i q n] = [LogEnt i q n].
Proof. unfold log_of. rewrite filter_cons. by rewrite decide_True. Qed.
Lemma log_of_other i q n m : m ≠ n → log_of m [LogEnt i q n] = [].
Proof. intros H. unfold log_of. rewrite filter_cons. rewrite decide_False; [done|]. simpl. congruence. Qed.
Lemma log_of_none n l : Forall (λ e, le_src e < n) l → log_of n l = [].
Proof.
  unfold log_of. induction 1 as [|e l He Hl IH]; [done|]. rewrite filter_cons. rewrite decide_False by lia. done.
Qed.

Lemma late_app n l k : late_cmds n (l ++ k) = late_cmds n l ++ late_cmds n k.
Proof. unfold late_cmds. by rewrite filter_app, fmap_app, concat_app. Qed.
Lemma late_self n c : late_cmds n [(n, c)] = c.
Proof. unfold late_cmds. rewrite filter_cons. rewrite decide_True by done. simpl. by rewrite app_nil_r. Qed.
Lemma late_other n m c : m ≠ n → late_cmds m [(n, c)] = [].
Proof. intros H. unfold late_cmds. rewrite filter_cons. rewrite decide_False; [done|]. simpl. congruence. Qed.
Lemma late_none n (l : list (nat * list (request * list string))) :
  Forall (λ o : nat * list (request * list string), o.1 < n) l → late_cmds n l = [].
Proof.
  unfold late_cmds. induction 1 as [|e l He Hl IH]; [done|]. rewrite filter_cons. rewrite decide_False by lia. done.
Qed.

Lemma insert_split {A} (l : list A) k x y : l !! k = Some x →
  ∃ l1 l2, l = l1 ++ x :: l2 ∧ <[k:=y]> l = l1 ++ y :: l2 ∧ delete k l = l1 ++ l2.
Proof.
  intros H. exists (take k l), (drop (S k) l). split_and!.
  - by rewrite take_drop_middle.
  - rewrite <-(take_drop_middle l k x H) at 1. rewrite insert_app_r_alt; rewrite take_length; apply lookup_lt_Some in H; [|lia].
    replace (k - k `min` length l) with 0 by lia. done.
  - apply delete_take_drop.
Qed.

(** Replacing one instance. *)
Lemma upd_inst {A} (xs : list A) n x x' (P : nat → A → Prop) :
  xs !! n = Some x → P n x' → (∀ m y, m ≠ n → xs !! m = Some y → P m y) →
  ∀ m y, <[n := x']> xs !! m = Some y → P m y.
Proof.
  intros Hn Hx Hy m y Hm. apply list_lookup_insert_Some in Hm as [(-> & -> & _)|[Hne Hm]]; [done|]. apply Hy; [|done]. congruence.
Qed.

Lemma sendable_lstep cfg i i' c h c' h' :
  lstep cfg redis_begin i i' → AllSendable (RInst i' c' h') → AllSendable (RInst i c h).
Proof.
  intros Hl Ha cl (j & Hj)%elem_of_list_lookup. cbn [rx_inst] in *.
  destruct (lstep_calls_grow _ _ _ _ j cl Hl Hj) as (cl' & l & Hj' & E & _). rewrite <-E.
  apply Ha. by eapply elem_of_list_lookup_2.
Qed.

Lemma batch_sendable cfg x c :
  inst_ok rc_batch no_undel cfg (rx_hist x) (rx_inst x) → AllSendable x → in_out (rx_inst x) = OStore c →
  Forall (λ q, Sendable (rq_update q)) (rc_batch c).
Proof.
  intros Hok Ha Eo. apply Forall_forall. intros q Hq.
  destruct (req_in_call _ _ _ _ _ q Hok) as (cl & Hcl & Hu).
  { apply elem_of_app. right. rewrite Eo. done. }
  apply elem_of_list_lookup_2, Ha in Hcl. rewrite Forall_forall in Hcl. by apply Hcl.
Qed.

Lemma rx_ok_local cfg os lg n x i' :
  rx_ok cfg os lg n x → lstep cfg redis_begin (rx_inst x) i' →
  rx_ok cfg os lg n (RInst i' (rx_cursor x) (rx_hist x)).
Proof.
  intros [H1 H2 H3 H4] Hl. destruct (lstep_out _ _ _ Hl) as [E|[Hno Hst]].
  - split; cbn [rx_inst rx_hist]; rewrite ?E; try done.
    + eapply (lstep_ok redis_begin); [done|done|exact Hl|done].
    + intros Ha. apply H4. destruct x. by eapply sendable_lstep.
  - assert (Ec : out_cmds (in_out (rx_inst x)) = [] ∧ out_batch (in_out (rx_inst x)) = [] ∧ flight_acks (in_out (rx_inst x)) = []).
    { destruct (in_out (rx_inst x)); done. }
    destruct Ec as (Ec1 & Ec2 & Ec3). rewrite Ec1, Ec2 in H3. rewrite Ec3 in H4.
    cbn [fmap list_fmap] in H3. rewrite !app_nil_r in H3.
    split; cbn [rx_inst rx_hist].
    + eapply (lstep_ok redis_begin); [done|done|exact Hl|done].
    + intros c Ec. destruct Hst as [Hst|[b Eb]]; [by rewrite Ec in Hst|].
      rewrite Ec in Eb. injection Eb as ->. simpl. split; [lia|done].
    + destruct Hst as [Hst|[b Eb]].
      * assert (out_cmds (in_out i') = [] ∧ out_batch (in_out i') = []) as [-> ->] by (by destruct (in_out i')).
        cbn [fmap list_fmap]. by rewrite !app_nil_r.
      * rewrite Eb. cbn [out_cmds out_batch redis_begin rc_cmds rc_batch].
        rewrite app_assoc. apply submseteq_app; [done|]. apply sublist_submseteq, cmds_of_sublist.
    + intros Ha. assert (flight_acks (in_out i') = []) as ->.
      { destruct Hst as [Hst|[b Eb]]; [by destruct (in_out i')|]. rewrite Eb. simpl. by destruct (cmds_of b). }
      apply H4. destruct x. by eapply sendable_lstep.
Qed.

Lemma rx_ok_frame cfg os lg os' lg' n x :
  rx_ok cfg os lg n x → log_of n lg' = log_of n lg → late_cmds n os' = late_cmds n os → rx_ok cfg os' lg' n x.
Proof. intros [H1 H2 H3 H4] E1 E2. split; rewrite ?E1, ?E2; done. Qed.

Lemma inst_ok_frame cfg h x o :
  inst_ok rc_batch no_undel cfg h x → out_reqs rc_batch o = out_reqs rc_batch (in_out x) → out_results no_undel o = out_results no_undel (in_out x) →
  o ≠ OCrash → inst_ok rc_batch no_undel cfg h (set_out o x).
Proof.
  intros [I1 I2 I3 I4 I5 I6] E1 E2 Ho. split; cbn [set_out in_calls in_out in_cache in_events]; rewrite ?E1, ?E2; try done.
  intros i cl Hi. eapply call_ok_ext; [by apply I1| | |]; by rewrite ?E1, ?E2.
Qed.

Lemma zip_snoc_drop {A B} (l : list A) : ∀ (ks : list B) a l' k,
  drop (length ks) l = a :: l' → zip l (ks ++ [k]) = zip l ks ++ [(a, k)].
Proof.
  induction l as [|x l IH]; intros ks a l' k H; [by rewrite drop_nil in H|].
  destruct ks as [|k' ks]; simpl in *; [injection H as -> ->; by destruct l'|]. f_equal. by eapply IH.
Qed.

(** One more reply. *)
Lemma rx_ok_reply cfg os lg n x b q c cmds rs r lg' :
  rx_ok cfg os lg n x → in_out (rx_inst x) = OStore (RedisCall b ((q, c) :: cmds) rs) →
  lg' = match r with Some i => lg ++ [LogEnt i q n] | None => lg end →
  rx_ok cfg os lg' n (RInst (set_out (OStore (RedisCall b cmds (rs ++ [r]))) (rx_inst x)) (rx_cursor x) (rx_hist x)).
Proof.
  intros [H1 H2 H3 H4] Eo ->. destruct (H2 _ Eo) as [Hlen Hdrop]. cbn [rc_replies rc_cmds rc_batch] in Hlen, Hdrop.
  assert (Hlt : length rs < length (cmds_of b)).
  { apply (f_equal length) in Hdrop. rewrite drop_length in Hdrop. simpl in Hdrop. lia. }
  split; cbn [rx_inst rx_hist].
  - apply inst_ok_frame; rewrite ?Eo; done.
  - intros c' [= <-]. cbn [rc_replies rc_cmds rc_batch]. rewrite app_length. simpl. split; [lia|].
    rewrite <-drop_drop, Hdrop. done.
  - cbn [set_out in_out out_cmds out_batch rc_cmds rc_batch]. rewrite Eo in H3. cbn [out_cmds out_batch rc_cmds rc_batch] in H3.
    cbn [fmap list_fmap fst] in H3. destruct r as [i|].
    + rewrite log_of_app, log_of_self, map_app. cbn [map le_req]. etrans; [|exact H3].
      rewrite <-!app_assoc. apply submseteq_app; [done|]. simpl. by rewrite Permutation_middle.
    + etrans; [|exact H3]. apply submseteq_app; [done|]. apply submseteq_app; [done|]. by apply submseteq_cons.
  - intros Ha. cbn [set_out in_out flight_acks rc_replies rc_batch]. rewrite Eo in H4. cbn [flight_acks rc_replies rc_batch] in H4.
    rewrite (zip_snoc_drop _ _ _ _ _ Hdrop), omap_app', app_assoc. specialize (H4 Ha). destruct r as [i|].
    + rewrite log_of_app, log_of_self, map_app. by apply sublist_app.
    + simpl. by rewrite app_nil_r.
Qed.

Lemma rx_ok_finish cfg os lg n x b cmds rs0 rs os' :
  rx_ok cfg os lg n x → in_out (rx_inst x) = OStore (RedisCall b cmds rs0) →
  rs = [] ∨ (rs = rs0 ∧ cmds = []) →
  (late_cmds n os').*1 `sublist_of` (late_cmds n os).*1 ++ cmds.*1 →
  rx_ok cfg os' lg n (finish_send b rs x).
Proof.
  intros [H1 H2 H3 H4] Eo Hrs Hos. destruct (H2 _ Eo) as [Hlen Hdrop]. cbn [rc_replies rc_cmds rc_batch] in Hlen, Hdrop.
  pose proof (redis_results_length b rs) as Hl.
  assert (Eo' : ∃ l, in_out (rx_inst (finish_send b rs x)) = ODeliver l).
  { unfold finish_send, set_out, to_deliver. cbn [rx_inst in_out]. rewrite distribute_zip by lia. by eexists. }
  destruct Eo' as [l Eo']. rewrite Eo in H3, H4. cbn [out_cmds out_batch rc_cmds rc_batch] in H3.
  split.
  - by eapply finish_ok.
  - intros c Hc. by rewrite Eo' in Hc.
  - rewrite Eo'. cbn [out_cmds out_batch]. cbn [fmap list_fmap]. rewrite !app_nil_r.
    unfold finish_send. cbn [rx_hist]. rewrite fmap_app, zip_fst_all by done.
    etrans; [|exact H3]. apply submseteq_app; [done|]. by apply sublist_submseteq.
  - intros Ha. rewrite Eo'. cbn [flight_acks]. rewrite app_nil_r. specialize (H4 Ha).
    unfold finish_send. cbn [rx_hist]. unfold acked in *. rewrite omap_app'.
    change (omap ack1 (zip b (redis_results b rs))) with (acked (zip b (redis_results b rs))).
    destruct Hrs as [->|[-> ->]].
    + rewrite acked_broken, app_nil_r. etrans; [|exact H4]. by apply sublist_inserts_r.
    + rewrite acked_results; [exact H4|]. pose proof (batch_sendable _ _ _ H1 Ha Eo) as Hs. exact Hs.
Qed.

Lemma late_insert n m k os (cmds : list (request * list string)) qc :
  os !! k = Some (n, qc :: cmds) →
  late_cmds m (<[k:=(n, cmds)]> os) = late_cmds m os ∧ m ≠ n ∨
  m = n ∧ ∃ l1 l2, late_cmds n os = l1 ++ qc :: l2 ∧ late_cmds n (<[k:=(n, cmds)]> os) = l1 ++ l2.
Proof.
  intros Hk. destruct (insert_split os k _ (n, cmds) Hk) as (l1 & l2 & -> & -> & _).
  destruct (decide (m = n)) as [->|Hne].
  - right. split; [done|]. exists (late_cmds n l1), (cmds ++ late_cmds n l2).
    rewrite !(late_app _ l1).
    change ((n, qc :: cmds) :: l2) with ([(n, qc :: cmds)] ++ l2). change ((n, cmds) :: l2) with ([(n, cmds)] ++ l2).
    rewrite !late_app, !late_self. done.
  - left. split; [|done]. rewrite !(late_app _ l1).
    change ((n, qc :: cmds) :: l2) with ([(n, qc :: cmds)] ++ l2). change ((n, cmds) :: l2) with ([(n, cmds)] ++ l2).
    rewrite !late_app, !late_other by done. done.
Qed.

Lemma late_delete m k (os : list (nat * list (request * list string))) : late_cmds m (delete k os) `sublist_of` late_cmds m os.
Proof.
  destruct (os !! k) as [o|] eqn:Hk; [|by rewrite delete_take_drop, drop_ge, app_nil_r, take_ge by (apply lookup_ge_None in Hk; lia)].
  destruct (insert_split os k _ o Hk) as (l1 & l2 & -> & _ & ->). destruct o as [n c].
  change ((n, c) :: l2) with ([(n, c)] ++ l2). rewrite !late_app.
  apply sublist_app; [done|]. by apply sublist_inserts_l.
Qed.

Lemma rx_ok_shrink cfg os lg os' n x :
  rx_ok cfg os lg n x → late_cmds n os' `sublist_of` late_cmds n os → rx_ok cfg os' lg n x.
Proof.
  intros [H1 H2 H3 H4] Hs. split; try done. etrans; [|exact H3].
  apply submseteq_app; [done|]. apply submseteq_app; [|done]. apply sublist_submseteq. by apply fmap_sublist.
Qed.

Lemma elem_of_delete {A} (l : list A) k x : x ∈ delete k l → x ∈ l.
Proof. rewrite delete_take_drop. intros [H|H]%elem_of_app; [by eapply elem_of_take in H as (?&?%elem_of_list_lookup_2&_)|].
  by eapply sublist_elem; [apply sublist_drop|]. Qed.

Lemma ystep_inv cfg s s' : ystep cfg s s' → yinv cfg s → yinv cfg s'.
Proof.
  destruct 1 as [xs s os lg ts|xs s os lg ts n x i' Hx Hl|xs s os lg ts n x b q c cmds rs ms Hx Eo
    |xs s os lg ts n x b q c cmds rs Hx Eo|xs s os lg ts n x b rs now Hx Eo|xs s os lg ts n x b cmds rs Hx Eo
    |xs s os lg ts k n q c cmds ms Hk|xs s os lg ts k n now Hk|xs s os lg ts k o Hk|xs s os lg ts n x ok Hx Hp];
    intros [H1 H2 H3 [H4 H5]]; cbn [ry_insts ry_log ry_orphans] in *.
  - split; cbn [ry_insts ry_log ry_orphans].
    + intros n x Hn. apply lookup_app_Some in Hn as [Hn|[Hge Hn]]; [auto|].
      apply list_lookup_singleton_Some in Hn as [Hn0 <-]. assert (n = length xs) as -> by lia.
      split; cbn [rinst0 rx_hist rx_inst].
      * split; try done; simpl; try constructor. 
      * done.
      * rewrite log_of_none, late_none by done. done.
      * intros _. rewrite log_of_none by done. done.
    + rewrite app_length. eapply Forall_impl; [exact H2|]. simpl. lia.
    + rewrite app_length. eapply Forall_impl; [exact H3|]. simpl. lia.
    + split; [|done]. intros n x q c Hn. apply lookup_app_Some in Hn as [Hn|[Hge Hn]]; [eauto|].
      apply list_lookup_singleton_Some in Hn as [Hn0 <-]. by intros ?%elem_of_nil.
  - split; cbn [ry_insts ry_log ry_orphans]; rewrite ?insert_length; try done.
    + eapply (upd_inst xs n x _ (λ m y, rx_ok cfg os lg m y)); [done| |auto]. by apply rx_ok_local; [apply H1|].
    + split; [|done]. intros m y q c. revert m y.
      apply (upd_inst xs n x _ (λ m y, (q, c) ∈ out_cmds (in_out (rx_inst y)) → redis_encode (rq_update q) = inr c)); [done| |eauto].
      cbn [rx_inst]. destruct (lstep_out _ _ _ Hl) as [->|[_ [Hst|[b ->]]]]; [by eapply H4| |].
      * destruct (in_out i'); try done; by intros ?%elem_of_nil.
      * cbn. apply cmds_of_encode.
  - split; cbn [ry_insts ry_log ry_orphans]; rewrite ?insert_length; try done.
    + eapply (upd_inst xs n x _ (λ m y, rx_ok cfg os (lg ++ [LogEnt (xadd s ms c).2 q n]) m y)); [done| |].
      * eapply rx_ok_reply; [by apply H1|exact Eo|done].
      * intros m y Hm Hy. eapply rx_ok_frame; [by apply H1| |done]. by rewrite log_of_app, log_of_other, app_nil_r.
    + apply Forall_app. split; [done|]. constructor; [|done]. by eapply lookup_lt_Some.
    + split; [|done]. intros m y q' c'. revert m y.
      apply (upd_inst xs n x _ (λ m y, (q', c') ∈ out_cmds (in_out (rx_inst y)) → redis_encode (rq_update q') = inr c')); [done| |eauto].
      cbn. intros Hin. eapply H4; [exact Hx|]. rewrite Eo. cbn. by right.
  - split; cbn [ry_insts ry_log ry_orphans]; rewrite ?insert_length; try done.
    + eapply (upd_inst xs n x _ (λ m y, rx_ok cfg os lg m y)); [done| |auto].
      by eapply (rx_ok_reply cfg os lg n x b q c cmds rs None); [apply H1| |].
    + split; [|done]. intros m y q' c'. revert m y.
      apply (upd_inst xs n x _ (λ m y, (q', c') ∈ out_cmds (in_out (rx_inst y)) → redis_encode (rq_update q') = inr c')); [done| |eauto].
      cbn. intros Hin. eapply H4; [exact Hx|]. rewrite Eo. cbn. by right.
  - split; cbn [ry_insts ry_log ry_orphans]; rewrite ?insert_length; try done.
    + eapply (upd_inst xs n x _ (λ m y, rx_ok cfg os lg m y)); [done| |auto].
      eapply rx_ok_finish; [by apply H1|exact Eo|by right|]. by apply sublist_inserts_r.
    + split; [|done]. intros m y q' c'. revert m y.
      apply (upd_inst xs n x _ (λ m y, (q', c') ∈ out_cmds (in_out (rx_inst y)) → redis_encode (rq_update q') = inr c')); [done| |eauto].
      cbn. unfold to_deliver. destruct (distribute _ _); by intros ?%elem_of_nil.
  - split; cbn [ry_insts ry_log ry_orphans]; rewrite ?insert_length; try done.
    + eapply (upd_inst xs n x _ (λ m y, rx_ok cfg (os ++ [(n, cmds)]) lg m y)); [done| |].
      * eapply rx_ok_finish; [by apply H1|exact Eo|by left|]. by rewrite late_app, late_self, fmap_app.
      * intros m y Hm Hy. eapply rx_ok_frame; [by apply H1|done|]. by rewrite late_app, late_other, app_nil_r.
    + apply Forall_app. split; [done|]. constructor; [|done]. by eapply lookup_lt_Some.
    + split.
      * intros m y q' c'. revert m y.
        apply (upd_inst xs n x _ (λ m y, (q', c') ∈ out_cmds (in_out (rx_inst y)) → redis_encode (rq_update q') = inr c')); [done| |eauto].
        cbn. unfold to_deliver. destruct (distribute _ _); by intros ?%elem_of_nil.
      * intros o q' c' [Ho|Ho]%elem_of_app; [eauto|]. apply elem_of_list_singleton in Ho as ->. cbn [snd].
        intros Hin. eapply H4; [exact Hx|]. by rewrite Eo.
  - assert (Hn : n < length xs).
    { apply elem_of_list_lookup_2 in Hk. rewrite Forall_forall in H3. by apply (H3 _ Hk). }
    split; cbn [ry_insts ry_log ry_orphans]; try done.
    + intros m y Hy. specialize (H1 m y Hy). destruct (late_insert n m k os cmds (q, c) Hk) as [[E Hne]|[-> (l1 & l2 & E1 & E2)]].
      * eapply rx_ok_frame; [exact H1| |done]. by rewrite log_of_app, log_of_other, app_nil_r.
      * destruct H1 as [A1 A2 A3 A4]. split; try done.
        -- rewrite E2, log_of_app, log_of_self, map_app. etrans; [|exact A3]. rewrite E1.
           rewrite !fmap_app. cbn [map fmap list_fmap fst le_req]. rewrite <-!app_assoc.
           apply submseteq_app; [done|]. simpl. by rewrite Permutation_middle.
        -- intros Ha. rewrite log_of_app, map_app. apply sublist_inserts_r. by apply A4.
    + apply Forall_app. split; [done|]. by constructor.
    + apply Forall_insert; [done|]. done.
    + split; [done|]. intros o q' c' Ho Hin. apply elem_of_list_lookup in Ho as [j Hj].
      apply list_lookup_insert_Some in Hj as [(-> & <- & _)|[_ Hj]].
      * eapply H5; [by eapply elem_of_list_lookup_2|]. cbn in *. by right.
      * eapply H5; [by eapply elem_of_list_lookup_2|done].
  - split; cbn [ry_insts ry_log ry_orphans]; try done.
    + intros m y Hy. eapply rx_ok_shrink; [by apply H1|]. apply late_delete.
    + apply Forall_forall. intros o Ho%elem_of_delete. rewrite Forall_forall in H3. auto.
    + split; [done|]. intros o q' c' Ho%elem_of_delete. eauto.
  - split; cbn [ry_insts ry_log ry_orphans]; try done.
    + intros m y Hy. eapply rx_ok_shrink; [by apply H1|]. apply late_delete.
    + apply Forall_forall. intros o' Ho%elem_of_delete. rewrite Forall_forall in H3. auto.
    + split; [done|]. intros o' q' c' Ho%elem_of_delete. eauto.
  - assert (Ein : in_out (rx_inst (poll_redis cfg s ok x)) = in_out (rx_inst x) ∧ rx_hist (poll_redis cfg s ok x) = rx_hist x ∧
                  in_calls (rx_inst (poll_redis cfg s ok x)) = in_calls (rx_inst x) ∧
                  inst_ok rc_batch no_undel cfg (rx_hist x) (rx_inst (poll_redis cfg s ok x))).
    { destruct (H1 n x Hx) as [[I1 I2 I3 I4 I5 I6] _ _ _]. unfold poll_redis. destruct (redis_get _ _ _ _) as [[us|] c]; split_and!; try done; by split. }
    destruct Ein as (E1 & E2 & E3 & E4).
    split; cbn [ry_insts ry_log ry_orphans]; rewrite ?insert_length; try done.
    + eapply (upd_inst xs n x _ (λ m y, rx_ok cfg os lg m y)); [done| |auto].
      destruct (H1 n x Hx) as [A1 A2 A3 A4]. split; rewrite ?E1, ?E2; try done.
      intros Ha. apply A4. unfold AllSendable in *. by rewrite E3 in Ha.
    + split; [|done]. intros m y q' c'. revert m y.
      apply (upd_inst xs n x _ (λ m y, (q', c') ∈ out_cmds (in_out (rx_inst y)) → redis_encode (rq_update q') = inr c')); [done| |eauto].
      rewrite E1. by eapply H4.
Qed.

Lemma yinv0 cfg : yinv cfg rsys0.
Proof. split; simpl; try done. split; [done|]. by intros o q c ?%elem_of_nil. Qed.

Lemma yreach_inv cfg s : yreach cfg s → yinv cfg s.
Proof.
  revert s. apply (rtc_ind_r (λ s, yinv cfg s)); [apply yinv0|]. intros s s' _ Hs. by apply ystep_inv.
Qed.
