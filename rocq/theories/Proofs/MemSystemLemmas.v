(** The instance with the in-memory store: invariants (Model/System.v). *)
From Coq Require Import Ascii String ZArith NArith Lia ZifyBool ZifyN Sorting.
From stdpp Require Import prelude strings gmap relations.
From Verif.Model Require Import GoStrings Types Proto Cache Replica Handlers MemRepl Queues System.
From Verif.Spec Require Import IdSpec CacheSpec SystemSpec.
From Verif.Proofs Require Import StringLemmas MemLemmas RedisReadLemmas HistoryLemmas HistoryMore InstLemmas.
Local Open Scope Z_scope.

Definition mc_undel (m : mem_call) : list (nat * response) := zip (map rq_chan (mc_batch m)) (mc_done m).

Definition answered_by (e : sent) : request * response := (sn_req e, sn_resp e).

Definition own (e : sent) : Prop :=
  r_err (sn_resp e) = None ∧ sn_upd e = AsStored (rq_update (sn_req e)) (r_result (sn_resp e)).

(** The update being written to the channel, as it will appear in the history. *)
Definition offered (o : out_pc mem_call) : list sent :=
  match o with
  | OStore m => match mc_todo m, mc_offer m with q :: _, Some (u, r) => [Sent q r u] | _, _ => [] end
  | _ => []
  end.

Definition mc_ok (o : out_pc mem_call) : Prop :=
  match o with
  | OStore m =>
      mc_batch m ≠ [] ∧ (length (mc_done m) <= length (mc_batch m))%nat ∧
      drop (length (mc_done m)) (mc_batch m) = mc_todo m ∧ (mc_todo m = [] → mc_offer m = None)
  | _ => True
  end.

Definition ids_ok (m : mem_state) (t : instant) (ids : list string) : Prop :=
  ∃ ps, ids = map id_text ps ∧ StronglySorted LexLt ps ∧ Forall (λ p, 0 <= p.1 ∧ 0 <= p.2) ps ∧
    Forall (λ p, p = st_pair m ∨ LexLt p (st_pair m)) ps ∧
    0 <= unix_secs (mr_ts m) ∧ unix_secs (mr_ts m) <= unix_secs t ∧ 0 <= mr_count m.

Record minv (cfg : config) (s : msys) : Prop := {
  mi_inst : inst_ok mc_todo mc_undel cfg (map answered_by (ms_hist s)) (ms_inst s);
  mi_call : mc_ok (in_out (ms_inst s));
  mi_own : Forall own (ms_hist s ++ offered (in_out (ms_inst s)));
  mi_ids : ids_ok (ms_store s) (ms_clock s)
             (map (λ e, r_result (sn_resp e)) (ms_hist s ++ offered (in_out (ms_inst s))));
  mi_read : map sn_upd (ms_hist s) = read_so_far (ms_inst s);
  mi_poll : in_poll (ms_inst s) ≠ PCrash
}.

Lemma mem_begin_offered b : offered (OStore (mem_begin b)) = [].
Proof. by destruct b. Qed.

Lemma after_select_offered thr b e :
  offered (after_select mem_begin (q_step thr (QState b []) e)) = [] ∧
  mc_ok (after_select mem_begin (q_step thr (QState b []) e)).
Proof.
  destruct (after_select_cases mem_begin thr b e) as [[-> _]|[Hne ->]]; [done|].
  rewrite mem_begin_offered. split; [done|]. cbn. split_and!; [done|lia|done|done].
Qed.

Lemma lstep_offered cfg x x' : lstep cfg mem_begin x x' → mc_ok (in_out x) →
  offered (in_out x') = offered (in_out x) ∧ mc_ok (in_out x') ∧ (in_poll x ≠ PCrash → in_poll x' ≠ PCrash).
Proof.
  destruct 1; cbn [in_out in_poll]; intros Hok; try done;
    match goal with |- context [after_select _ ?q] => idtac end;
    destruct (after_select_offered (cfg_out_threshold cfg) b) with (e := QReq (Request u i)) as [E1 E2] ||
    destruct (after_select_offered (cfg_out_threshold cfg) b) with (e := QTimeout) as [E1 E2];
    by rewrite E1.
Qed.

Lemma ids_ok_snoc m t ids u t1 t2 u' r m' :
  ids_ok m t ids → t <= t1 → t1 <= t2 → mem_send1 m u (t1, t2) = (u', r, m') →
  ids_ok m' t2 (ids ++ [r_result r]).
Proof.
  intros (ps & -> & Hs & Hp & Hl & H0 & Ht & Hc) H1 H2 E. apply mem_send1_eq in E as (Eg & _ & _).
  destruct (get_repl_id_step _ _ _ _ Eg) as (Hlt & H0' & Hc' & Hle); try done.
  { simpl. transitivity (unix_secs t); [done|]. by apply unix_secs_mono. }
  { simpl. by apply unix_secs_mono. }
  apply get_repl_id_pair in Eg.
  assert (Hall : Forall (λ p, LexLt p (st_pair m')) ps).
  { eapply Forall_impl; [exact Hl|]. intros p [->|Hp']; [done|]. by eapply LexLt_trans. }
  exists (ps ++ [st_pair m']). rewrite map_app. simpl. rewrite Eg. split_and!; try done.
  - clear -Hs Hall. induction Hs as [|p ps Hs IH Hp]; simpl; [repeat constructor|].
    apply Forall_cons in Hall as [Ha1 Ha2]. constructor; [auto|]. apply Forall_app. split; [done|by constructor].
  - apply Forall_app. split; [done|]. constructor; [|done]. done.
  - apply Forall_app. split; [|by constructor; [left|]].
    eapply Forall_impl; [exact Hall|]. by right.
Qed.

Lemma distribute_zip b : ∀ rs, (length rs <= length b)%nat → distribute b rs = Some (zip (map rq_chan b) rs).
Proof.
  induction b as [|q b IH]; intros [|r rs] Hl; simpl in *; try done; [lia|].
  by rewrite IH by lia.
Qed.

Lemma zip_snoc_nth {A} (l : list request) (ds : list A) q todo d :
  drop (length ds) l = q :: todo → zip (map rq_chan l) (ds ++ [d]) = zip (map rq_chan l) ds ++ [(rq_chan q, d)].
Proof.
  revert ds. induction l as [|x l IH]; intros ds H; [by rewrite drop_nil in H|].
  destruct ds as [|d' ds]; simpl in *.
  - injection H as -> ->. by destruct (map rq_chan todo).
  - by rewrite IH.
Qed.

Lemma minv0 cfg t0 : 0 <= t0 → minv cfg (msys0 t0).
Proof.
  intros H. split; simpl; try done.
  - split; simpl; try done; constructor.
  - exists []. simpl. split_and!; try done; try constructor. unfold unix_secs, giga. apply Z.div_pos; lia.
Qed.

Lemma mstep_inv cfg s s' : mstep cfg s s' → minv cfg s → minv cfg s'.
Proof.
  destruct 1 as [x x' m t h Hl|cs b ds q todo p st x c ev m t h t1 t2 u r m' H1 H2 E
    |cs b ds q todo u r l st x c ev m t h|cs b ds p st x c ev m t h|cs o l st x c ev m t h];
    intros [Hi Hc Ho Hd Hr Hp]; cbn [ms_inst ms_store ms_clock ms_hist in_out in_poll] in *.
  - destruct (lstep_offered _ _ _ Hl Hc) as (E1 & E2 & E3).
    split; cbn [ms_inst ms_store ms_clock ms_hist]; rewrite ?E1; try done; [| |auto].
    + eapply (lstep_ok mem_begin); [done| |done|done]. by intros [].
    + rewrite Hr. symmetry. by eapply lstep_read.
  - (* id *)
    cbn [offered mc_todo mc_offer] in *. rewrite app_nil_r in *. destruct Hc as (Hc1 & Hc2 & Hc3 & _). cbn [mc_batch mc_done mc_todo] in *.
    split; cbn [ms_inst ms_store ms_clock ms_hist in_out in_poll]; try done.
    + destruct Hi as [I1 I2 I3 I4 I5 I6]. split; simpl in *; try done.
      intros j cl Hj. apply (call_ok_ext _ _ _ _ _ _ _ _ _ (I1 j cl Hj)); done.
    + cbn [offered mc_todo mc_offer]. apply Forall_app. split; [done|]. constructor; [|done].
      apply mem_send1_eq in E as (_ & E1 & E2). split; [done|]. cbn [sn_upd sn_resp sn_req]. rewrite E2.
      unfold AsStored. done.
    + cbn [offered mc_todo mc_offer]. rewrite map_app. cbn [map sn_resp]. by eapply ids_ok_snoc.
  - (* give *)
    destruct Hc as (Hc1 & Hc2 & Hc3 & Hc4). cbn [mc_batch mc_done mc_todo mc_offer offered] in *.
    assert (Hlt : (length ds < length b)%nat).
    { apply (f_equal length) in Hc3. rewrite drop_length in Hc3. simpl in Hc3. lia. }
    split; cbn [ms_inst ms_store ms_clock ms_hist in_out in_poll]; try done.
    + destruct Hi as [I1 I2 I3 I4 I5 I6]. cbn [in_calls in_out in_cache in_events out_reqs out_results mc_todo] in *.
      split; cbn [in_calls in_out in_cache in_events out_reqs out_results mc_todo]; try done.
      * intros j cl Hj. destruct (I1 j cl Hj) as [J1 J2 J3 J4 J5]. cbn [out_reqs out_results mc_todo] in *.
        split; try done; cbn [out_reqs out_results mc_todo].
        -- rewrite <-J3. rewrite map_app, fmap_app, <-app_assoc. done.
        -- unfold mc_undel in *. cbn [mc_batch mc_done] in *. rewrite (zip_snoc_nth _ _ q todo) by done.
           rewrite map_app, of_call_app, results_of_app, !fmap_app, J4. rewrite <-!app_assoc. do 3 f_equal.
           unfold of_call, results_of. cbn [map]. rewrite !filter_cons. cbn [answered_by sn_req sn_resp fst].
           by destruct (decide (rq_chan q = j)).
      * rewrite map_app, fmap_app, <-app_assoc. done.
      * unfold mc_undel in *. cbn [mc_batch mc_done] in *. rewrite (zip_snoc_nth _ _ q todo) by done.
        apply Forall_app. split; [done|]. constructor; [|done]. cbn [fst].
        rewrite Forall_forall in I2. apply I2. apply elem_of_app. right. apply elem_of_list_here.
    + cbn [mc_ok mc_batch mc_done mc_todo mc_offer]. rewrite app_length. cbn [length]. split_and!; [done|lia| |done].
      by rewrite <-drop_drop, Hc3.
    + destruct todo; cbn [offered mc_todo mc_offer]; by rewrite app_nil_r.
    + destruct todo; cbn [offered mc_todo mc_offer]; by rewrite app_nil_r.
    + rewrite map_app, Hr. unfold read_so_far. cbn [in_events in_stream in_poll poll_list map sn_upd].
      by rewrite <-!app_assoc.
  - (* sent *)
    destruct Hc as (Hc1 & Hc2 & Hc3 & Hc4). cbn [mc_batch mc_done mc_todo mc_offer offered] in *.
    rewrite app_nil_r in *. unfold to_deliver. rewrite distribute_zip by done.
    split; cbn [ms_inst ms_store ms_clock ms_hist in_out in_poll offered]; rewrite ?app_nil_r; try done.
    destruct Hi as [I1 I2 I3 I4 I5 I6]. cbn [in_calls in_out in_cache in_events out_reqs out_results mc_todo] in *.
    split; cbn [in_calls in_out in_cache in_events out_reqs out_results mc_todo]; try done.
    intros j cl Hj. apply (call_ok_ext _ _ _ _ _ _ _ _ _ (I1 j cl Hj)); done.
  - split; cbn [ms_inst ms_store ms_clock ms_hist in_out in_poll]; try done.
    destruct Hi as [I1 I2 I3 I4 I5 I6]. split; done.
Qed.

Lemma mreach_inv cfg t0 s : 0 <= t0 → mreach cfg t0 s → minv cfg s.
Proof.
  intros H0. revert s. apply (rtc_ind_r (λ s, minv cfg s)); [by apply minv0|].
  intros s s' _ Hs. by apply mstep_inv.
Qed.
