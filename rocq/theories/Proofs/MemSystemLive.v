(** Progress for the instance with the in-memory store: it can never get stuck. *)
From Coq Require Import Ascii String ZArith NArith Lia ZifyBool ZifyN Sorting.
From stdpp Require Import prelude strings gmap relations.
From Verif.Model Require Import GoStrings Types Proto Cache Replica Handlers MemRepl Queues System.
From Verif.Spec Require Import IdSpec CacheSpec SystemSpec.
From Verif.Proofs Require Import StringLemmas MemLemmas HistoryLemmas HistoryMore InstLemmas MemSystemLemmas MemSystemMore.
Local Open Scope nat_scope.

(** ** Room in the results channels *)
Lemma issues_room cfg us cap : issues cfg us cap → (cap = 0 ∧ length us <= 1) ∨ length us <= cap.
Proof.
  destruct 1 as [now o req us Hc|ids us Hc|ids us Hc|ids|oe r us Hc].
  - left. split; [done|]. destruct req as [t|]; [|done]. unfold create_ticket in Hc.
    destruct (marshal_ticket o (prepare_ticket (cfg_ticket_ttl cfg) now t)) as [w|]; [|done].
    injection Hc as <-. done.
  - right. done.
  - right. done.
  - right. unfold state_updates. by rewrite map_length.
  - right. unfold create_assignments_start in Hc. destruct (ro_assignment r); [|done].
    destruct (marshal_assignment oe a) as [w|]; [|done]. injection Hc as <-.
    unfold assign_updates. rewrite map_length. apply filter_length.
Qed.

(** Some order in which a cycle can visit the cache. *)
Lemma some_orders cfg c (t : instant) : ∃ o, orders_fit cfg o c.
Proof.
  set (vi := (λ k : string, (k, t)) <$> elements (c_inactive c)).
  set (c1 := apply_ops c (mbind (inactive_visit_ops (cfg_ticket_ttl cfg)) vi)).
  exists (CycleOrders vi ((λ k : string, (k, t)) <$> (map_to_list (c_tickets c1)).*1)
                         ((λ k : string, (k, t)) <$> (map_to_list (c_assign c)).*1)).
  assert (Hf : ∀ l : list string, ((λ k : string, (k, t)) <$> l).*1 = l).
  { intros l. rewrite <-list_fmap_compose. apply list_fmap_id. }
  unfold orders_fit. cbv zeta. cbn [v_inactive v_tickets v_assign]. unfold vi. rewrite !Hf. done.
Qed.

(** ** A measure of outstanding work *)
Definition call_w (c : call) : nat := 14 * (length (cl_ups c) - cl_sent c) + length (cl_buf c).
Definition out_w (o : out_pc mem_call) : nat :=
  match o with
  | OCollect b => 13 * length b
  | OStore m => 2 + 10 * length (mc_todo m) + 3 * length (mc_done m) - match mc_offer m with Some _ => 1 | None => 0 end
  | ODeliver l => 1 + 2 * length l
  | OCrash => 0
  end.
Definition poll_w (p : poll_pc) : nat :=
  match p with PGet l => 4 * length l | PPush l => 1 + 2 * length l | PCrash => 0 end.
Definition inst_w (x : inst mem_call) : nat :=
  sum_list (map call_w (in_calls x)) + out_w (in_out x) + poll_w (in_poll x) + length (in_stream x) +
  (if in_expiring x then 1 else 0).

Lemma sum_insert (cs : list call) i cl cl' :
  cs !! i = Some cl → sum_list (map call_w (<[i := cl']> cs)) + call_w cl = sum_list (map call_w cs) + call_w cl'.
Proof.
  revert i. induction cs as [|c cs IH]; intros [|i] H; simpl in *; try done.
  - injection H as ->. lia.
  - specialize (IH i H). lia.
Qed.

Lemma ups_insert (cs : list call) i cl cl' :
  cs !! i = Some cl → cl_ups cl' = cl_ups cl → map cl_ups (<[i := cl']> cs) = map cl_ups cs.
Proof.
  revert i. induction cs as [|c cs IH]; intros [|i] H E; simpl in *; try done.
  - injection H as ->. by rewrite E.
  - f_equal. by apply IH.
Qed.

Definition step_down (cfg : config) (s : msys) : Prop :=
  ∃ s', mstep cfg s s' ∧ inst_w (ms_inst s') < inst_w (ms_inst s) ∧
        map cl_ups (in_calls (ms_inst s')) = map cl_ups (in_calls (ms_inst s)).

Lemma after_select_w thr b e :
  b ++ match e with QReq r => [r] | QTimeout => [] end ≠ [] →
  out_w (after_select mem_begin (q_step thr (QState b []) e)) <= 13 * length (b ++ match e with QReq r => [r] | QTimeout => [] end).
Proof.
  intros Hne. destruct (after_select_cases mem_begin thr b e) as [[-> _]|[_ ->]]; [done|].
  cbn [out_w mem_begin mc_todo mc_done mc_offer length].
  destruct (b ++ match e with QReq r => [r] | QTimeout => [] end); [done|]. cbn [length]. lia.
Qed.

(** The incoming side. *)
Lemma down_incoming cfg s :
  minv cfg s →
  in_expiring (ms_inst s) = true ∨ in_stream (ms_inst s) ≠ [] ∨ in_poll (ms_inst s) ≠ PGet [] →
  step_down cfg s.
Proof.
  intros Hinv H. pose proof (mi_poll _ _ Hinv) as Hpc.
  destruct s as [[cs o p st x c ev] m t h]. cbn [ms_inst in_expiring in_stream in_poll] in *.
  destruct x.
  { destruct (some_orders cfg c t) as [ords Ho]. eexists. split; [eapply M_local, L_expire; exact Ho|].
    split; [|done]. unfold inst_w. cbn. lia. }
  destruct st as [|u st].
  - destruct p as [l|[|u l]|]; [|eexists; split; [eapply M_local, L_pushed|]|eexists; split; [eapply M_local, L_apply_direct|]|done].
    + destruct H as [H|[H|H]]; [done|done|]. destruct l as [|u l]; [done|].
      eexists. split; [eapply M_poll_timeout|]. split; [|done]. unfold inst_w. cbn [ms_inst in_calls in_out in_poll in_stream in_expiring poll_w length]. lia.
    + split; [|done]. unfold inst_w. cbn. lia.
    + split; [|done]. unfold inst_w. cbn. lia.
  - eexists. split; [eapply M_local, L_apply|]. split; [|done]. unfold inst_w. cbn. lia.
Qed.

(** The outgoing side, when the poller is waiting. *)
Lemma down_outgoing cfg s :
  minv cfg s → in_poll (ms_inst s) = PGet [] → in_out (ms_inst s) ≠ OCollect [] → step_down cfg s.
Proof.
  intros Hinv Hp Ho. destruct Hinv as [Hin Hc _ _ _ _].
  destruct s as [[cs o p st x c ev] m t h]. cbn [ms_inst in_expiring in_stream in_poll in_out] in *. subst p.
  destruct o as [b|mc|l|].
  - (* flush *)
    destruct b as [|q b]; [done|]. eexists. split; [eapply M_local, L_out_timeout|]. split; [|done].
    unfold inst_w. cbn [ms_inst in_calls in_out in_poll in_stream in_expiring].
    change (after_select mem_begin (q_step (cfg_out_threshold cfg) (QState (q :: b) []) QTimeout))
      with (OStore (mem_begin (q :: b))).
    cbn [out_w mem_begin mc_todo mc_done mc_offer length]. lia.
  - (* SendUpdates *)
    destruct mc as [b ds todo off]. destruct Hc as (Hc1 & Hc2 & Hc3 & Hc4). cbn [mc_batch mc_done mc_todo mc_offer] in *.
    destruct todo as [|q todo].
    + rewrite Hc4 by done. eexists. split; [eapply M_sent|]. split; [|done].
      unfold to_deliver. rewrite distribute_zip by done. unfold inst_w.
      cbn [ms_inst in_calls in_out in_poll in_stream in_expiring out_w mc_todo mc_done mc_offer length].
      rewrite zip_with_length, map_length. lia.
    + destruct off as [[u r]|].
      * eexists. split; [eapply M_give|]. split; [|done]. unfold inst_w.
        cbn [ms_inst in_calls in_out in_poll in_stream in_expiring out_w mc_todo mc_done mc_offer length poll_w app].
        rewrite app_length. cbn [length]. lia.
      * destruct (mem_send1 m (rq_update q) (t, t)) as [[u r] m'] eqn:E.
        eexists. split; [eapply (M_id _ _ _ _ _ _ _ _ _ _ _ _ t _ t t); [lia|lia|exact E]|]. split; [|done]. unfold inst_w.
        cbn [ms_inst in_calls in_out in_poll in_stream in_expiring out_w mc_todo mc_done mc_offer length poll_w app]. lia.
  - (* handing out *)
    destruct l as [|[i r] l].
    { eexists. split; [eapply M_local, L_delivered|]. split; [|done]. unfold inst_w. cbn. lia. }
    pose proof (ok_results _ _ _ _ _ Hin) as Hre. cbn [in_out out_results in_calls] in Hre.
    apply Forall_cons in Hre as [Hlt _]. cbn [fst] in Hlt.
    destruct (lookup_lt_is_Some_2 _ _ Hlt) as [cl Hcl].
    pose proof (ok_calls _ _ _ _ _ Hin i cl Hcl) as Hok.
    pose proof (call_ok_counts _ _ _ _ _ _ _ Hok) as Hn. cbn [in_out out_results] in Hn.
    rewrite results_hd in Hn by done. cbn [length] in Hn.
    pose proof (ok_sent _ _ _ _ _ _ _ Hok) as Hs. pose proof (ok_issues _ _ _ _ _ _ _ Hok) as His.
    destruct (issues_room _ _ _ His) as [[Hcap Hle]|Hle].
    + eexists. split; [eapply M_local, L_deliver_direct; [exact Hcl|exact Hcap|split; lia]|].
      split; [|by eapply ups_insert]. unfold inst_w. cbn [ms_inst in_calls in_out in_poll in_stream in_expiring out_w length].
      pose proof (sum_insert cs i cl (receive r [] cl) Hcl) as Hsum.
      unfold call_w in Hsum at 2 4. cbn [receive cl_ups cl_sent cl_buf length] in Hsum. lia.
    + eexists. split; [eapply M_local, L_deliver_buffered; [exact Hcl|unfold returned; lia|lia]|].
      split; [|by eapply ups_insert]. unfold inst_w. cbn [ms_inst in_calls in_out in_poll in_stream in_expiring out_w length].
      pose proof (sum_insert cs i cl (buffer r cl) Hcl) as Hsum.
      unfold call_w in Hsum at 2 4. cbn [buffer cl_ups cl_sent cl_buf length] in Hsum. rewrite app_length in Hsum. cbn [length] in Hsum. lia.
  - by destruct (ok_alive _ _ _ _ _ Hin).
Qed.

(** The handlers, when the outgoing queue is waiting for requests. *)
Lemma down_handlers cfg s :
  minv cfg s → in_out (ms_inst s) = OCollect [] → ¬ Forall returned (in_calls (ms_inst s)) → step_down cfg s.
Proof.
  intros Hinv Ho Hnr. destruct Hinv as [Hin _ _ _ _ _].
  destruct s as [[cs o p st x c ev] m t h]. cbn [ms_inst in_expiring in_stream in_poll in_out in_calls] in *. subst o.
  assert (Hdec : ∀ c, Decision (returned c)) by (intros; unfold returned; apply _).
  apply not_Forall_Exists in Hnr; [|done]. apply Exists_exists in Hnr as (cl & Hel & Hret).
  apply elem_of_list_lookup in Hel as [i Hcl].
  pose proof (ok_calls _ _ _ _ _ Hin i cl Hcl) as Hok.
  pose proof (call_ok_counts _ _ _ _ _ _ _ Hok) as Hn. pose proof (ok_sent _ _ _ _ _ _ _ Hok) as Hs.
  cbn [in_out out_results out_reqs] in Hn. unfold reqs_of, results_of in Hn. rewrite !filter_nil in Hn. cbn [length] in Hn.
  destruct (decide (cl_sent cl = length (cl_ups cl))) as [Heq|Hne].
  - destruct (cl_buf cl) as [|r buf] eqn:Eb.
    { exfalso. apply Hret. split; [done|]. cbn [length] in Hn. lia. }
    eexists. split; [eapply M_local, L_receive; [exact Hcl|split; [done|cbn [length] in Hn; lia]|exact Eb]|].
    split; [|by eapply ups_insert]. unfold inst_w. cbn [ms_inst in_calls in_out in_poll in_stream in_expiring out_w length].
    pose proof (sum_insert cs i cl (receive r buf cl) Hcl) as Hsum.
    unfold call_w in Hsum at 2 4. cbn [receive cl_ups cl_sent cl_buf length] in Hsum. rewrite Eb in Hsum. cbn [length] in Hsum. lia.
  - destruct (lookup_lt_is_Some_2 (cl_ups cl) (cl_sent cl)) as [u Hu]; [lia|].
    eexists. split; [eapply M_local, L_accept; [exact Hcl|exact Hu]|].
    split; [|by eapply ups_insert].
    pose proof (after_select_w (cfg_out_threshold cfg) [] (QReq (Request u i)) ltac:(done)) as Hw. cbn [app length] in Hw.
    unfold inst_w. cbn [ms_inst in_calls in_out in_poll in_stream in_expiring].
    pose proof (sum_insert cs i cl (sent_one cl) Hcl) as Hsum.
    unfold call_w in Hsum at 2 4. cbn [sent_one cl_ups cl_sent cl_buf length] in Hsum. cbn [out_w length]. lia.
Qed.

Lemma quiescent_or_down cfg s : minv cfg s → Quiescent (ms_inst s) ∨ step_down cfg s.
Proof.
  intros Hinv. set (x := ms_inst s).
  destruct (decide (in_expiring x = true ∨ in_stream x ≠ [])) as [H|H].
  { right. apply down_incoming; [done|]. unfold x in H. tauto. }
  assert (Hp : in_poll x = PGet [] ∨ in_poll x ≠ PGet []).
  { destruct (in_poll x) as [[|]| |]; auto. }
  destruct Hp as [Hp|Hp]; [|right; apply down_incoming; auto].
  assert (Ho : in_out x = OCollect [] ∨ in_out x ≠ OCollect []).
  { destruct (in_out x) as [[|]| | |]; auto. }
  destruct Ho as [Ho|Ho]; [|right; by apply down_outgoing].
  assert (Hdec : ∀ c, Decision (returned c)) by (intros; unfold returned; apply _).
  destruct (decide (Forall returned (in_calls x))) as [Hr|Hr]; [|right; by apply down_handlers].
  left. split_and!; [done|done|]. unfold on_the_way. rewrite Hp, app_nil_r.
  destruct (in_stream x) eqn:E; [done|]. exfalso. apply H. right. unfold x in *. congruence.
Qed.

Lemma mem_can_finish cfg t0 s :
  (0 <= t0)%Z → mreach cfg t0 s →
  ∃ s', rtc (mstep cfg) s s' ∧ Quiescent (ms_inst s') ∧ map cl_ups (in_calls (ms_inst s')) = map cl_ups (in_calls (ms_inst s)).
Proof.
  intros H0. remember (inst_w (ms_inst s)) as n eqn:En. revert s En.
  induction (lt_wf n) as [n _ IH]. intros s -> Hr.
  destruct (quiescent_or_down cfg s (mreach_inv _ _ _ H0 Hr)) as [Hq|(s1 & Hs & Hlt & Hu)].
  - exists s. split; [constructor|done].
  - destruct (IH _ Hlt s1 eq_refl) as (s' & Hs' & Hq & Hu').
    + eapply rtc_r; [exact Hr|exact Hs].
    + exists s'. split; [by eapply rtc_l|]. split; [done|congruence].
Qed.

Lemma mem_no_crash cfg t0 s : (0 <= t0)%Z → mreach cfg t0 s → in_out (ms_inst s) ≠ OCrash ∧ in_poll (ms_inst s) ≠ PCrash.
Proof.
  intros H0 Hr. destruct (mreach_inv _ _ _ H0 Hr) as [Hin _ _ _ _ Hp]. split; [by eapply ok_alive|done].
Qed.
