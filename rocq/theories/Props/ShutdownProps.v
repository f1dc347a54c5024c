(** C133: instances that are stopped, killed and replaced. *)
From Coq Require Import Ascii String ZArith NArith Lia.
From stdpp Require Import prelude strings gmap relations.
From Verif.Model Require Import GoStrings Types Filter Proto Cache Replica Handlers MemRepl Queues RedisRepl RedisReader System RedisSystem Shutdown.
From Verif.Spec Require Import IdSpec RedisSpec CacheSpec SystemSpec AssignSpec ShutdownSpec.
From Verif.Proofs Require Import ShutdownLemmas.
From Verif.Props Require Import SystemProps RedisSystemProps SessionProps.
Local Open Scope nat_scope.

(** A client that has been given its answers keeps them, and none that was cut off
    gets any later. *)
Theorem C133_answers_stay : ∀ cfg s1 s2 n i c,
  sdreach cfg s1 → rtc (sdstep cfg) s1 s2 → Told s1 n i c → Told s2 n i c ∧ ¬ CutOff s2 n i.
Proof. exact told_exclusive. Qed.
Print Assumptions C133_answers_stay.

Theorem C133_cut_off_for_good : ∀ cfg s1 s2 n i,
  rtc (sdstep cfg) s1 s2 → CutOff s1 n i → ∀ c, ¬ Told s2 n i c.
Proof. exact cut_exclusive. Qed.
Print Assumptions C133_cut_off_for_good.

(** No call comes in once the connections are closed. *)
Theorem C133_no_new_calls : ∀ cfg s n x y, sdreach cfg s → is_Some (sd_life s !! n) → seen s n = Some x →
  ry_insts (sd_sys s) !! n = Some y → length (in_calls (rx_inst y)) = length (in_calls (rx_inst x)).
Proof. exact no_new_calls. Qed.
Print Assumptions C133_no_new_calls.

(** What a client has been told is stored, with an id, stays stored under this id,
    whether the instance that has answered goes on, stops or ends. *)
Theorem C133_acknowledged_is_kept : ∀ cfg s1 s2 n x i c m r,
  sdreach cfg s1 → rtc (sdstep cfg) s1 s2 →
  ry_insts (sd_sys s1) !! n = Some x → AllSendable x → Told s1 n i c → cl_got c !! m = Some r → Good r →
  ∃ u e, cl_ups c !! m = Some u ∧ e ∈ ry_log (sd_sys s2) ∧ le_src e = n ∧ le_req e = Request u i ∧ r_result r = id_text (le_id e).
Proof. exact acknowledged_kept. Qed.
Print Assumptions C133_acknowledged_is_kept.

(** A ticket created through instance [n], then activated through [m], is active in
    the cache of every instance [w] that has applied the history; [n] and [m] may
    have ended, and [w] may have been started after that. *)
Theorem C133_tickets_survive : ∀ cfg s1 s2 n x i ci v r m y j cj p r' w z,
  sdreach cfg s1 → rtc (sdstep cfg) s1 s2 →
  ry_insts (sd_sys s1) !! n = Some x → AllSendable x → Told s1 n i ci → Creates ci v → r ∈ cl_got ci → Good r →
  NotYet (sd_sys s1) m j →
  ry_insts (sd_sys s2) !! m = Some y → AllSendable y → Told s2 m j cj →
  cl_ups cj !! p = Some (Update CmdActivate (r_result r) ""%string) → cl_got cj !! p = Some r' → Good r' →
  ry_insts (sd_sys s2) !! w = Some z → CaughtUp (sd_sys s2) z →
  (∀ v', Update CmdDeactivate (r_result r) v' ∉ history (sd_sys s2)) →
  (∀ e, e ∈ hev_visits (in_events (rx_inst z)) →
        ¬ OlderThan (cfg_ticket_ttl cfg) e.2 (r_result r) ∧ ¬ ExpiredAt e.2 (stored_ticket (r_result r) v)) →
  Active (in_cache (rx_inst z)) (r_result r) ∧
  c_tickets (in_cache (rx_inst z)) !! r_result r = Some (stored_ticket (r_result r) v).
Proof. exact told_survives. Qed.
Print Assumptions C133_tickets_survive.

(** A call whose process has ended takes effect at most once, and only with those of
    its updates that the process had accepted. *)
Theorem C133_cut_off_at_most_once : ∀ cfg s s' n x i c,
  sdreach cfg s → rtc (sdstep cfg) s s' → HasEnded s n → ry_insts (sd_sys s) !! n = Some x →
  in_calls (rx_inst x) !! i = Some c → updates_logged (sd_sys s') n i ⊆+ take (cl_sent c) (cl_ups c).
Proof. exact ended_at_most. Qed.
Print Assumptions C133_cut_off_at_most_once.

(** Once the server has dealt with its connection, nothing more comes from a process
    that has ended. *)
Theorem C133_ended_is_silent : ∀ cfg s s' n i,
  sdreach cfg s → rtc (sdstep cfg) s s' → HasEnded s n → (∀ o, o ∈ ry_orphans (sd_sys s) → o.1 ≠ n) →
  updates_logged (sd_sys s') n i = updates_logged (sd_sys s) n i.
Proof. exact ended_silent. Qed.
Print Assumptions C133_ended_is_silent.

Theorem C133_ended_for_good : ∀ cfg s s' n, rtc (sdstep cfg) s s' → HasEnded s n →
  HasEnded s' n ∧ ry_insts (sd_sys s') !! n = ry_insts (sd_sys s) !! n.
Proof. exact ended_stays. Qed.
Print Assumptions C133_ended_for_good.

(** Whatever has become of the others, an instance that is serving can answer all
    its calls by its own steps alone. *)
Theorem C133_others_go_on : ∀ cfg s n,
  sdreach cfg s → IsServing s n →
  ∃ s' x x', rtc (sdstep cfg) s s' ∧ sd_life s' = sd_life s ∧
    (∀ m, m ≠ n → ry_insts (sd_sys s') !! m = ry_insts (sd_sys s) !! m) ∧
    ry_insts (sd_sys s) !! n = Some x ∧ ry_insts (sd_sys s') !! n = Some x' ∧
    map cl_ups (in_calls (rx_inst x')) = map cl_ups (in_calls (rx_inst x)) ∧ Forall returned (in_calls (rx_inst x')).
Proof. exact others_finish. Qed.
Print Assumptions C133_others_go_on.

(** With the in-memory store, a process that is started in a later second than that
    of the last id does not issue any of the ids again. *)
Theorem C133_ids_after_restart_partial : ∀ cfg t0 s i c r t s' i' c' r',
  (0 <= t0)%Z → mreach cfg t0 s → in_calls (ms_inst s) !! i = Some c → r ∈ cl_got c →
  (0 <= t)%Z → (unix_secs (ms_clock s) < unix_secs t)%Z → rtc (mstep cfg) (restarted t) s' →
  in_calls (ms_inst s') !! i' = Some c' → r' ∈ cl_got c' → r_result r ≠ r_result r'.
Proof. exact restarted_ids. Qed.
Print Assumptions C133_ids_after_restart_partial.

(** ** Runs *)
Section example.
Local Open Scope string_scope.

Local Ltac tidy1 := cbn -[rex_create rex_activate rex_value rex_now rex_id rex_id2 rex_key rex_cache giga apply_update Z.mul Z.add Z.sub cmds_of xtrim_minid
                         redis_results redis_get unix_secs].
Local Ltac tidy :=
  tidy1; repeat (match goal with |- context [(?a <=? Z.of_nat ?b)%Z] =>
    let r := eval vm_compute in (a <=? Z.of_nat b)%Z in change (a <=? Z.of_nat b)%Z with r end; tidy1).
Local Ltac go t := eapply rtc_l; [t|tidy].
Local Ltac loc n t := go ltac:(eapply (Y_local _ _ _ _ _ _ n); [reflexivity|t]).

(** Instance 0 is stopped when Redis has stored the ticket and its answer has not
    arrived. *)
Definition sdx_call : call := Call [rex_create] 0 1 [] [].
Definition sdx_inst : rinst :=
  RInst (Inst [sdx_call] (OStore (RedisCall [Request rex_create 0] [] [Some rex_id])) (PGet []) [] false empty_cache []) (0, 0)%Z [].
Definition sdx_flight : rsys := RSys [sdx_inst] rex_stream1 [] rex_log1 [].

Lemma sdx_reach_flight : yreach rex_cfg sdx_flight.
Proof.
  unfold yreach, rsys0.
  go ltac:(eapply Y_join).
  loc 0 ltac:(eapply L_call, rex_issues).
  loc 0 ltac:(eapply (L_accept _ _ _ _ _ _ _ _ _ 0); reflexivity).
  loc 0 ltac:(eapply L_out_timeout).
  unfold redis_begin. rewrite rex_cmds.
  eapply rtc_l; [eapply (Y_xadd _ _ _ _ _ _ 0 _ _ _ _ _ _ 1700000000123%Z); reflexivity|].
  change (xadd empty_stream 1700000000123 ["ticket"; rex_value]) with (rex_stream1, rex_id). tidy.
  constructor.
Qed.

Definition sdx_stopped : ssys := SSys sdx_flight {[0 := Stopping sdx_inst]}.
Lemma sdx_reach_stopped : sdreach rex_cfg sdx_stopped.
Proof.
  eapply rtc_r; [apply run_serving, sdx_reach_flight|]. by eapply (SD_stop _ _ ∅ 0).
Qed.
Lemma sdx_cut : CutOff sdx_stopped 0 0.
Proof.
  split; [by eexists|]. exists sdx_inst, sdx_call. split; [done|]. split; [done|]. by intros [_ H].
Qed.

(** Stop does not wait for the handlers. *)
Theorem C133_every_call_answered_refuted : ¬ EveryCallAnswered.
Proof.
  intros H. eapply (H rex_cfg sdx_stopped 0 0 sdx_reach_stopped); [|exact sdx_cut]. intros x. by vm_compute.
Qed.
Print Assumptions C133_every_call_answered_refuted.

(** The client gets an error, and the ticket exists. *)
Theorem C133_cut_off_not_done_refuted : ¬ CutOffNotDone.
Proof. intros H. pose proof (H rex_cfg sdx_stopped 0 0 sdx_reach_stopped sdx_cut) as E. by vm_compute in E. Qed.
Print Assumptions C133_cut_off_not_done_refuted.

(** In [rex_mid] a client of instance 0 has created a ticket. Instance 0 is killed. A
    client activates the ticket at instance 1. Instance 1 is killed. Instance 2 is
    started and reads the stream. *)
Definition sdx_mid : ssys := SSys rex_mid {[0 := Ended rex_inst1]}.
Lemma sdx_reach_mid : sdreach rex_cfg sdx_mid.
Proof. eapply rtc_r; [apply run_serving, rex_reach_mid|]. by eapply (SD_kill _ rex_mid ∅ 0 rex_inst1). Qed.

Definition sdx_inst1 : rinst :=
  RInst (Inst [rex_done2] (OCollect []) (PGet []) [] false empty_cache []) (0, 0)%Z [(Request rex_activate 0, Response "1700000000123-1" None)].
Definition sdx_inst2 : rinst :=
  RInst (Inst [] (OCollect []) (PGet []) [] false rex_cache [HUpd rex_seen; HUpd rex_activate]) rex_id2 [].
Definition sdx_act : rsys := RSys [rex_inst1; sdx_inst1] rex_stream2 [] rex_log2 [rex_thr; rex_thr].
Definition sdx_two : ssys := SSys sdx_act {[0 := Ended rex_inst1]}.
Definition sdx_killed : ssys := SSys sdx_act (<[1 := Ended sdx_inst1]> {[0 := Ended rex_inst1]}).
Definition sdx_final : ssys :=
  SSys (RSys [rex_inst1; sdx_inst1; sdx_inst2] rex_stream2 [] rex_log2 [rex_thr; rex_thr]) (<[1 := Ended sdx_inst1]> {[0 := Ended rex_inst1]}).

Lemma sdx_resp1 s s' : ry_insts s' !! 0 = ry_insts s !! 0 → respects {[0 := Ended rex_inst1]} s s'.
Proof.
  intros E. split.
  - intros n y [<- _]%lookup_singleton_Some. done.
  - intros n y a b [_ H]%lookup_singleton_Some. done.
Qed.
Lemma sdx_resp2 s s' : ry_insts s' !! 0 = ry_insts s !! 0 → ry_insts s' !! 1 = ry_insts s !! 1 →
  respects (<[1 := Ended sdx_inst1]> {[0 := Ended rex_inst1]}) s s'.
Proof.
  intros E0 E1. split.
  - intros n y [[<- _]|[_ [<- _]%lookup_singleton_Some]]%lookup_insert_Some; done.
  - intros n y a b [[<- H]|[_ [_ H]%lookup_singleton_Some]]%lookup_insert_Some; done.
Qed.

Local Ltac sgo t := eapply rtc_l; [eapply SD_run; [t|apply sdx_resp1; reflexivity]|tidy].
Local Ltac sloc n t := sgo ltac:(eapply (Y_local _ _ _ _ _ _ n); [reflexivity|t]).
Lemma sdx_reach_two : rtc (sdstep rex_cfg) sdx_mid sdx_two.
Proof.
  unfold sdx_mid, rex_mid.
  sloc 1 ltac:(eapply L_call, rex_issues2).
  sloc 1 ltac:(eapply (L_accept _ _ _ _ _ _ _ _ _ 0); reflexivity).
  sloc 1 ltac:(eapply L_out_timeout).
  unfold redis_begin. rewrite rex_cmds_act.
  eapply rtc_l; [eapply SD_run; [eapply (Y_xadd _ _ _ _ _ _ 1 _ _ _ _ _ _ 1699999999999%Z); reflexivity|apply sdx_resp1; reflexivity]|].
  change (xadd rex_stream1 1699999999999 ["activate"; rex_key]) with (rex_stream2, rex_id2). tidy.
  eapply rtc_l; [eapply SD_run; [eapply (Y_sent _ _ _ _ _ _ 1 _ _ _ rex_now); reflexivity|apply sdx_resp1; reflexivity]|].
  change (unix_secs rex_now - cfg_ticket_ttl rex_cfg)%Z with rex_thr.
  replace (xtrim_minid rex_stream2 rex_thr) with rex_stream2 by (vm_compute; reflexivity).
  unfold finish_send.
  replace (redis_results [Request rex_activate 0] [Some rex_id2]) with [Response "1700000000123-1" None] by (vm_compute; reflexivity).
  tidy.
  sloc 1 ltac:(eapply L_deliver_buffered; [reflexivity|intros [_ ?]; simpl in *; lia|simpl; lia]).
  sloc 1 ltac:(eapply (L_receive _ _ _ _ _ _ _ _ _ 0); [reflexivity|split; simpl; lia|reflexivity]).
  sloc 1 ltac:(eapply L_delivered).
  constructor.
Qed.

Lemma sdx_reach_killed : rtc (sdstep rex_cfg) sdx_two sdx_killed.
Proof. apply rtc_once. by eapply (SD_kill _ sdx_act _ 1 sdx_inst1). Qed.

Local Ltac tgo t := eapply rtc_l; [eapply SD_run; [t|apply sdx_resp2; reflexivity]|tidy].
Local Ltac tloc n t := tgo ltac:(eapply (Y_local _ _ _ _ _ _ n); [reflexivity|t]).
Lemma sdx_reach_final : rtc (sdstep rex_cfg) sdx_killed sdx_final.
Proof.
  unfold sdx_killed, sdx_act.
  tgo ltac:(eapply Y_join).
  eapply rtc_l; [eapply SD_run; [eapply (Y_poll _ _ _ _ _ _ 2 _ true); reflexivity|apply sdx_resp2; reflexivity]|].
  unfold poll_redis. cbn [rx_cursor rinst0 cfg_in_max rex_cfg]. rewrite rex_get. tidy.
  tloc 2 ltac:(eapply L_push; simpl; lia).
  tloc 2 ltac:(eapply L_apply).
  tloc 2 ltac:(eapply L_apply_direct).
  tloc 2 ltac:(eapply L_pushed).
  constructor.
Qed.

(** The ticket outlives both instances that had to do with it. *)
Example C133_example :
  sdreach rex_cfg sdx_mid ∧ rtc (sdstep rex_cfg) sdx_mid sdx_final ∧
  Told sdx_mid 0 0 rex_done1 ∧ Told sdx_final 1 0 rex_done2 ∧ HasEnded sdx_final 0 ∧ HasEnded sdx_final 1 ∧ IsServing sdx_final 2 ∧
  CaughtUp (sd_sys sdx_final) sdx_inst2 ∧ Active (in_cache (rx_inst sdx_inst2)) rex_key.
Proof.
  split; [exact sdx_reach_mid|].
  split; [eapply rtc_transitive; [exact sdx_reach_two|]; eapply rtc_transitive; [exact sdx_reach_killed|exact sdx_reach_final]|].
  split; [exists rex_inst1; split; [reflexivity|]; by split|].
  split; [exists sdx_inst1; split; [reflexivity|]; by split|].
  split; [by eexists|]. split; [by eexists|]. split; [split; [reflexivity|by eexists]|].
  split; [by vm_compute|]. split.
  - vm_compute. by eexists.
  - apply (bool_decide_unpack _). vm_compute. exact I.
Qed.

(** The process of [sdx_stopped] ends; the server has executed all it was sent. *)
Definition sdx_gone : ssys := SSys (disconnect 0 sdx_inst sdx_flight) {[0 := Ended sdx_inst]}.
Example C133_cut_off_example :
  sdreach rex_cfg sdx_gone ∧ HasEnded sdx_gone 0 ∧ CutOff sdx_gone 0 0 ∧ updates_logged (sd_sys sdx_gone) 0 0 = [rex_create].
Proof.
  split.
  { eapply rtc_r; [exact sdx_reach_stopped|].
    replace sdx_gone with (SSys (disconnect 0 sdx_inst sdx_flight) (<[0 := Ended sdx_inst]> {[0 := Stopping sdx_inst]}))
      by (unfold sdx_gone; by rewrite insert_singleton).
    by eapply (SD_end _ sdx_flight _ 0 sdx_inst sdx_inst). }
  split; [by eexists|]. split; [|by vm_compute].
  split; [by eexists|]. exists sdx_inst, sdx_call. split; [done|]. split; [done|]. by intros [_ H].
Qed.

(** ** The in-memory store *)

(** Nothing is kept. *)
Theorem C133_kept_in_memory_refuted : ¬ KeptInMemory.
Proof.
  intros H.
  specialize (H ex_cfg ex_t0 ex_mid 0 ex_create ex_value (Response "1700000000-1" None) (ms_clock ex_mid) (restarted (ms_clock ex_mid))
    ltac:(by vm_compute) ex_reach_mid eq_refl eq_refl (conj eq_refl eq_refl) ltac:(left) (Z.le_refl _) (rtc_refl _ _)).
  assert (Hq : Quiescent (ms_inst (restarted (ms_clock ex_mid)))) by (split; [constructor|done]).
  specialize (H Hq). by apply elem_of_nil in H.
Qed.
Print Assumptions C133_kept_in_memory_refuted.

(** A process that is started within the same second issues the same id for another
    ticket. *)
Definition sdx_again : msys :=
  MSys (Inst [ex_create] (OCollect []) (PGet [Update CmdTicket "1700000000-1" ex_value]) [] false empty_cache [])
       (MemState (ex_t0 + 7)%Z 1) (ex_t0 + 8)%Z
       [Sent (Request (Update CmdTicket "" ex_value) 0) (Response "1700000000-1" None) (Update CmdTicket "1700000000-1" ex_value)].
Local Ltac mgo t := eapply rtc_l; [t|cbn -[ex_value ex_t0 ex_now giga apply_update Z.mul Z.add mem_new]].
Local Ltac mloc t := mgo ltac:(apply M_local; t).
Lemma sdx_reach_again : rtc (mstep ex_cfg) (restarted (ex_t0 + 7)%Z) sdx_again.
Proof.
  unfold restarted, msys0, inst0.
  mloc ltac:(eapply (L_call _ _ _ _ _ _ _ _ _ [Update CmdTicket "" ex_value]);
            eapply (Is_create _ ex_now (TicketOrders [] [] []) (Some ex_ticket)); vm_compute; reflexivity).
  mloc ltac:(eapply (L_accept _ _ _ _ _ _ _ _ _ 0); reflexivity).
  mloc ltac:(eapply L_out_timeout).
  mgo ltac:(eapply (M_id _ _ _ _ _ _ _ _ _ _ _ _ _ _ (ex_t0 + 8)%Z (ex_t0 + 8)%Z (Update CmdTicket "1700000000-1" ex_value)
                     (Response "1700000000-1" None) (MemState (ex_t0 + 7)%Z 1));
           [unfold ex_t0; lia|unfold ex_t0; lia|vm_compute; reflexivity]).
  mgo ltac:(eapply M_give).
  mgo ltac:(eapply M_sent).
  mloc ltac:(eapply L_deliver_direct; [reflexivity|reflexivity|split; simpl; lia]).
  mloc ltac:(eapply L_delivered).
  constructor.
Qed.

Theorem C133_ids_not_reused_in_memory_refuted : ¬ IdsNotReusedInMemory.
Proof.
  intros H.
  refine (H ex_cfg ex_t0 ex_mid 0 ex_create ex_value (Response "1700000000-1" None) (ex_t0 + 7)%Z sdx_again
    0 ex_create ex_value (Response "1700000000-1" None) _ ex_reach_mid eq_refl eq_refl ltac:(left) _ sdx_reach_again eq_refl eq_refl ltac:(left) eq_refl).
  - by vm_compute.
  - cbn [ex_mid ms_clock]. lia.
Qed.
Print Assumptions C133_ids_not_reused_in_memory_refuted.
End example.
