(** C120: a ticket that was handed out in a match, and later snapshots. *)
From Coq Require Import Ascii String ZArith NArith Lia.
From stdpp Require Import prelude strings gmap relations.
From Verif.Model Require Import GoStrings Types Filter Wire Proto Cache Replica Handlers MemRepl Queues RedisRepl RedisReader Snapshot Chunk System RedisSystem Invoke InvokeSystem.
From Verif.Spec Require Import HandlerSpec CacheSpec ChunkSpec RedisSpec SystemSpec EndToEndSpec AssignSpec StateSpec InvokeSpec InvokeSystemSpec.
From Verif.Proofs Require Import InvokeLemmas InvokeSystemLemmas InvokeSystemMore.
From Verif.Props Require Import SystemProps RedisSystemProps EndToEndProps StateProps.
Local Open Scope nat_scope.

(** An invocation alongside a server is an invocation, and the server is a server:
    all theorems about either apply. *)
Theorem C120_invocation_alongside_mem : ∀ cfg wait fns s0 z,
  rtc (im_step cfg wait) (is_init mem_inactive fns s0) z →
  rtc (mstep cfg) s0 (is_server z) ∧ v_later wait (v_init fns (mem_inactive s0)) (is_inv z).
Proof. exact mem_alongside. Qed.
Print Assumptions C120_invocation_alongside_mem.

Theorem C120_invocation_alongside_redis : ∀ cfg m wait fns s0 z,
  rtc (ir_step cfg m wait) (is_init (red_inactive m) fns s0) z →
  rtc (ystep cfg) s0 (is_server z) ∧ v_later wait (v_init fns (red_inactive m s0)) (is_inv z).
Proof. exact red_alongside. Qed.
Print Assumptions C120_invocation_alongside_redis.

(** The claim, with the in-memory store: a ticket was created before [z1]; all
    activations of it, ever, returned before [z1]; after [z1] a function returned a
    match with it, which was sent to the caller, and by [z2] the invocation has
    returned. Then snapshots that begin after [z2] do not contain it. *)
Definition C120_handed_out_once (wait : bool) : Prop :=
  ∀ cfg t0 fns s0 z1 z2 s3 i ci v r ts,
  (0 <= t0)%Z → mreach cfg t0 s0 →
  rtc (im_step cfg wait) (is_init mem_inactive fns s0) z1 → rtc (im_step cfg wait) z1 z2 →
  rtc (mstep cfg) (is_server z2) s3 →
  in_calls (ms_inst (is_server z1)) !! i = Some ci → Creates ci v → r ∈ cl_got ci →
  HandedOut z1 z2 (r_result r) → v_returned (is_inv z2) →
  (∀ i' c', in_calls (ms_inst s3) !! i' = Some c' → SetsState c' (r_result r) true →
     ∃ c1, in_calls (ms_inst (is_server z1)) !! i' = Some c1 ∧ returned c1) →
  SnapshotBetween cfg (ms_inst (is_server z2)) (ms_inst s3) ts →
  ∀ t, t ∈ ts → tk_id t ≠ r_result r.

(** What holds: it is so for snapshots that begin when all updates that the server
    has stored by then have been applied. *)
Theorem C120_handed_out_once_partial : ∀ cfg t0 wait fns s0 z1 z2 s3 i ci v r ts,
  (0 <= t0)%Z → mreach cfg t0 s0 →
  rtc (im_step cfg wait) (is_init mem_inactive fns s0) z1 → rtc (im_step cfg wait) z1 z2 →
  rtc (mstep cfg) (is_server z2) s3 →
  in_calls (ms_inst (is_server z1)) !! i = Some ci → Creates ci v → r ∈ cl_got ci →
  HandedOut z1 z2 (r_result r) →
  (∀ i' c', in_calls (ms_inst s3) !! i' = Some c' → SetsState c' (r_result r) true →
     ∃ c1, in_calls (ms_inst (is_server z1)) !! i' = Some c1 ∧ returned c1) →
  on_the_way (ms_inst (is_server z2)) = [] →
  SnapshotBetween cfg (ms_inst (is_server z2)) (ms_inst s3) ts →
  ∀ t, t ∈ ts → tk_id t ≠ r_result r.
Proof. exact mem_matched_not_offered. Qed.
Print Assumptions C120_handed_out_once_partial.

(** With Redis, for any instance that has applied everything in the stream: it is
    not so. *)
Definition C120_handed_out_once_redis (wait : bool) : Prop :=
  ∀ cfg fns m s0 z1 z2 s3 n x y i ci v r w x2 x3 ts,
  yreach cfg s0 →
  rtc (ir_step cfg m wait) (is_init (red_inactive m) fns s0) z1 → rtc (ir_step cfg m wait) z1 z2 →
  rtc (ystep cfg) (is_server z2) s3 →
  ry_insts (is_server z1) !! n = Some x → AllSendable x →
  in_calls (rx_inst x) !! i = Some ci → Creates ci v → r ∈ cl_got ci → Good r →
  HandedOut z1 z2 (r_result r) → v_returned (is_inv z2) →
  ry_insts (is_server z2) !! m = Some y → AllSendable y →
  (∀ n' x' i' c', ry_insts s3 !! n' = Some x' → in_calls (rx_inst x') !! i' = Some c' → SetsState c' (r_result r) true →
     ∃ x1 c1, ry_insts (is_server z1) !! n' = Some x1 ∧ AllSendable x1 ∧ in_calls (rx_inst x1) !! i' = Some c1 ∧ AllGood c1) →
  ry_insts (is_server z2) !! w = Some x2 → CaughtUp (is_server z2) x2 → ry_insts s3 !! w = Some x3 →
  SnapshotBetween cfg (rx_inst x2) (rx_inst x3) ts →
  ∀ t, t ∈ ts → tk_id t ≠ r_result r.

(** What holds: it is so if the answers to the deactivations were good ones. *)
Theorem C120_handed_out_once_redis_partial : ∀ cfg wait fns m s0 z1 z2 s3 n x y i ci v r w x2 x3 ts,
  yreach cfg s0 →
  rtc (ir_step cfg m wait) (is_init (red_inactive m) fns s0) z1 → rtc (ir_step cfg m wait) z1 z2 →
  rtc (ystep cfg) (is_server z2) s3 →
  ry_insts (is_server z1) !! n = Some x → AllSendable x →
  in_calls (rx_inst x) !! i = Some ci → Creates ci v → r ∈ cl_got ci → Good r →
  HandedOut z1 z2 (r_result r) → DeactivationsStored m z2 →
  ry_insts (is_server z2) !! m = Some y → AllSendable y →
  (∀ n' x' i' c', ry_insts s3 !! n' = Some x' → in_calls (rx_inst x') !! i' = Some c' → SetsState c' (r_result r) true →
     ∃ x1 c1, ry_insts (is_server z1) !! n' = Some x1 ∧ AllSendable x1 ∧ in_calls (rx_inst x1) !! i' = Some c1 ∧ AllGood c1) →
  ry_insts (is_server z2) !! w = Some x2 → CaughtUp (is_server z2) x2 → ry_insts s3 !! w = Some x3 →
  SnapshotBetween cfg (rx_inst x2) (rx_inst x3) ts →
  ∀ t, t ∈ ts → tk_id t ≠ r_result r.
Proof. intros cfg wait fns m. exact (red_matched_not_offered cfg wait fns m). Qed.
Print Assumptions C120_handed_out_once_redis_partial.

(** ** Runs *)
Section example.
Local Open Scope string_scope.
Local Open Scope list_scope.

(** One function, which returns one match with the one ticket [t]. *)
Definition is_match (t : ticket) : match_ := Match "m" {["r" := Roster "r" None [t] ∅]} ∅.
Lemma is_match_ids t : ids_of_match (Some (is_match t)) [tk_id t].
Proof. exists (map_to_list (ma_rosters (is_match t))). split; [reflexivity|]. cbn [is_match ma_rosters]. by rewrite map_to_list_singleton. Qed.
Lemma is_match_in t : TicketIn (Some (is_match t)) (tk_id t).
Proof. apply (ids_tickets _ _ (is_match_ids t)). left. Qed.
Definition is_gor (t : ticket) (p : g_phase) : gor := Gor 0 (Some (is_match t)) [tk_id t] p.
Definition is_running (ina : gset string) : istate :=
  IState InvWaiting FanIdle [(FnGrpc, FnStreaming 1)] [] [] [] [] [] ina 0 false.
Definition is_received (t : ticket) (ina : gset string) : istate :=
  IState InvWaiting FanIdle [(FnGrpc, FnStreaming 2)] [is_gor t (GRequest [tk_id t])] [] [] [] [] ina 0 false.
Definition is_done (t : ticket) (ina : gset string) : istate :=
  IState (InvReturned None) FanIdle [(FnGrpc, FnDone true)] [is_gor t GDone] [] [(0, tk_id t)] [0] [] ina 2 false.

Section runs.
Context {St : Type} (step : St → St → Prop) (calls : St → list call) (inactive : St → gset string) (wait : bool).
Local Notation run := (rtc (is_step step calls inactive wait)).
Local Ltac own t := eapply rtc_l; [eapply IS_own; [t|reflexivity..]|].

Lemma is_run_start s : run (is_init inactive [FnGrpc] s) (ISys s (is_running (inactive s)) []).
Proof.
  own ltac:(eapply V_launch; reflexivity). own ltac:(eapply V_launched; reflexivity).
  own ltac:(eapply (V_run _ 0); reflexivity). apply rtc_refl.
Qed.

Lemma is_run_match s s' s2 t c : step s s' → calls s' = calls s ++ [match_call [tk_id t]] →
  rtc step s' s2 → calls s2 !! length (calls s) = Some c → returned c →
  run (ISys s (is_running (inactive s)) []) (ISys s2 (is_done t (inactive s2)) [length (calls s)]).
Proof.
  intros Hs Hc Hrun Hc2 Hret.
  eapply rtc_l; [eapply (IS_recv _ _ _ _ _ _ _ 0 1 (Some (is_match t)) [tk_id t]); [reflexivity|reflexivity|apply is_match_ids|exact Hs|exact Hc]|].
  eapply rtc_transitive.
  { eapply (is_lift _ _ _ _ s' s2 (is_received t (inactive s')) [length (calls s)]); [exact Hrun|reflexivity|reflexivity]. }
  eapply rtc_l.
  { eapply (IS_answered _ _ _ _ s2 _ _ 0 (is_gor t (GRequest [tk_id t])) [tk_id t] (length (calls s)) c); [reflexivity..|exact Hc2|exact Hret]. }
  own ltac:(eapply (V_answered _ 0); [reflexivity|reflexivity|reflexivity|apply not_elem_of_nil]).
  destruct wait.
  - own ltac:(eapply (V_check _ 0); [reflexivity|reflexivity|reflexivity|done]).
    own ltac:(eapply (V_hand _ 0); reflexivity).
    own ltac:(eapply (V_eof _ 0); reflexivity).
    own ltac:(eapply (V_fn_done _ 0); [reflexivity|reflexivity|repeat constructor]).
    own ltac:(eapply V_all_done; [reflexivity|reflexivity|constructor; [by exists true|constructor]]).
    own ltac:(eapply (V_stream _ 0); [reflexivity|reflexivity|done]).
    own ltac:(eapply V_return; reflexivity). apply rtc_refl.
  - own ltac:(eapply (V_hand _ 0); reflexivity).
    own ltac:(eapply (V_check_after _ 0); [reflexivity|reflexivity|reflexivity|done]).
    own ltac:(eapply (V_eof _ 0); reflexivity).
    own ltac:(eapply (V_fn_done _ 0); [reflexivity|reflexivity|repeat constructor]).
    own ltac:(eapply V_all_done; [reflexivity|reflexivity|constructor; [by exists true|constructor]]).
    own ltac:(eapply (V_stream _ 0); [reflexivity|reflexivity|done]).
    own ltac:(eapply V_return; reflexivity). apply rtc_refl.
Qed.

Lemma is_run_handed_out s s2 t cs : HandedOut (ISys s (is_running (inactive s)) []) (ISys s2 (is_done t (inactive s2)) cs) (tk_id t).
Proof.
  exists 0, 0, (Some (is_match t)). split; [done|]. split; [by exists (is_gor t GDone)|]. split; [left|apply is_match_in].
Qed.
End runs.

(** In-memory store: the run of [C81_example_match], with the match of a function.
    In [im_ret] the deactivation has been answered, and is not yet applied. *)
Local Ltac go t := eapply rtc_l; [t|cbn -[ex_value ex_t0 ex_now giga apply_update Z.mul Z.add mem_new]].
Local Ltac loc t := go ltac:(apply M_local; t).
Definition im_call : msys :=
  MSys (Inst [ex_create; ex_activate; match_call [e2e_key]] (OCollect []) (PGet []) [] false
          (in_cache (ms_inst ex_final)) (in_events (ms_inst ex_final)))
       (ms_store ex_final) (ms_clock ex_final) (ms_hist ex_final).
Definition im_ret : msys :=
  MSys (Inst [ex_create; ex_activate; st_off_call] (OCollect []) (PGet [st_deact]) [] false
          (in_cache (ms_inst ex_final)) (in_events (ms_inst ex_final)))
       (MemState (ex_t0 + 2 * giga)%Z 0) (ex_t0 + 2 * giga)%Z st_off_hist.

Lemma im_begin : mstep ex_cfg ex_final im_call.
Proof.
  unfold im_call, ex_final. cbn [ms_inst in_cache in_events ms_store ms_clock ms_hist]. apply M_local.
  exact (L_call _ _ [ex_create; ex_activate] _ _ _ _ _ _ [st_deact] _ (Is_match _ [e2e_key])).
Qed.
Lemma im_answer : rtc (mstep ex_cfg) im_call im_ret.
Proof.
  unfold im_call, ex_final. cbn [ms_inst in_cache in_events ms_store ms_clock ms_hist].
  loc ltac:(eapply (L_accept _ _ _ _ _ _ _ _ _ 2); reflexivity).
  loc ltac:(eapply L_out_timeout).
  go ltac:(eapply (M_id _ _ _ _ _ _ _ _ _ _ _ _ _ _ (ex_t0 + 2 * giga)%Z (ex_t0 + 2 * giga)%Z st_deact
                     (Response "1700000002-0" None) (MemState (ex_t0 + 2 * giga)%Z 0));
           [unfold ex_t0, giga; lia|unfold ex_t0, giga; lia|vm_compute; reflexivity]).
  go ltac:(eapply M_give).
  go ltac:(eapply M_sent).
  loc ltac:(eapply L_deliver_buffered; [reflexivity|intros [_ ?]; simpl in *; lia|simpl; lia]).
  loc ltac:(eapply (L_receive _ _ _ _ _ _ _ _ _ 2); [reflexivity|split; simpl; lia|reflexivity]).
  loc ltac:(eapply L_delivered).
  constructor.
Qed.
Lemma im_apply : rtc (mstep ex_cfg) im_ret st_off.
Proof.
  unfold im_ret, ex_final. cbn [ms_inst in_cache in_events ms_store ms_clock ms_hist].
  go ltac:(eapply M_poll_timeout).
  loc ltac:(eapply L_push; simpl; lia).
  loc ltac:(eapply L_apply).
  loc ltac:(eapply L_pushed).
  constructor.
Qed.

Lemma im_opposite s : in_calls (ms_inst s) = [ex_create; ex_activate; st_off_call] →
  ∀ i' c', in_calls (ms_inst s) !! i' = Some c' → SetsState c' e2e_key true →
     ∃ c1, in_calls (ms_inst ex_final) !! i' = Some c1 ∧ returned c1.
Proof.
  intros E i ci Hi [w Hw]. rewrite E in Hi. destruct i as [|[|[|i]]]; simpl in Hi; simplify_eq.
  - exists ex_create. split; [exact eq_refl|exact (conj eq_refl eq_refl)].
  - exists ex_activate. split; [exact eq_refl|exact (conj eq_refl eq_refl)].
  - cbn [cl_ups st_off_call] in Hw. apply elem_of_list_singleton in Hw. done.
Qed.

Lemma im_reach : mreach ex_cfg ex_t0 ex_final.
Proof. eapply rtc_transitive; [exact ex_reach_mid|exact ex_reach_final]. Qed.
Lemma im_key : tk_id e2e_stored = e2e_key.
Proof. vm_compute. reflexivity. Qed.

Lemma im_run wait s2 : rtc (mstep ex_cfg) im_ret s2 → mem_calls s2 !! 2 = Some st_off_call →
  rtc (im_step ex_cfg wait) (ISys ex_final (is_running (mem_inactive ex_final)) []) (ISys s2 (is_done e2e_stored (mem_inactive s2)) [2]).
Proof.
  intros H Hc. eapply (is_run_match (mstep ex_cfg) mem_calls mem_inactive wait ex_final im_call s2 e2e_stored st_off_call).
  - exact im_begin.
  - rewrite im_key. exact eq_refl.
  - eapply rtc_transitive; [exact im_answer|exact H].
  - exact Hc.
  - exact (conj eq_refl eq_refl).
Qed.

(** The invocation has returned, and a snapshot still has the ticket. *)
Theorem C120_handed_out_once_refuted : ∀ wait, ¬ C120_handed_out_once wait.
Proof.
  intros wait H.
  assert (Hs : SnapshotBetween ex_cfg (ms_inst im_ret) (ms_inst im_ret) [e2e_stored]).
  { exists [], (e2e_calm e2e_key). split; [exact eq_refl|]. split; [|vm_compute; reflexivity].
    apply (e2e_calm_ok _ _ e2e_stored). vm_compute. reflexivity. }
  refine (H ex_cfg ex_t0 [FnGrpc] ex_final (ISys ex_final (is_running (mem_inactive ex_final)) [])
    (ISys im_ret (is_done e2e_stored (mem_inactive im_ret)) [2]) im_ret 0 ex_create ex_value (Response e2e_key None) [e2e_stored]
    _ im_reach _ _ (rtc_refl _ _) eq_refl eq_refl (elem_of_list_here _ _) _ _ _ Hs e2e_stored (elem_of_list_here _ _) im_key).
  - by vm_compute.
  - apply is_run_start.
  - apply im_run; [apply rtc_refl|exact eq_refl].
  - cbn [r_result]. rewrite <-im_key. apply is_run_handed_out.
  - by exists None.
  - exact (im_opposite im_ret eq_refl).
Qed.
Print Assumptions C120_handed_out_once_refuted.

(** A moment later it is no longer offered: the theorem applies. *)
Example C120_example : ∀ wait,
  rtc (im_step ex_cfg wait) (ISys ex_final (is_running (mem_inactive ex_final)) []) (ISys st_off (is_done e2e_stored (mem_inactive st_off)) [2]) ∧
  on_the_way (ms_inst st_off) = [] ∧ c_tickets (in_cache (ms_inst st_off)) !! e2e_key = Some e2e_stored ∧
  ∀ ts, SnapshotBetween ex_cfg (ms_inst st_off) (ms_inst st_off) ts → ∀ t, t ∈ ts → tk_id t ≠ e2e_key.
Proof.
  intros wait.
  assert (Hrun : rtc (im_step ex_cfg wait) (ISys ex_final (is_running (mem_inactive ex_final)) [])
                   (ISys st_off (is_done e2e_stored (mem_inactive st_off)) [2])) by (apply im_run; [exact im_apply|exact eq_refl]).
  split; [exact Hrun|]. split; [exact eq_refl|]. split; [vm_compute; reflexivity|]. intros ts.
  refine (C120_handed_out_once_partial ex_cfg ex_t0 wait [FnGrpc] ex_final (ISys ex_final (is_running (mem_inactive ex_final)) [])
    (ISys st_off (is_done e2e_stored (mem_inactive st_off)) [2]) st_off 0 ex_create ex_value (Response e2e_key None) ts
    _ im_reach _ Hrun (rtc_refl _ _) eq_refl eq_refl (elem_of_list_here _ _) _ (im_opposite st_off eq_refl) eq_refl).
  - by vm_compute.
  - apply is_run_start.
  - cbn [r_result]. rewrite <-im_key. apply is_run_handed_out.
Qed.

(** Redis refuses the deactivation; the match is sent on all the same. *)
Local Ltac rtidy1 := cbn -[rex_create rex_activate rex_value rex_now rex_id rex_id2 rst_id rex_key rst_deact rex_cache giga apply_update Z.mul Z.add Z.sub cmds_of xtrim_minid
                         redis_results redis_get unix_secs].
Local Ltac rtidy :=
  rtidy1; repeat (match goal with |- context [(?a <=? Z.of_nat ?b)%Z] =>
    let r := eval vm_compute in (a <=? Z.of_nat b)%Z in change (a <=? Z.of_nat b)%Z with r end; rtidy1).
Local Ltac rgo t := eapply rtc_l; [t|rtidy].
Local Ltac rloc n t := rgo ltac:(eapply (Y_local _ _ _ _ _ _ n); [reflexivity|t]).
Definition ir_answer : response := default (Response "" None) (redis_results [Request rst_deact 1] [None] !! 0).
Definition ir_done : call := Call [rst_deact] 1 1 [] [ir_answer].
Definition ir_call : rsys :=
  RSys [RInst (Inst [rex_done1; match_call [rex_key]] (OCollect []) (PGet []) [] false rex_cache [HUpd rex_seen; HUpd rex_activate]) rex_id2
          [(Request rex_create 0, Response rex_key None)]; rex_inst3] rex_stream2 [] rex_log2 [rex_thr; rex_thr].
Definition ir_inst : rinst :=
  RInst (Inst [rex_done1; ir_done] (OCollect []) (PGet []) [] false rex_cache [HUpd rex_seen; HUpd rex_activate]) rex_id2
        [(Request rex_create 0, Response rex_key None); (Request rst_deact 1, ir_answer)].
Definition ir_ret : rsys := RSys [ir_inst; rex_inst3] rex_stream2 [] rex_log2 [rex_thr; rex_thr; rex_thr].

Lemma ir_begin : ystep rex_cfg rex_final ir_call.
Proof.
  exact (Y_local _ [rex_inst2; rex_inst3] _ _ _ _ 0 rex_inst2 _ eq_refl (L_call _ _ [rex_done1] _ _ _ _ _ _ [rst_deact] _ (Is_match _ [rex_key]))).
Qed.
Lemma ir_refused : rtc (ystep rex_cfg) ir_call ir_ret.
Proof.
  unfold ir_call, rex_inst3.
  rloc 0 ltac:(eapply (L_accept _ _ _ _ _ _ _ _ _ 1); reflexivity).
  rloc 0 ltac:(eapply L_out_timeout).
  unfold redis_begin.
  replace (cmds_of [Request rst_deact 1]) with [(Request rst_deact 1, ["deactivate"; rex_key])] by (vm_compute; reflexivity).
  eapply rtc_l; [eapply (Y_refuse _ _ _ _ _ _ 0); reflexivity|]. rtidy.
  eapply rtc_l; [eapply (Y_sent _ _ _ _ _ _ 0 _ _ _ rex_now); reflexivity|].
  change (unix_secs rex_now - cfg_ticket_ttl rex_cfg)%Z with rex_thr.
  replace (xtrim_minid rex_stream2 rex_thr) with rex_stream2 by (vm_compute; reflexivity).
  unfold finish_send.
  replace (redis_results [Request rst_deact 1] [None]) with [ir_answer] by (vm_compute; reflexivity).
  rtidy.
  rloc 0 ltac:(eapply L_deliver_buffered; [reflexivity|intros [_ ?]; simpl in *; lia|simpl; lia]).
  rloc 0 ltac:(eapply (L_receive _ _ _ _ _ _ _ _ _ 1); [reflexivity|split; simpl; lia|reflexivity]).
  rloc 0 ltac:(eapply L_delivered).
  constructor.
Qed.

Lemma ir_key : tk_id e2e_rstored = rex_key.
Proof. vm_compute. reflexivity. Qed.
Lemma ir_reach : yreach rex_cfg rex_final.
Proof. eapply rtc_transitive; [exact rex_reach_mid|exact rex_reach_final]. Qed.

Lemma ir_run wait s2 c : rtc (ystep rex_cfg) ir_call s2 → red_calls 0 s2 !! 1 = Some c → returned c →
  rtc (ir_step rex_cfg 0 wait) (ISys rex_final (is_running (red_inactive 0 rex_final)) [])
    (ISys s2 (is_done e2e_rstored (red_inactive 0 s2)) [1]).
Proof.
  intros H Hc Hret. eapply (is_run_match (ystep rex_cfg) (red_calls 0) (red_inactive 0) wait rex_final ir_call s2 e2e_rstored c).
  - exact ir_begin.
  - rewrite ir_key. exact eq_refl.
  - exact H.
  - exact Hc.
  - exact Hret.
Qed.

Lemma ir_sendable2 : AllSendable rex_inst2.
Proof. intros cl ->%elem_of_list_singleton. apply Forall_singleton. vm_compute. done. Qed.
Lemma ir_sendable3 : AllSendable rex_inst3.
Proof. intros cl ->%elem_of_list_singleton. apply Forall_singleton. vm_compute. done. Qed.
Lemma ir_opposite c y : in_calls (rx_inst y) = [rex_done1; c] → cl_ups c = [rst_deact] → ∀ s x1, ry_insts s = [y; x1] →
  in_calls (rx_inst x1) = [rex_done2] →
  ∀ n' x' i' c', ry_insts s !! n' = Some x' → in_calls (rx_inst x') !! i' = Some c' → SetsState c' rex_key true →
     ∃ x1 c1, ry_insts rex_final !! n' = Some x1 ∧ AllSendable x1 ∧ in_calls (rx_inst x1) !! i' = Some c1 ∧ AllGood c1.
Proof.
  intros E Eu s x1 Es E1 n x i ci Hx Hi [w Hw]. rewrite Es in Hx. destruct n as [|[|n]]; simpl in Hx; simplify_eq.
  - rewrite E in Hi. destruct i as [|[|i]]; simpl in Hi; simplify_eq.
    + exists rex_inst2, rex_done1. split; [exact eq_refl|]. split; [exact ir_sendable2|]. split; [exact eq_refl|].
      split; [exact (conj eq_refl eq_refl)|]. apply Forall_singleton. by split.
    + rewrite Eu in Hw. apply elem_of_list_singleton in Hw. done.
  - rewrite E1 in Hi. destruct i as [|i]; simpl in Hi; simplify_eq. exists rex_inst3, rex_done2. split; [exact eq_refl|]. split; [exact ir_sendable3|].
    split; [exact eq_refl|]. split; [exact (conj eq_refl eq_refl)|]. apply Forall_singleton. by split.
Qed.

(** The invocation has returned, the second instance has applied everything in the
    stream, and offers the ticket. *)
Theorem C120_handed_out_once_redis_refuted : ∀ wait, ¬ C120_handed_out_once_redis wait.
Proof.
  intros wait H.
  assert (Hs : SnapshotBetween rex_cfg (rx_inst rex_inst3) (rx_inst rex_inst3) [e2e_rstored]).
  { exists [], (e2e_calm rex_key). split; [exact eq_refl|]. split; [|vm_compute; reflexivity].
    apply (e2e_calm_ok _ _ e2e_rstored). vm_compute. reflexivity. }
  refine (H rex_cfg [FnGrpc] 0 rex_final (ISys rex_final (is_running (red_inactive 0 rex_final)) [])
    (ISys ir_ret (is_done e2e_rstored (red_inactive 0 ir_ret)) [1]) ir_ret 0 rex_inst2 ir_inst 0 rex_done1 rex_value (Response rex_key None)
    1 rex_inst3 rex_inst3 [e2e_rstored]
    ir_reach _ _ (rtc_refl _ _) eq_refl ir_sendable2 eq_refl eq_refl (elem_of_list_here _ _) _ _ _ eq_refl _ _ eq_refl _ eq_refl
    Hs e2e_rstored (elem_of_list_here _ _) ir_key).
  - apply is_run_start.
  - apply (ir_run wait ir_ret ir_done); [exact ir_refused|exact eq_refl|exact (conj eq_refl eq_refl)].
  - by split.
  - cbn [r_result]. rewrite <-ir_key. apply is_run_handed_out.
  - by exists None.
  - intros cl Hcl. cbn [ir_inst rx_inst in_calls] in Hcl. rewrite !elem_of_cons in Hcl.
    destruct Hcl as [->|[->|Hcl]]; [apply Forall_singleton; vm_compute; done..|by apply elem_of_nil in Hcl].
  - exact (ir_opposite ir_done ir_inst eq_refl eq_refl ir_ret rex_inst3 eq_refl eq_refl).
  - vm_compute. reflexivity.
Qed.
Print Assumptions C120_handed_out_once_redis_refuted.

(** With a good answer (the run of [C82_example]) it is not offered by the second
    instance: the theorem applies. *)
Lemma ir_stored : rtc (ystep rex_cfg) ir_call rst_off.
Proof.
  unfold ir_call, rex_inst3.
  rloc 0 ltac:(eapply (L_accept _ _ _ _ _ _ _ _ _ 1); reflexivity).
  rloc 0 ltac:(eapply L_out_timeout).
  unfold redis_begin.
  replace (cmds_of [Request rst_deact 1]) with [(Request rst_deact 1, ["deactivate"; rex_key])] by (vm_compute; reflexivity).
  eapply rtc_l; [eapply (Y_xadd _ _ _ _ _ _ 0 _ _ _ _ _ _ 1699999999999%Z); reflexivity|].
  change (xadd rex_stream2 1699999999999 ["deactivate"; rex_key]) with (rst_stream, rst_id). rtidy.
  eapply rtc_l; [eapply (Y_sent _ _ _ _ _ _ 0 _ _ _ rex_now); reflexivity|].
  change (unix_secs rex_now - cfg_ticket_ttl rex_cfg)%Z with rex_thr.
  replace (xtrim_minid rst_stream rex_thr) with rst_stream by (vm_compute; reflexivity).
  unfold finish_send.
  replace (redis_results [Request rst_deact 1] [Some rst_id]) with [Response "1700000000123-2" None] by (vm_compute; reflexivity).
  rtidy.
  rloc 0 ltac:(eapply L_deliver_buffered; [reflexivity|intros [_ ?]; simpl in *; lia|simpl; lia]).
  rloc 0 ltac:(eapply (L_receive _ _ _ _ _ _ _ _ _ 1); [reflexivity|split; simpl; lia|reflexivity]).
  rloc 0 ltac:(eapply L_delivered).
  eapply rtc_l; [eapply (Y_poll _ _ _ _ _ _ 1 _ true); reflexivity|].
  unfold poll_redis. cbn [rx_cursor rinst0 cfg_in_max rex_cfg].
  replace (redis_get 10 rst_stream rex_id2 true) with (Filter.Done [rst_deact], rst_id) by (vm_compute; reflexivity). rtidy.
  rloc 1 ltac:(eapply L_push; simpl; lia).
  rloc 1 ltac:(eapply L_apply).
  rloc 1 ltac:(eapply L_pushed).
  constructor.
Qed.

Example C120_example_redis : ∀ wait,
  rtc (ir_step rex_cfg 0 wait) (ISys rex_final (is_running (red_inactive 0 rex_final)) [])
    (ISys rst_off (is_done e2e_rstored (red_inactive 0 rst_off)) [1]) ∧
  CaughtUp rst_off rst_inst1 ∧ c_tickets (in_cache (rx_inst rst_inst1)) !! rex_key = Some e2e_rstored ∧
  ∀ ts, SnapshotBetween rex_cfg (rx_inst rst_inst1) (rx_inst rst_inst1) ts → ∀ t, t ∈ ts → tk_id t ≠ rex_key.
Proof.
  intros wait.
  assert (Hrun : rtc (ir_step rex_cfg 0 wait) (ISys rex_final (is_running (red_inactive 0 rex_final)) [])
    (ISys rst_off (is_done e2e_rstored (red_inactive 0 rst_off)) [1])).
  { apply (ir_run wait rst_off rst_call); [exact ir_stored|exact eq_refl|exact (conj eq_refl eq_refl)]. }
  assert (Hcu : CaughtUp rst_off rst_inst1) by (vm_compute; reflexivity).
  split; [exact Hrun|]. split; [exact Hcu|]. split; [vm_compute; reflexivity|]. intros ts.
  refine (C120_handed_out_once_redis_partial rex_cfg wait [FnGrpc] 0 rex_final (ISys rex_final (is_running (red_inactive 0 rex_final)) [])
    (ISys rst_off (is_done e2e_rstored (red_inactive 0 rst_off)) [1]) rst_off 0 rex_inst2 rst_inst0 0 rex_done1 rex_value (Response rex_key None)
    1 rst_inst1 rst_inst1 ts
    ir_reach _ Hrun (rtc_refl _ _) eq_refl ir_sendable2 eq_refl eq_refl (elem_of_list_here _ _) _ _ _ eq_refl _ _ eq_refl Hcu eq_refl).
  - apply is_run_start.
  - by split.
  - cbn [r_result]. rewrite <-ir_key. apply is_run_handed_out.
  - intros n j c r Hn Hj Hr. cbn [is_calls] in Hn. apply list_lookup_singleton_Some in Hn as [_ <-].
    unfold red_calls in Hj. cbn [is_server rst_off ry_insts lookup list_lookup rst_inst0 rx_inst in_calls] in Hj. injection Hj as <-.
    cbn [cl_got rst_call] in Hr. apply elem_of_list_singleton in Hr as ->. by split.
  - intros cl Hcl. cbn [rst_inst0 rx_inst in_calls] in Hcl. rewrite !elem_of_cons in Hcl.
    destruct Hcl as [->|[->|Hcl]]; [apply Forall_singleton; vm_compute; done..|by apply elem_of_nil in Hcl].
  - exact (ir_opposite rst_call rst_inst0 eq_refl eq_refl rst_off rst_inst1 eq_refl eq_refl).
Qed.
End example.
