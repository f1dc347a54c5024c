(** C81, C82: activations and deactivations, from the calls to what functions are
    offered. *)
From Coq Require Import Ascii String ZArith NArith Lia.
From stdpp Require Import prelude strings gmap relations.
From Verif.Model Require Import GoStrings Types Filter Wire Proto Cache Replica Handlers MemRepl Queues RedisRepl RedisReader Snapshot Chunk System RedisSystem.
From Verif.Spec Require Import HandlerSpec CacheSpec ChunkSpec RedisSpec SystemSpec EndToEndSpec AssignSpec StateSpec.
From Verif.Proofs Require Import StateMem StateRedis.
From Verif.Props Require Import SystemProps RedisSystemProps EndToEndProps.
Local Open Scope nat_scope.

(** ** C81: one instance with the in-memory store *)

(** The last state change wins. A ticket was created before state [s1]; call [j]
    began after [s1], makes it active ([b = true]) or inactive, and has returned;
    all calls that do the opposite had returned in [s1]. When everything written has
    been applied, the ticket is in the cache, and is active if and only if call [j]
    was an activation; unless it expired. *)
Theorem C81_last_state_change_wins : ∀ cfg t0 s1 s2 i ci v r j cj b,
  (0 <= t0)%Z → mreach cfg t0 s1 → rtc (mstep cfg) s1 s2 →
  in_calls (ms_inst s1) !! i = Some ci → Creates ci v → r ∈ cl_got ci →
  length (in_calls (ms_inst s1)) <= j → in_calls (ms_inst s2) !! j = Some cj → SetsState cj (r_result r) b → returned cj →
  (∀ i' c', in_calls (ms_inst s2) !! i' = Some c' → SetsState c' (r_result r) (negb b) →
     ∃ c1, in_calls (ms_inst s1) !! i' = Some c1 ∧ returned c1) →
  on_the_way (ms_inst s2) = [] →
  (∀ x, x ∈ hev_visits (in_events (ms_inst s2)) →
        ¬ OlderThan (cfg_ticket_ttl cfg) x.2 (r_result r) ∧ ¬ ExpiredAt x.2 (stored_ticket (r_result r) v)) →
  c_tickets (in_cache (ms_inst s2)) !! r_result r = Some (stored_ticket (r_result r) v) ∧
  (r_result r ∈ c_inactive (in_cache (ms_inst s2)) ↔ b = false).
Proof. exact mem_last_state. Qed.
Print Assumptions C81_last_state_change_wins.

(** A ticket that has been deactivated (by its client, or because a function has put
    it in a match) is in no snapshot taken after the deactivation has been applied,
    as long as nobody activates it again. *)
Theorem C81_deactivated_ticket_is_not_offered : ∀ cfg t0 s1 s2 s3 i ci v r j cj ts,
  (0 <= t0)%Z → mreach cfg t0 s1 → rtc (mstep cfg) s1 s2 → rtc (mstep cfg) s2 s3 →
  in_calls (ms_inst s1) !! i = Some ci → Creates ci v → r ∈ cl_got ci →
  length (in_calls (ms_inst s1)) <= j → in_calls (ms_inst s2) !! j = Some cj → SetsState cj (r_result r) false → returned cj →
  (∀ i' c', in_calls (ms_inst s3) !! i' = Some c' → SetsState c' (r_result r) true →
     ∃ c1, in_calls (ms_inst s1) !! i' = Some c1 ∧ returned c1) →
  on_the_way (ms_inst s2) = [] →
  SnapshotBetween cfg (ms_inst s2) (ms_inst s3) ts →
  ∀ t, t ∈ ts → tk_id t ≠ r_result r.
Proof. exact mem_deactivated_not_offered. Qed.
Print Assumptions C81_deactivated_ticket_is_not_offered.

(** A ticket that has been activated again after a deactivation is in every pool it
    is eligible for, in every snapshot taken after the activation has been applied,
    as long as nobody deactivates it and it has not expired. *)
Theorem C81_reactivated_ticket_reaches_functions : ∀ cfg t0 s1 s2 s3 i ci v r j cj ts p got n,
  (0 <= t0)%Z → SaneTTL (cfg_ticket_ttl cfg) →
  mreach cfg t0 s1 → rtc (mstep cfg) s1 s2 → rtc (mstep cfg) s2 s3 → ValidCreates cfg (ms_inst s3) →
  in_calls (ms_inst s1) !! i = Some ci → Creates ci v → r ∈ cl_got ci →
  length (in_calls (ms_inst s1)) <= j → in_calls (ms_inst s2) !! j = Some cj → SetsState cj (r_result r) true → returned cj →
  (∀ i' c', in_calls (ms_inst s3) !! i' = Some c' → SetsState c' (r_result r) false →
     ∃ c1, in_calls (ms_inst s1) !! i' = Some c1 ∧ returned c1) →
  on_the_way (ms_inst s2) = [] →
  (∀ x, x ∈ hev_visits (in_events (ms_inst s3)) →
        ¬ OlderThan (cfg_ticket_ttl cfg) x.2 (r_result r) ∧ ¬ ExpiredAt x.2 (stored_ticket (r_result r) v)) →
  SnapshotBetween cfg (ms_inst s2) (ms_inst s3) ts → CountFits p ts → FunctionGets p ts got →
  Eligible p n (stored_ticket (r_result r) v) →
  stored_ticket (r_result r) v ∈ PoolTickets got n.
Proof. exact mem_activated_reaches. Qed.
Print Assumptions C81_reactivated_ticket_reaches_functions.

(** ** C82: several instances on one Redis stream *)

(** The same for every instance that has caught up. The ticket may have been created
    at one instance and the calls made at others; update [p] of call [j] was
    acknowledged, and so were the opposite calls before [s1]. *)
Theorem C82_last_state_change_wins : ∀ cfg s1 s2 n x i ci v r m y j cj p b u r' w z,
  yreach cfg s1 → rtc (ystep cfg) s1 s2 →
  ry_insts s1 !! n = Some x → AllSendable x → in_calls (rx_inst x) !! i = Some ci → Creates ci v → r ∈ cl_got ci → Good r →
  NotYet s1 m j →
  ry_insts s2 !! m = Some y → AllSendable y → in_calls (rx_inst y) !! j = Some cj →
  cl_ups cj !! p = Some (Update (StateCmd b) (r_result r) u) → cl_got cj !! p = Some r' → Good r' →
  (∀ n' x' i' c', ry_insts s2 !! n' = Some x' → in_calls (rx_inst x') !! i' = Some c' → SetsState c' (r_result r) (negb b) →
     ∃ x1 c1, ry_insts s1 !! n' = Some x1 ∧ AllSendable x1 ∧ in_calls (rx_inst x1) !! i' = Some c1 ∧ AllGood c1) →
  ry_insts s2 !! w = Some z → CaughtUp s2 z →
  (∀ e, e ∈ hev_visits (in_events (rx_inst z)) →
        ¬ OlderThan (cfg_ticket_ttl cfg) e.2 (r_result r) ∧ ¬ ExpiredAt e.2 (stored_ticket (r_result r) v)) →
  c_tickets (in_cache (rx_inst z)) !! r_result r = Some (stored_ticket (r_result r) v) ∧
  (r_result r ∈ c_inactive (in_cache (rx_inst z)) ↔ b = false).
Proof. exact red_last_state. Qed.
Print Assumptions C82_last_state_change_wins.

(** A ticket deactivated at one instance is not offered by any other one that has
    caught up, as long as nobody activates it again. *)
Theorem C82_deactivated_ticket_is_not_offered : ∀ cfg s1 s2 s3 n x i ci v r m y j cj p u r' w z2 z3 ts,
  yreach cfg s1 → rtc (ystep cfg) s1 s2 → rtc (ystep cfg) s2 s3 →
  ry_insts s1 !! n = Some x → AllSendable x → in_calls (rx_inst x) !! i = Some ci → Creates ci v → r ∈ cl_got ci → Good r →
  NotYet s1 m j →
  ry_insts s2 !! m = Some y → AllSendable y → in_calls (rx_inst y) !! j = Some cj →
  cl_ups cj !! p = Some (Update CmdDeactivate (r_result r) u) → cl_got cj !! p = Some r' → Good r' →
  (∀ n' x' i' c', ry_insts s3 !! n' = Some x' → in_calls (rx_inst x') !! i' = Some c' → SetsState c' (r_result r) true →
     ∃ x1 c1, ry_insts s1 !! n' = Some x1 ∧ AllSendable x1 ∧ in_calls (rx_inst x1) !! i' = Some c1 ∧ AllGood c1) →
  ry_insts s2 !! w = Some z2 → CaughtUp s2 z2 → ry_insts s3 !! w = Some z3 →
  SnapshotBetween cfg (rx_inst z2) (rx_inst z3) ts →
  ∀ t, t ∈ ts → tk_id t ≠ r_result r.
Proof. exact red_deactivated_not_offered. Qed.
Print Assumptions C82_deactivated_ticket_is_not_offered.

(** A ticket activated again at one instance reaches the functions called by any
    other one that has caught up. *)
Theorem C82_reactivated_ticket_reaches_functions : ∀ cfg s1 s2 s3 n x i ci v r m y j cj k u r' w z2 z3 ts p got q,
  SaneTTL (cfg_ticket_ttl cfg) →
  yreach cfg s1 → rtc (ystep cfg) s1 s2 → rtc (ystep cfg) s2 s3 → AllValidCreates cfg s3 →
  ry_insts s1 !! n = Some x → AllSendable x → in_calls (rx_inst x) !! i = Some ci → Creates ci v → r ∈ cl_got ci → Good r →
  NotYet s1 m j →
  ry_insts s2 !! m = Some y → AllSendable y → in_calls (rx_inst y) !! j = Some cj →
  cl_ups cj !! k = Some (Update CmdActivate (r_result r) u) → cl_got cj !! k = Some r' → Good r' →
  (∀ n' x' i' c', ry_insts s3 !! n' = Some x' → in_calls (rx_inst x') !! i' = Some c' → SetsState c' (r_result r) false →
     ∃ x1 c1, ry_insts s1 !! n' = Some x1 ∧ AllSendable x1 ∧ in_calls (rx_inst x1) !! i' = Some c1 ∧ AllGood c1) →
  ry_insts s2 !! w = Some z2 → CaughtUp s2 z2 → ry_insts s3 !! w = Some z3 →
  (∀ e, e ∈ hev_visits (in_events (rx_inst z3)) →
        ¬ OlderThan (cfg_ticket_ttl cfg) e.2 (r_result r) ∧ ¬ ExpiredAt e.2 (stored_ticket (r_result r) v)) →
  SnapshotBetween cfg (rx_inst z2) (rx_inst z3) ts → CountFits p ts → FunctionGets p ts got →
  Eligible p q (stored_ticket (r_result r) v) →
  stored_ticket (r_result r) v ∈ PoolTickets got q.
Proof. exact red_activated_reaches. Qed.
Print Assumptions C82_reactivated_ticket_reaches_functions.

(** ** Examples *)
Section example.
Local Open Scope string_scope.
Local Ltac go t := eapply rtc_l; [t|cbn -[ex_value ex_t0 ex_now giga apply_update Z.mul Z.add mem_new]].
Local Ltac loc t := go ltac:(apply M_local; t).

(** The run of [C70_example] goes on: a function puts the ticket in a match, so it
    is deactivated, and then its client activates it again. *)
Definition st_deact : update := Update CmdDeactivate e2e_key "".
Definition st_act : update := Update CmdActivate e2e_key "".
Definition st_off_call : call := Call [st_deact] 1 1 [] [Response "1700000002-0" None].
Definition st_on_call : call := Call [st_act] 1 1 [] [Response "1700000003-0" None].
Definition st_off_cache : cache := apply_update (in_cache (ms_inst ex_final)) st_deact.
Definition st_off_hist : list sent :=
  ms_hist ex_final ++ [Sent (Request st_deact 2) (Response "1700000002-0" None) st_deact].
Definition st_off : msys :=
  MSys (Inst [ex_create; ex_activate; st_off_call] (OCollect []) (PGet []) [] false st_off_cache
          (in_events (ms_inst ex_final) ++ [HUpd st_deact]))
       (MemState (ex_t0 + 2 * giga)%Z 0) (ex_t0 + 2 * giga)%Z st_off_hist.
Definition st_on : msys :=
  MSys (Inst [ex_create; ex_activate; st_off_call; st_on_call] (OCollect []) (PGet []) [] false (apply_update st_off_cache st_act)
          (in_events (ms_inst ex_final) ++ [HUpd st_deact; HUpd st_act]))
       (MemState (ex_t0 + 3 * giga)%Z 0) (ex_t0 + 3 * giga)%Z
       (st_off_hist ++ [Sent (Request st_act 3) (Response "1700000003-0" None) st_act]).

Lemma st_reach_off : rtc (mstep ex_cfg) ex_final st_off.
Proof.
  unfold ex_final.
  loc ltac:(eapply (L_call _ _ _ _ _ _ _ _ _ [st_deact]); exact (Is_match _ [e2e_key])).
  loc ltac:(eapply (L_accept _ _ _ _ _ _ _ _ _ 2); reflexivity).
  loc ltac:(eapply L_out_timeout).
  go ltac:(eapply (M_id _ _ _ _ _ _ _ _ _ _ _ _ _ _ (ex_t0 + 2 * giga)%Z (ex_t0 + 2 * giga)%Z st_deact
                     (Response "1700000002-0" None) (MemState (ex_t0 + 2 * giga)%Z 0));
           [unfold ex_t0, giga; lia|unfold ex_t0, giga; lia|vm_compute; reflexivity]).
  go ltac:(eapply M_give).
  go ltac:(eapply M_sent).
  loc ltac:(eapply L_deliver_buffered; [reflexivity|intros [_ ?]; simpl in *; lia|simpl; lia]).
  loc ltac:(eapply (L_receive _ _ _ _ _ _ _ _ _ 2); [reflexivity|split; simpl; lia|reflexivity]).
  loc ltac:(eapply L_delivered).
  go ltac:(eapply M_poll_timeout).
  loc ltac:(eapply L_push; simpl; lia).
  loc ltac:(eapply L_apply).
  loc ltac:(eapply L_pushed).
  constructor.
Qed.

Lemma st_reach_on : rtc (mstep ex_cfg) st_off st_on.
Proof.
  unfold st_off, st_off_hist, ex_final. cbn [ms_hist ms_inst in_events app].
  loc ltac:(eapply (L_call _ _ _ _ _ _ _ _ _ [st_act]); eapply (Is_activate _ [e2e_key]); vm_compute; reflexivity).
  loc ltac:(eapply (L_accept _ _ _ _ _ _ _ _ _ 3); reflexivity).
  loc ltac:(eapply L_out_timeout).
  go ltac:(eapply (M_id _ _ _ _ _ _ _ _ _ _ _ _ _ _ (ex_t0 + 3 * giga)%Z (ex_t0 + 3 * giga)%Z st_act
                     (Response "1700000003-0" None) (MemState (ex_t0 + 3 * giga)%Z 0));
           [unfold ex_t0, giga; lia|unfold ex_t0, giga; lia|vm_compute; reflexivity]).
  go ltac:(eapply M_give).
  go ltac:(eapply M_sent).
  loc ltac:(eapply L_deliver_buffered; [reflexivity|intros [_ ?]; simpl in *; lia|simpl; lia]).
  loc ltac:(eapply (L_receive _ _ _ _ _ _ _ _ _ 3); [reflexivity|split; simpl; lia|reflexivity]).
  loc ltac:(eapply L_delivered).
  go ltac:(eapply M_poll_timeout).
  loc ltac:(eapply L_push; simpl; lia).
  loc ltac:(eapply L_apply).
  loc ltac:(eapply L_pushed).
  constructor.
Qed.

(** The match deactivates the ticket: the theorems apply with [s1 = ex_final],
    [s2 = s3 = st_off]. *)
Example C81_example_match :
  mreach ex_cfg ex_t0 ex_final ∧ rtc (mstep ex_cfg) ex_final st_off ∧
  SetsState st_off_call e2e_key false ∧ returned st_off_call ∧ on_the_way (ms_inst st_off) = [] ∧
  (∀ i ci, in_calls (ms_inst st_off) !! i = Some ci → SetsState ci e2e_key true →
     ∃ c1, in_calls (ms_inst ex_final) !! i = Some c1 ∧ returned c1) ∧
  c_tickets (in_cache (ms_inst st_off)) !! e2e_key = Some e2e_stored ∧ e2e_key ∈ c_inactive (in_cache (ms_inst st_off)).
Proof.
  assert (Hr : mreach ex_cfg ex_t0 ex_final) by (eapply rtc_transitive; [exact ex_reach_mid|exact ex_reach_final]).
  assert (Hset : SetsState st_off_call e2e_key false) by (exists ""; left).
  assert (Hoth : ∀ i ci, in_calls (ms_inst st_off) !! i = Some ci → SetsState ci e2e_key true →
     ∃ c1, in_calls (ms_inst ex_final) !! i = Some c1 ∧ returned c1).
  { intros i ci Hi [w Hw]. destruct i as [|[|[|i]]]; simpl in Hi; simplify_eq.
    - by eexists.
    - by eexists.
    - cbn [cl_ups st_off_call] in Hw. apply elem_of_list_singleton in Hw. done. }
  destruct (C81_last_state_change_wins ex_cfg ex_t0 ex_final st_off 0 ex_create ex_value (Response e2e_key None) 2 st_off_call false
    ltac:(by vm_compute) Hr st_reach_off eq_refl eq_refl ltac:(apply elem_of_list_here) (le_n 2) eq_refl Hset (conj eq_refl eq_refl) Hoth eq_refl ltac:(intros x Hx; by apply elem_of_nil in Hx)) as [H1 H2].
  repeat (split; [first [exact st_reach_off|assumption|exact H1|exact (conj eq_refl eq_refl)|exact eq_refl]|]). by apply H2.
Qed.

(** And the client activates it again: [s1 = st_off], [s2 = s3 = st_on]. *)
Example C81_example_again :
  mreach ex_cfg ex_t0 st_off ∧ rtc (mstep ex_cfg) st_off st_on ∧
  SetsState st_on_call e2e_key true ∧ returned st_on_call ∧ on_the_way (ms_inst st_on) = [] ∧
  (∀ i ci, in_calls (ms_inst st_on) !! i = Some ci → SetsState ci e2e_key false →
     ∃ c1, in_calls (ms_inst st_off) !! i = Some c1 ∧ returned c1) ∧
  c_tickets (in_cache (ms_inst st_on)) !! e2e_key = Some e2e_stored ∧ e2e_key ∉ c_inactive (in_cache (ms_inst st_on)).
Proof.
  assert (Hr : mreach ex_cfg ex_t0 st_off).
  { eapply rtc_transitive; [|exact st_reach_off]. eapply rtc_transitive; [exact ex_reach_mid|exact ex_reach_final]. }
  assert (Hset : SetsState st_on_call e2e_key true) by (exists ""; left).
  assert (Hoth : ∀ i ci, in_calls (ms_inst st_on) !! i = Some ci → SetsState ci e2e_key false →
     ∃ c1, in_calls (ms_inst st_off) !! i = Some c1 ∧ returned c1).
  { intros i ci Hi [w Hw]. destruct i as [|[|[|[|i]]]]; simpl in Hi; simplify_eq; try (by eexists).
    cbn [cl_ups st_on_call] in Hw. apply elem_of_list_singleton in Hw. done. }
  destruct (C81_last_state_change_wins ex_cfg ex_t0 st_off st_on 0 ex_create ex_value (Response e2e_key None) 3 st_on_call true
    ltac:(by vm_compute) Hr st_reach_on eq_refl eq_refl ltac:(apply elem_of_list_here) (le_n 3) eq_refl Hset (conj eq_refl eq_refl) Hoth eq_refl ltac:(intros x Hx; by apply elem_of_nil in Hx)) as [H1 H2].
  repeat (split; [first [exact st_reach_on|assumption|exact H1|exact (conj eq_refl eq_refl)|exact eq_refl]|]). intros Hx. by apply H2 in Hx.
Qed.

(** Two instances: the ticket of [C71_example] is deactivated by a match at the
    first one, and the second one no longer offers it. *)
Definition rst_deact : update := Update CmdDeactivate rex_key "".
Definition rst_id : sid := (1700000000123, 2)%Z.
Definition rst_stream : stream :=
  Stream [Entry rex_id ["ticket"; rex_value]; Entry rex_id2 ["activate"; rex_key]; Entry rst_id ["deactivate"; rex_key]] rst_id.
Definition rst_call : call := Call [rst_deact] 1 1 [] [Response "1700000000123-2" None].
Definition rst_cache : cache := apply_update rex_cache rst_deact.
Definition rst_inst0 : rinst :=
  RInst (Inst [rex_done1; rst_call] (OCollect []) (PGet []) [] false rex_cache [HUpd rex_seen; HUpd rex_activate]) rex_id2
        [(Request rex_create 0, Response rex_key None); (Request rst_deact 1, Response "1700000000123-2" None)].
Definition rst_inst1 : rinst :=
  RInst (Inst [rex_done2] (OCollect []) (PGet []) [] false rst_cache [HUpd rex_seen; HUpd rex_activate; HUpd rst_deact]) rst_id
        [(Request rex_activate 0, Response "1700000000123-1" None)].
Definition rst_off : rsys :=
  RSys [rst_inst0; rst_inst1] rst_stream [] (rex_log2 ++ [LogEnt rst_id (Request rst_deact 1) 0]) [rex_thr; rex_thr; rex_thr].

Local Ltac rtidy1 := cbn -[rex_create rex_activate rex_value rex_now rex_id rex_id2 rst_id rex_key rst_deact rex_cache giga apply_update Z.mul Z.add Z.sub cmds_of xtrim_minid
                         redis_results redis_get unix_secs].
Local Ltac rtidy :=
  rtidy1; repeat (match goal with |- context [(?a <=? Z.of_nat ?b)%Z] =>
    let r := eval vm_compute in (a <=? Z.of_nat b)%Z in change (a <=? Z.of_nat b)%Z with r end; rtidy1).
Local Ltac rgo t := eapply rtc_l; [t|rtidy].
Local Ltac rloc n t := rgo ltac:(eapply (Y_local _ _ _ _ _ _ n); [reflexivity|t]).

Lemma rst_reach_off : rtc (ystep rex_cfg) rex_final rst_off.
Proof.
  unfold rex_final, rex_inst2, rex_inst3.
  rloc 0 ltac:(eapply (L_call _ _ _ _ _ _ _ _ _ [rst_deact]); exact (Is_match _ [rex_key])).
  rloc 0 ltac:(eapply (L_accept _ _ _ _ _ _ _ _ _ 1); reflexivity).
  rloc 0 ltac:(eapply L_out_timeout).
  unfold redis_begin.
  replace (cmds_of [Request rst_deact 1]) with [(Request rst_deact 1, ["deactivate"; rex_key])] by (vm_compute; reflexivity).
  eapply rtc_l; [eapply (Y_xadd _ _ _ _ _ _ 0 _ _ _ _ _ _ 1699999999999%Z); reflexivity|].
  change (xadd rex_stream2 1699999999999 ["deactivate"; rex_key]) with (rst_stream, rst_id). rtidy.
  eapply rtc_l; [eapply (Y_sent _ _ _ _ _ _ 0 _ _ _ rex_now); reflexivity|].
  change (unix_secs rex_now - cfg_ticket_ttl rex_cfg)%Z with rex_thr.
  replace (xtrim_minid rst_stream rex_thr) with rst_stream by (vm_compute; reflexivity).
  unfold finish_send.
  replace (redis_results [Request rst_deact 1] [Some rst_id]) with [Response "1700000000123-2" None] by (vm_compute; reflexivity).
  rtidy.
  rloc 0 ltac:(eapply L_deliver_buffered; [reflexivity|intros [_ ?]; simpl in *; lia|simpl; lia]).
  rloc 0 ltac:(eapply (L_receive _ _ _ _ _ _ _ _ _ 1); [reflexivity|split; simpl; lia|reflexivity]).
  rloc 0 ltac:(eapply L_delivered).
  eapply rtc_l; [eapply (Y_poll _ _ _ _ _ _ 1 _ true); reflexivity|].
  unfold poll_redis. cbn [rx_cursor rinst0 cfg_in_max rex_cfg].
  replace (redis_get 10 rst_stream rex_id2 true) with (Filter.Done [rst_deact], rst_id) by (vm_compute; reflexivity). rtidy.
  rloc 1 ltac:(eapply L_push; simpl; lia).
  rloc 1 ltac:(eapply L_apply).
  rloc 1 ltac:(eapply L_pushed).
  constructor.
Qed.

Example C82_example :
  yreach rex_cfg rex_final ∧ rtc (ystep rex_cfg) rex_final rst_off ∧
  NotYet rex_final 0 1 ∧ AllSendable rst_inst0 ∧ Good (Response "1700000000123-2" None) ∧ CaughtUp rst_off rst_inst1 ∧
  (∀ n x i ci, ry_insts rst_off !! n = Some x → in_calls (rx_inst x) !! i = Some ci → SetsState ci rex_key true →
     ∃ x1 c1, ry_insts rex_final !! n = Some x1 ∧ AllSendable x1 ∧ in_calls (rx_inst x1) !! i = Some c1 ∧ AllGood c1) ∧
  c_tickets (in_cache (rx_inst rst_inst1)) !! rex_key = Some e2e_rstored ∧ rex_key ∈ c_inactive (in_cache (rx_inst rst_inst1)).
Proof.
  assert (Hr : yreach rex_cfg rex_final) by (eapply rtc_transitive; [exact rex_reach_mid|exact rex_reach_final]).
  assert (S1 : Sendable rex_create) by (vm_compute; done). assert (S2 : Sendable rex_activate) by (vm_compute; done).
  assert (S3 : Sendable rst_deact) by (vm_compute; done).
  assert (Hny : NotYet rex_final 0 1) by (intros y [= <-]; simpl; lia).
  assert (A2 : AllSendable rex_inst2) by (intros cl ->%elem_of_list_singleton; by repeat constructor).
  assert (A3 : AllSendable rex_inst3) by (intros cl ->%elem_of_list_singleton; by repeat constructor).
  assert (A0 : AllSendable rst_inst0).
  { intros cl Hcl. cbn [rst_inst0 rx_inst in_calls] in Hcl. rewrite !elem_of_cons in Hcl.
    destruct Hcl as [->|[->|Hcl]]; [by repeat constructor..|by apply elem_of_nil in Hcl]. }
  assert (Hcu : CaughtUp rst_off rst_inst1) by (vm_compute; reflexivity).
  assert (Hoth : ∀ n x i ci, ry_insts rst_off !! n = Some x → in_calls (rx_inst x) !! i = Some ci → SetsState ci rex_key true →
     ∃ x1 c1, ry_insts rex_final !! n = Some x1 ∧ AllSendable x1 ∧ in_calls (rx_inst x1) !! i = Some c1 ∧ AllGood c1).
  { intros n x i ci Hx Hi [w Hw]. destruct n as [|[|n]]; simpl in Hx; simplify_eq.
    - destruct i as [|[|i]]; simpl in Hi; simplify_eq.
      + exists rex_inst2, rex_done1. split; [exact eq_refl|]. split; [exact A2|]. split; [exact eq_refl|].
        split; [exact (conj eq_refl eq_refl)|]. apply Forall_singleton. by split.
      + cbn [cl_ups rst_call] in Hw. apply elem_of_list_singleton in Hw. done.
    - destruct i as [|i]; simpl in Hi; simplify_eq. exists rex_inst3, rex_done2. split; [exact eq_refl|]. split; [exact A3|]. split; [exact eq_refl|].
        split; [exact (conj eq_refl eq_refl)|]. apply Forall_singleton. by split. }
  assert (Hst : c_tickets (in_cache (rx_inst rst_inst1)) !! rex_key = Some e2e_rstored ∧
                (rex_key ∈ c_inactive (in_cache (rx_inst rst_inst1)) ↔ false = false)).
  { eapply (C82_last_state_change_wins rex_cfg rex_final rst_off 0 rex_inst2 0 rex_done1 rex_value (Response rex_key None)
      0 rst_inst0 1 rst_call 0 false "" (Response "1700000000123-2" None) 1 rst_inst1 Hr rst_reach_off).
    - exact eq_refl.
    - exact A2.
    - exact eq_refl.
    - exact eq_refl.
    - apply elem_of_list_here.
    - by split.
    - exact Hny.
    - exact eq_refl.
    - exact A0.
    - exact eq_refl.
    - exact eq_refl.
    - exact eq_refl.
    - by split.
    - exact Hoth.
    - exact eq_refl.
    - exact Hcu.
    - assert (E : hev_visits (in_events (rx_inst rst_inst1)) = []) by reflexivity.
      intros x Hx. rewrite E in Hx. exfalso. by apply elem_of_nil in Hx. }
  destruct Hst as [H1 H2].
  split; [exact Hr|]. split; [exact rst_reach_off|]. split; [exact Hny|]. split; [exact A0|]. split; [by split|].
  split; [exact Hcu|]. split; [exact Hoth|]. split; [exact H1|]. by apply H2.
Qed.
End example.
