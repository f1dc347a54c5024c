(** C123: tickets of matches that are activated again are offered again. *)
From Coq Require Import Ascii String ZArith NArith Lia.
From stdpp Require Import prelude strings gmap relations.
From Verif.Model Require Import GoStrings Types Filter Wire Proto Cache Replica Handlers MemRepl Queues RedisRepl RedisReader Snapshot Chunk System RedisSystem Invoke InvokeSystem.
From Verif.Spec Require Import HandlerSpec CacheSpec ChunkSpec RedisSpec SystemSpec EndToEndSpec AssignSpec StateSpec InvokeSpec InvokeSystemSpec.
From Verif.Proofs Require Import InvokeLemmas InvokeSystemLemmas InvokeSystemMore ReturnLemmas.
From Verif.Props Require Import SystemProps RedisSystemProps EndToEndProps StateProps InvokeSystemProps.
Local Open Scope nat_scope.

(** The claim, with the in-memory store: an invocation has returned in [z], and has
    sent a match with a ticket to the caller, who rejects it and activates the ticket
    again (call [j]). All other deactivations of it returned before [z], and it has
    not expired. Then snapshots that begin when all stored updates have been applied
    contain it. *)
Definition C123_rejected_tickets_return (wait : bool) : Prop :=
  ∀ cfg t0 fns s0 z s3 s4 i ci v r j cj ts,
  (0 <= t0)%Z → mreach cfg t0 s0 →
  rtc (im_step cfg wait) (is_init mem_inactive fns s0) z → v_returned (is_inv z) →
  HandedOut (is_init mem_inactive fns s0) z (r_result r) →
  rtc (mstep cfg) (is_server z) s3 → rtc (mstep cfg) s3 s4 →
  in_calls (ms_inst (is_server z)) !! i = Some ci → Creates ci v → r ∈ cl_got ci →
  length (in_calls (ms_inst (is_server z))) <= j → in_calls (ms_inst s3) !! j = Some cj →
  SetsState cj (r_result r) true → returned cj →
  (∀ i' c', in_calls (ms_inst s4) !! i' = Some c' → SetsState c' (r_result r) false →
     i' ∈ is_calls z ∨ ∃ c1, in_calls (ms_inst (is_server z)) !! i' = Some c1 ∧ returned c1) →
  on_the_way (ms_inst s3) = [] →
  (∀ x, x ∈ hev_visits (in_events (ms_inst s4)) →
        ¬ OlderThan (cfg_ticket_ttl cfg) x.2 (r_result r) ∧ ¬ ExpiredAt x.2 (stored_ticket (r_result r) v)) →
  SnapshotBetween cfg (ms_inst s3) (ms_inst s4) ts →
  stored_ticket (r_result r) v ∈ ts.

(** What holds: it is so if all functions that returned matches with the ticket have
    ended normally; then it makes no difference whether the invocation has returned
    or the match was sent. *)
Theorem C123_rejected_tickets_return_partial : ∀ cfg t0 wait fns s0 z s3 s4 i ci v r j cj ts,
  (0 <= t0)%Z → mreach cfg t0 s0 →
  rtc (im_step cfg wait) (is_init mem_inactive fns s0) z →
  (∀ n k m, ReceivedAs (is_inv z) n k m → TicketIn m (r_result r) → FnFinished (is_inv z) k) →
  rtc (mstep cfg) (is_server z) s3 → rtc (mstep cfg) s3 s4 →
  in_calls (ms_inst (is_server z)) !! i = Some ci → Creates ci v → r ∈ cl_got ci →
  length (in_calls (ms_inst (is_server z))) <= j → in_calls (ms_inst s3) !! j = Some cj →
  SetsState cj (r_result r) true → returned cj →
  (∀ i' c', in_calls (ms_inst s4) !! i' = Some c' → SetsState c' (r_result r) false →
     i' ∈ is_calls z ∨ ∃ c1, in_calls (ms_inst (is_server z)) !! i' = Some c1 ∧ returned c1) →
  on_the_way (ms_inst s3) = [] →
  (∀ x, x ∈ hev_visits (in_events (ms_inst s4)) →
        ¬ OlderThan (cfg_ticket_ttl cfg) x.2 (r_result r) ∧ ¬ ExpiredAt x.2 (stored_ticket (r_result r) v)) →
  SnapshotBetween cfg (ms_inst s3) (ms_inst s4) ts →
  stored_ticket (r_result r) v ∈ ts.
Proof. exact mem_returned_offered. Qed.
Print Assumptions C123_rejected_tickets_return_partial.

(** The claim with Redis: the invocation is made to instance [m], the ticket is
    activated at instance [l] with a good answer, and any instance [w] that has
    applied everything in the stream offers it. *)
Definition C123_rejected_tickets_return_redis (wait : bool) : Prop :=
  ∀ cfg fns m s0 z s3 s4 n x i ci v r l y j cj k u r' w x3 x4 ts,
  yreach cfg s0 →
  rtc (ir_step cfg m wait) (is_init (red_inactive m) fns s0) z → v_returned (is_inv z) →
  HandedOut (is_init (red_inactive m) fns s0) z (r_result r) →
  rtc (ystep cfg) (is_server z) s3 → rtc (ystep cfg) s3 s4 →
  ry_insts (is_server z) !! n = Some x → AllSendable x →
  in_calls (rx_inst x) !! i = Some ci → Creates ci v → r ∈ cl_got ci → Good r →
  NotYet (is_server z) l j →
  ry_insts s3 !! l = Some y → AllSendable y → in_calls (rx_inst y) !! j = Some cj →
  cl_ups cj !! k = Some (Update CmdActivate (r_result r) u) → cl_got cj !! k = Some r' → Good r' →
  (∀ n' x' i' c', ry_insts s4 !! n' = Some x' → in_calls (rx_inst x') !! i' = Some c' → SetsState c' (r_result r) false →
     ∃ x1, ry_insts (is_server z) !! n' = Some x1 ∧ AllSendable x1 ∧
       (n' = m ∧ i' ∈ is_calls z ∨ ∃ c1, in_calls (rx_inst x1) !! i' = Some c1 ∧ AllGood c1)) →
  ry_insts s3 !! w = Some x3 → CaughtUp s3 x3 → ry_insts s4 !! w = Some x4 →
  (∀ e, e ∈ hev_visits (in_events (rx_inst x4)) →
        ¬ OlderThan (cfg_ticket_ttl cfg) e.2 (r_result r) ∧ ¬ ExpiredAt e.2 (stored_ticket (r_result r) v)) →
  SnapshotBetween cfg (rx_inst x3) (rx_inst x4) ts →
  stored_ticket (r_result r) v ∈ ts.

(** What holds: it is so if the functions ended normally and the answers to the
    deactivations were good ones. *)
Theorem C123_rejected_tickets_return_redis_partial : ∀ cfg wait fns m s0 z s3 s4 n x i ci v r l y j cj k u r' w x3 x4 ts,
  yreach cfg s0 →
  rtc (ir_step cfg m wait) (is_init (red_inactive m) fns s0) z →
  (∀ n k ma, ReceivedAs (is_inv z) n k ma → TicketIn ma (r_result r) → FnFinished (is_inv z) k) →
  DeactivationsStored m z →
  rtc (ystep cfg) (is_server z) s3 → rtc (ystep cfg) s3 s4 →
  ry_insts (is_server z) !! n = Some x → AllSendable x →
  in_calls (rx_inst x) !! i = Some ci → Creates ci v → r ∈ cl_got ci → Good r →
  NotYet (is_server z) l j →
  ry_insts s3 !! l = Some y → AllSendable y → in_calls (rx_inst y) !! j = Some cj →
  cl_ups cj !! k = Some (Update CmdActivate (r_result r) u) → cl_got cj !! k = Some r' → Good r' →
  (∀ n' x' i' c', ry_insts s4 !! n' = Some x' → in_calls (rx_inst x') !! i' = Some c' → SetsState c' (r_result r) false →
     ∃ x1, ry_insts (is_server z) !! n' = Some x1 ∧ AllSendable x1 ∧
       (n' = m ∧ i' ∈ is_calls z ∨ ∃ c1, in_calls (rx_inst x1) !! i' = Some c1 ∧ AllGood c1)) →
  ry_insts s3 !! w = Some x3 → CaughtUp s3 x3 → ry_insts s4 !! w = Some x4 →
  (∀ e, e ∈ hev_visits (in_events (rx_inst x4)) →
        ¬ OlderThan (cfg_ticket_ttl cfg) e.2 (r_result r) ∧ ¬ ExpiredAt e.2 (stored_ticket (r_result r) v)) →
  SnapshotBetween cfg (rx_inst x3) (rx_inst x4) ts →
  stored_ticket (r_result r) v ∈ ts.
Proof. exact red_returned_offered. Qed.
Print Assumptions C123_rejected_tickets_return_redis_partial.

(** ** Runs *)
Section example.
Local Open Scope string_scope.
Local Open Scope list_scope.

(** One function returns two matches with the same ticket and fails. The first match
    is sent on, the goroutine of the second has not yet sent its deactivation, and
    the invocation returns. *)
Definition rt_failed (t : ticket) (ina : gset string) : istate :=
  IState (InvReturned None) FanIdle [(FnGrpc, FnDone false)] [is_gor t GDone; is_gor t (GRequest [tk_id t])] []
    [(0, tk_id t)] [0] [] ina 0 false.

Section runs.
Context {St : Type} (step : St → St → Prop) (calls : St → list call) (inactive : St → gset string) (wait : bool).
Local Notation run := (rtc (is_step step calls inactive wait)).
Local Ltac own t := eapply rtc_l; [eapply IS_own; [t|reflexivity..]|].

Lemma rt_run s s' s2 s3 t c : step s s' → calls s' = calls s ++ [match_call [tk_id t]] →
  rtc step s' s2 → calls s2 !! length (calls s) = Some c → returned c →
  step s2 s3 → calls s3 = calls s2 ++ [match_call [tk_id t]] →
  run (ISys s (is_running (inactive s)) []) (ISys s3 (rt_failed t (inactive s3)) [length (calls s); length (calls s2)]).
Proof.
  intros Hs Hc Hrun Hc2 Hret Hs3 Hc3.
  eapply rtc_l; [eapply (IS_recv _ _ _ _ _ _ _ 0 1 (Some (is_match t)) [tk_id t]); [reflexivity|reflexivity|apply is_match_ids|exact Hs|exact Hc]|].
  eapply rtc_transitive.
  { eapply (is_lift _ _ _ _ s' s2 (is_received t (inactive s')) [length (calls s)]); [exact Hrun|reflexivity|reflexivity]. }
  eapply rtc_l.
  { eapply (IS_answered _ _ _ _ s2 _ _ 0 (is_gor t (GRequest [tk_id t])) [tk_id t] (length (calls s)) c); [reflexivity..|exact Hc2|exact Hret]. }
  own ltac:(eapply (V_answered _ 0); [reflexivity|reflexivity|reflexivity|apply not_elem_of_nil]).
  destruct wait.
  - own ltac:(eapply (V_check _ 0); [reflexivity|reflexivity|reflexivity|done]).
    own ltac:(eapply (V_hand _ 0); reflexivity).
    own ltac:(eapply (V_stream _ 0); [reflexivity|reflexivity|done]).
    eapply rtc_l; [eapply (IS_recv _ _ _ _ _ _ _ 0 2 (Some (is_match t)) [tk_id t]); [reflexivity|reflexivity|apply is_match_ids|exact Hs3|exact Hc3]|].
    own ltac:(eapply (V_fail _ 0); reflexivity).
    own ltac:(eapply V_all_done; [reflexivity|reflexivity|constructor; [by exists false|constructor]]).
    own ltac:(eapply V_return; reflexivity). apply rtc_refl.
  - own ltac:(eapply (V_hand _ 0); reflexivity).
    own ltac:(eapply (V_check_after _ 0); [reflexivity|reflexivity|reflexivity|done]).
    own ltac:(eapply (V_stream _ 0); [reflexivity|reflexivity|done]).
    eapply rtc_l; [eapply (IS_recv _ _ _ _ _ _ _ 0 2 (Some (is_match t)) [tk_id t]); [reflexivity|reflexivity|apply is_match_ids|exact Hs3|exact Hc3]|].
    own ltac:(eapply (V_fail _ 0); reflexivity).
    own ltac:(eapply V_all_done; [reflexivity|reflexivity|constructor; [by exists false|constructor]]).
    own ltac:(eapply V_return; reflexivity). apply rtc_refl.
Qed.

Lemma rt_handed_out s s3 t cs : HandedOut (is_init inactive [FnGrpc] s) (ISys s3 (rt_failed t (inactive s3)) cs) (tk_id t).
Proof.
  exists 0, 0, (Some (is_match t)). split; [exact (le_n 0)|]. split; [by exists (is_gor t GDone)|]. split; [left|apply is_match_in].
Qed.
End runs.

(** In-memory store: the client activates the ticket again, and then the second
    deactivation is sent. *)
Local Ltac tidy1 := cbn -[ex_value ex_t0 ex_now giga apply_update Z.mul Z.add mem_new].
Local Ltac tidy :=
  tidy1; repeat (match goal with |- context [(?a <=? Z.of_nat ?b)%Z] =>
    let r := eval vm_compute in (a <=? Z.of_nat b)%Z in change (a <=? Z.of_nat b)%Z with r end; tidy1).
Local Ltac go t := eapply rtc_l; [t|tidy].
Local Ltac loc t := go ltac:(apply M_local; t).
Definition rt_call : msys :=
  MSys (Inst [ex_create; ex_activate; st_off_call; match_call [e2e_key]] (OCollect []) (PGet []) [] false st_off_cache
          (in_events (ms_inst ex_final) ++ [HUpd st_deact]))
       (MemState (ex_t0 + 2 * giga)%Z 0) (ex_t0 + 2 * giga)%Z st_off_hist.
Definition rt_late_call : call := Call [st_deact] 1 1 [] [Response "1700000003-1" None].
Definition rt_end : msys :=
  MSys (Inst [ex_create; ex_activate; st_off_call; rt_late_call; st_on_call] (OCollect []) (PGet []) [] false
          (apply_update (apply_update st_off_cache st_act) st_deact)
          (in_events (ms_inst ex_final) ++ [HUpd st_deact; HUpd st_act; HUpd st_deact]))
       (MemState (ex_t0 + 3 * giga)%Z 1) (ex_t0 + 3 * giga)%Z
       (st_off_hist ++ [Sent (Request st_act 4) (Response "1700000003-0" None) st_act;
                        Sent (Request st_deact 3) (Response "1700000003-1" None) st_deact]).

Lemma rt_begin : mstep ex_cfg st_off rt_call.
Proof.
  apply M_local.
  exact (L_call _ _ [ex_create; ex_activate; st_off_call] _ _ _ _ _ _ [st_deact] _ (Is_match _ [e2e_key])).
Qed.
Lemma rt_late : rtc (mstep ex_cfg) rt_call rt_end.
Proof.
  unfold rt_call, st_off_hist, ex_final. cbn [ms_hist ms_inst in_events app].
  loc ltac:(eapply (L_call _ _ _ _ _ _ _ _ _ [st_act]); eapply (Is_activate _ [e2e_key]); vm_compute; reflexivity).
  loc ltac:(eapply (L_accept _ _ _ _ _ _ _ _ _ 4); reflexivity).
  loc ltac:(eapply (L_accept _ _ _ _ _ _ _ _ _ 3); reflexivity).
  go ltac:(eapply (M_id _ _ _ _ _ _ _ _ _ _ _ _ _ _ (ex_t0 + 3 * giga)%Z (ex_t0 + 3 * giga)%Z st_act
                     (Response "1700000003-0" None) (MemState (ex_t0 + 3 * giga)%Z 0));
           [unfold ex_t0, giga; lia|unfold ex_t0, giga; lia|vm_compute; reflexivity]).
  go ltac:(eapply M_give).
  go ltac:(eapply (M_id _ _ _ _ _ _ _ _ _ _ _ _ _ _ (ex_t0 + 3 * giga)%Z (ex_t0 + 3 * giga)%Z st_deact
                     (Response "1700000003-1" None) (MemState (ex_t0 + 3 * giga)%Z 1));
           [unfold ex_t0, giga; lia|unfold ex_t0, giga; lia|vm_compute; reflexivity]).
  go ltac:(eapply M_give).
  go ltac:(eapply M_sent).
  loc ltac:(eapply L_deliver_buffered; [reflexivity|intros [_ ?]; simpl in *; lia|simpl; lia]).
  loc ltac:(eapply (L_receive _ _ _ _ _ _ _ _ _ 4); [reflexivity|split; simpl; lia|reflexivity]).
  loc ltac:(eapply L_deliver_buffered; [reflexivity|intros [_ ?]; simpl in *; lia|simpl; lia]).
  loc ltac:(eapply (L_receive _ _ _ _ _ _ _ _ _ 3); [reflexivity|split; simpl; lia|reflexivity]).
  loc ltac:(eapply L_delivered).
  go ltac:(eapply M_poll_timeout).
  loc ltac:(eapply L_push; simpl; lia).
  loc ltac:(eapply L_push; simpl; lia).
  loc ltac:(eapply L_apply).
  loc ltac:(eapply L_apply).
  loc ltac:(eapply L_pushed).
  constructor.
Qed.

Lemma rt_calls_of (z : list nat) c3 s : in_calls (ms_inst s) = [ex_create; ex_activate; st_off_call] ++ c3 →
  (∀ i c, c3 !! i = Some c → SetsState c e2e_key false → 3 + i ∈ z) → 2 ∈ z → ∀ s0,
  ∀ i' c', in_calls (ms_inst s) !! i' = Some c' → SetsState c' e2e_key false →
     i' ∈ z ∨ ∃ c1, in_calls (ms_inst s0) !! i' = Some c1 ∧ returned c1.
Proof.
  intros E H3 H2 s0 i c Hi Hset. left. rewrite E in Hi. destruct i as [|[|[|i]]]; simpl in Hi.
  - injection Hi as <-. destruct Hset as [w Hw]. cbn [cl_ups ex_create] in Hw. apply elem_of_list_singleton in Hw. done.
  - injection Hi as <-. destruct Hset as [w Hw]. cbn [cl_ups ex_activate] in Hw. apply elem_of_list_singleton in Hw. done.
  - exact H2.
  - exact (H3 i c Hi Hset).
Qed.

Lemma rt_run_mem wait : rtc (im_step ex_cfg wait) (is_init mem_inactive [FnGrpc] ex_final)
  (ISys rt_call (rt_failed e2e_stored (mem_inactive rt_call)) [2; 3]).
Proof.
  eapply rtc_transitive; [apply is_run_start|].
  apply (rt_run (mstep ex_cfg) mem_calls mem_inactive wait ex_final im_call st_off rt_call e2e_stored st_off_call).
  - exact im_begin.
  - rewrite im_key. exact eq_refl.
  - eapply rtc_transitive; [exact im_answer|exact im_apply].
  - exact eq_refl.
  - exact (conj eq_refl eq_refl).
  - exact rt_begin.
  - rewrite im_key. exact eq_refl.
Qed.

Theorem C123_rejected_tickets_return_refuted : ∀ wait, ¬ C123_rejected_tickets_return wait.
Proof.
  intros wait H.
  assert (Hs : SnapshotBetween ex_cfg (ms_inst rt_end) (ms_inst rt_end) []).
  { exists [], (e2e_calm e2e_key). split; [exact eq_refl|]. split; [|vm_compute; reflexivity].
    apply (e2e_calm_ok _ _ e2e_stored). vm_compute. reflexivity. }
  assert (Hin : stored_ticket e2e_key ex_value ∈ []).
  2: by apply elem_of_nil in Hin.
  refine (H ex_cfg ex_t0 [FnGrpc] ex_final (ISys rt_call (rt_failed e2e_stored (mem_inactive rt_call)) [2; 3])
    rt_end rt_end 0 ex_create ex_value (Response e2e_key None) 4 st_on_call []
    _ im_reach (rt_run_mem wait) (ex_intro _ None eq_refl) _ rt_late (rtc_refl _ _) eq_refl eq_refl (elem_of_list_here _ _) (le_n 4) eq_refl
    _ (conj eq_refl eq_refl) (rt_calls_of [2; 3] [rt_late_call; st_on_call] rt_end eq_refl _ _ rt_call) eq_refl _ Hs).
  - by vm_compute.
  - cbn [r_result]. rewrite <-im_key. exact (rt_handed_out mem_inactive ex_final rt_call e2e_stored [2; 3]).
  - exists "". exact (elem_of_list_here _ _).
  - intros [|[|i]] c Hc [w Hw]; simpl in Hc; simplify_eq.
    + exact (elem_of_list_further _ _ _ (elem_of_list_here _ _)).
    + cbn [cl_ups st_on_call] in Hw. apply elem_of_list_singleton in Hw. done.
  - exact (elem_of_list_here _ _).
  - intros x Hx. destruct (not_elem_of_nil x Hx).
Qed.
Print Assumptions C123_rejected_tickets_return_refuted.

(** The function ends normally, the client activates the ticket again, and it is
    offered: the theorem applies. *)
Example C123_example : ∀ wait,
  rtc (im_step ex_cfg wait) (is_init mem_inactive [FnGrpc] ex_final) (ISys st_off (is_done e2e_stored (mem_inactive st_off)) [2]) ∧
  rtc (mstep ex_cfg) st_off st_on ∧ returned st_on_call ∧ on_the_way (ms_inst st_on) = [] ∧
  e2e_key ∈ c_inactive (in_cache (ms_inst st_off)) ∧
  ∀ ts, SnapshotBetween ex_cfg (ms_inst st_on) (ms_inst st_on) ts → stored_ticket e2e_key ex_value ∈ ts.
Proof.
  intros wait.
  assert (Hrun : rtc (im_step ex_cfg wait) (is_init mem_inactive [FnGrpc] ex_final)
                   (ISys st_off (is_done e2e_stored (mem_inactive st_off)) [2])).
  { eapply rtc_transitive; [apply is_run_start|]. apply im_run; [exact im_apply|exact eq_refl]. }
  split; [exact Hrun|]. split; [exact st_reach_on|]. split; [exact (conj eq_refl eq_refl)|]. split; [exact eq_refl|].
  split; [apply (bool_decide_unpack _); vm_compute; exact I|]. intros ts.
  refine (C123_rejected_tickets_return_partial ex_cfg ex_t0 wait [FnGrpc] ex_final
    (ISys st_off (is_done e2e_stored (mem_inactive st_off)) [2])
    st_on st_on 0 ex_create ex_value (Response e2e_key None) 3 st_on_call ts
    _ im_reach Hrun _ st_reach_on (rtc_refl _ _) eq_refl eq_refl (elem_of_list_here _ _) (le_n 3) eq_refl
    _ (conj eq_refl eq_refl) (rt_calls_of [2] [st_on_call] st_on eq_refl _ _ st_off) eq_refl _).
  - by vm_compute.
  - intros n k m (g & Hg & <- & _) _. cbn [is_inv is_done v_gors] in Hg. apply list_lookup_singleton_Some in Hg as [_ <-].
    by exists FnGrpc.
  - exists "". exact (elem_of_list_here _ _).
  - intros [|i] c Hc [w Hw]; simpl in Hc; simplify_eq.
    cbn [cl_ups st_on_call] in Hw. apply elem_of_list_singleton in Hw. done.
  - exact (elem_of_list_here _ _).
  - intros x Hx. destruct (not_elem_of_nil x Hx).
Qed.

(** Redis: the ticket is activated again at the second instance. *)
Local Ltac rtidy1 := cbn -[rex_create rex_activate rex_value rex_now rex_id rex_id2 rst_id rex_key rst_deact rex_cache giga apply_update Z.mul Z.add Z.sub cmds_of xtrim_minid
                         redis_results redis_get unix_secs].
Local Ltac rtidy :=
  rtidy1; repeat (match goal with |- context [(?a <=? Z.of_nat ?b)%Z] =>
    let r := eval vm_compute in (a <=? Z.of_nat b)%Z in change (a <=? Z.of_nat b)%Z with r end; rtidy1).
Local Ltac rgo t := eapply rtc_l; [t|rtidy].
Local Ltac rloc n t := rgo ltac:(eapply (Y_local _ _ _ _ _ _ n); [reflexivity|t]).
Definition rr_id : sid := (1700000000123, 3)%Z.
Definition rr_id2 : sid := (1700000000123, 4)%Z.
Definition rr_stream : stream :=
  Stream [Entry rex_id ["ticket"; rex_value]; Entry rex_id2 ["activate"; rex_key]; Entry rst_id ["deactivate"; rex_key];
          Entry rr_id ["activate"; rex_key]] rr_id.
Definition rr_stream2 : stream :=
  Stream [Entry rex_id ["ticket"; rex_value]; Entry rex_id2 ["activate"; rex_key]; Entry rst_id ["deactivate"; rex_key];
          Entry rr_id ["activate"; rex_key]; Entry rr_id2 ["deactivate"; rex_key]] rr_id2.
Definition rr_on_call : call := Call [rex_activate] 1 1 [] [Response "1700000000123-3" None].
Definition rr_late_call : call := Call [rst_deact] 1 1 [] [Response "1700000000123-4" None].

(** The second instance after the activation has been stored, and after it has been
    applied. *)
Definition rr_inst1 (c : cache) (ev : list hev) (cur : sid) : rinst :=
  RInst (Inst [rex_done2; rr_on_call] (OCollect []) (PGet []) [] false c ev) cur
        [(Request rex_activate 0, Response "1700000000123-1" None); (Request rex_activate 1, Response "1700000000123-3" None)].
Definition rr_log : list logent := rex_log2 ++ [LogEnt rst_id (Request rst_deact 1) 0; LogEnt rr_id (Request rex_activate 1) 1].
Definition rr_stored (x0 : rinst) : rsys :=
  RSys [x0; rr_inst1 rst_cache [HUpd rex_seen; HUpd rex_activate; HUpd rst_deact] rst_id] rr_stream [] rr_log [rex_thr; rex_thr; rex_thr; rex_thr].
Definition rr_on_inst : rinst :=
  rr_inst1 (apply_update rst_cache rex_activate) [HUpd rex_seen; HUpd rex_activate; HUpd rst_deact; HUpd rex_activate] rr_id.
Definition rr_on : rsys := RSys [rst_inst0; rr_on_inst] rr_stream [] rr_log [rex_thr; rex_thr; rex_thr; rex_thr].

Definition rr_inst0 (cs : list call) (h : list (request * response)) : rinst :=
  RInst (Inst cs (OCollect []) (PGet []) [] false rex_cache [HUpd rex_seen; HUpd rex_activate]) rex_id2 h.
Definition rr_h : list (request * response) :=
  [(Request rex_create 0, Response rex_key None); (Request rst_deact 1, Response "1700000000123-2" None)].
Definition rr_call : rsys :=
  RSys [rr_inst0 [rex_done1; rst_call; match_call [rex_key]] rr_h; rst_inst1] rst_stream []
       (rex_log2 ++ [LogEnt rst_id (Request rst_deact 1) 0]) [rex_thr; rex_thr; rex_thr].

Lemma rr_activate x0 : rtc (ystep rex_cfg)
  (RSys [x0; rst_inst1] rst_stream [] (rex_log2 ++ [LogEnt rst_id (Request rst_deact 1) 0]) [rex_thr; rex_thr; rex_thr]) (rr_stored x0).
Proof.
  unfold rst_inst1.
  rloc 1 ltac:(eapply (L_call _ _ _ _ _ _ _ _ _ [rex_activate]); eapply (Is_activate _ [rex_key]); vm_compute; reflexivity).
  rloc 1 ltac:(eapply (L_accept _ _ _ _ _ _ _ _ _ 1); reflexivity).
  rloc 1 ltac:(eapply L_out_timeout).
  unfold redis_begin.
  replace (cmds_of [Request rex_activate 1]) with [(Request rex_activate 1, ["activate"; rex_key])] by (vm_compute; reflexivity).
  eapply rtc_l; [eapply (Y_xadd _ _ _ _ _ _ 1 _ _ _ _ _ _ 1699999999999%Z); reflexivity|].
  change (xadd rst_stream 1699999999999 ["activate"; rex_key]) with (rr_stream, rr_id). rtidy.
  eapply rtc_l; [eapply (Y_sent _ _ _ _ _ _ 1 _ _ _ rex_now); reflexivity|].
  change (unix_secs rex_now - cfg_ticket_ttl rex_cfg)%Z with rex_thr.
  replace (xtrim_minid rr_stream rex_thr) with rr_stream by (vm_compute; reflexivity).
  unfold finish_send.
  replace (redis_results [Request rex_activate 1] [Some rr_id]) with [Response "1700000000123-3" None] by (vm_compute; reflexivity).
  rtidy.
  rloc 1 ltac:(eapply L_deliver_buffered; [reflexivity|intros [_ ?]; simpl in *; lia|simpl; lia]).
  rloc 1 ltac:(eapply (L_receive _ _ _ _ _ _ _ _ _ 1); [reflexivity|split; simpl; lia|reflexivity]).
  rloc 1 ltac:(eapply L_delivered).
  constructor.
Qed.

Lemma rr_apply : rtc (ystep rex_cfg) (rr_stored rst_inst0) rr_on.
Proof.
  unfold rr_stored, rr_inst1.
  eapply rtc_l; [eapply (Y_poll _ _ _ _ _ _ 1 _ true); reflexivity|].
  unfold poll_redis. cbn [rx_cursor rinst0 cfg_in_max rex_cfg].
  replace (redis_get 10 rr_stream rst_id true) with (Filter.Done [rex_activate], rr_id) by (vm_compute; reflexivity). rtidy.
  rloc 1 ltac:(eapply L_push; simpl; lia).
  rloc 1 ltac:(eapply L_apply).
  rloc 1 ltac:(eapply L_pushed).
  constructor.
Qed.

(** The second deactivation comes after the activation. *)
Definition rr_end_inst0 : rinst :=
  rr_inst0 [rex_done1; rst_call; rr_late_call] (rr_h ++ [(Request rst_deact 2, Response "1700000000123-4" None)]).
Definition rr_end_inst1 : rinst :=
  rr_inst1 (apply_update (apply_update rst_cache rex_activate) rst_deact)
    [HUpd rex_seen; HUpd rex_activate; HUpd rst_deact; HUpd rex_activate; HUpd rst_deact] rr_id2.
Definition rr_end : rsys :=
  RSys [rr_end_inst0; rr_end_inst1] rr_stream2 [] (rr_log ++ [LogEnt rr_id2 (Request rst_deact 2) 0])
    [rex_thr; rex_thr; rex_thr; rex_thr; rex_thr].

Lemma rr_begin : ystep rex_cfg rst_off rr_call.
Proof.
  exact (Y_local _ [rst_inst0; rst_inst1] _ _ _ _ 0 rst_inst0 _ eq_refl (L_call _ _ [rex_done1; rst_call] _ _ _ _ _ _ [rst_deact] _ (Is_match _ [rex_key]))).
Qed.
Lemma rr_late : rtc (ystep rex_cfg) (rr_stored (rr_inst0 [rex_done1; rst_call; match_call [rex_key]] rr_h)) rr_end.
Proof.
  unfold rr_stored, rr_inst1, rr_inst0, rr_h, rr_log.
  rloc 0 ltac:(eapply (L_accept _ _ _ _ _ _ _ _ _ 2); reflexivity).
  rloc 0 ltac:(eapply L_out_timeout).
  unfold redis_begin.
  replace (cmds_of [Request rst_deact 2]) with [(Request rst_deact 2, ["deactivate"; rex_key])] by (vm_compute; reflexivity).
  eapply rtc_l; [eapply (Y_xadd _ _ _ _ _ _ 0 _ _ _ _ _ _ 1699999999999%Z); reflexivity|].
  change (xadd rr_stream 1699999999999 ["deactivate"; rex_key]) with (rr_stream2, rr_id2). rtidy.
  eapply rtc_l; [eapply (Y_sent _ _ _ _ _ _ 0 _ _ _ rex_now); reflexivity|].
  change (unix_secs rex_now - cfg_ticket_ttl rex_cfg)%Z with rex_thr.
  replace (xtrim_minid rr_stream2 rex_thr) with rr_stream2 by (vm_compute; reflexivity).
  unfold finish_send.
  replace (redis_results [Request rst_deact 2] [Some rr_id2]) with [Response "1700000000123-4" None] by (vm_compute; reflexivity).
  rtidy.
  rloc 0 ltac:(eapply L_deliver_buffered; [reflexivity|intros [_ ?]; simpl in *; lia|simpl; lia]).
  rloc 0 ltac:(eapply (L_receive _ _ _ _ _ _ _ _ _ 2); [reflexivity|split; simpl; lia|reflexivity]).
  rloc 0 ltac:(eapply L_delivered).
  eapply rtc_l; [eapply (Y_poll _ _ _ _ _ _ 1 _ true); reflexivity|].
  unfold poll_redis. cbn [rx_cursor rinst0 cfg_in_max rex_cfg].
  replace (redis_get 10 rr_stream2 rst_id true) with (Filter.Done [rex_activate; rst_deact], rr_id2) by (vm_compute; reflexivity). rtidy.
  rloc 1 ltac:(eapply L_push; simpl; lia).
  rloc 1 ltac:(eapply L_push; simpl; lia).
  rloc 1 ltac:(eapply L_apply).
  rloc 1 ltac:(eapply L_apply).
  rloc 1 ltac:(eapply L_pushed).
  constructor.
Qed.

Lemma rr_sendable cs h : Forall (λ c, Forall Sendable (cl_ups c)) cs → AllSendable (rr_inst0 cs h).
Proof. intros H c Hc. rewrite Forall_forall in H. exact (H c Hc). Qed.
Lemma rr_sendable1 c ev cur : AllSendable (rr_inst1 c ev cur).
Proof.
  intros cl Hcl. cbn [rr_inst1 rx_inst in_calls] in Hcl. rewrite !elem_of_cons in Hcl.
  destruct Hcl as [->|[->|Hcl]]; [apply Forall_singleton; vm_compute; done..|by apply elem_of_nil in Hcl].
Qed.

Lemma rr_calls_of (z : list nat) c2 h y s : y = rr_inst0 ([rex_done1; rst_call] ++ c2) h →
  (∀ i c, c2 !! i = Some c → 2 + i ∈ z) → 1 ∈ z →
  ∀ s0 x0, ry_insts s0 !! 0 = Some x0 → AllSendable x0 →
  ∀ c ev cur, ry_insts s = [y; rr_inst1 c ev cur] →
  ∀ n' x' i' c', ry_insts s !! n' = Some x' → in_calls (rx_inst x') !! i' = Some c' → SetsState c' rex_key false →
     ∃ x1, ry_insts s0 !! n' = Some x1 ∧ AllSendable x1 ∧
       (n' = 0 ∧ i' ∈ z ∨ ∃ c1, in_calls (rx_inst x1) !! i' = Some c1 ∧ AllGood c1).
Proof.
  intros -> H2 H1 s0 x0 Hx0 Ha0 c ev cur E n x i ci Hx Hi [w Hw]. rewrite E in Hx. destruct n as [|[|n]]; simpl in Hx; [| |discriminate].
  - injection Hx as <-. exists x0. split; [done|]. split; [done|]. left. split; [done|].
    cbn [rr_inst0 rx_inst in_calls] in Hi. destruct i as [|[|i]]; simpl in Hi.
    + injection Hi as <-. cbn [cl_ups rex_done1] in Hw. apply elem_of_list_singleton in Hw. done.
    + exact H1.
    + exact (H2 i ci Hi).
  - exfalso. injection Hx as <-. cbn [rr_inst1 rx_inst in_calls] in Hi. destruct i as [|[|i]]; simpl in Hi; [| |discriminate].
    + injection Hi as <-. cbn [cl_ups rex_done2] in Hw. apply elem_of_list_singleton in Hw. done.
    + injection Hi as <-. cbn [cl_ups rr_on_call] in Hw. apply elem_of_list_singleton in Hw. done.
Qed.

Lemma rt_run_redis wait : rtc (ir_step rex_cfg 0 wait) (is_init (red_inactive 0) [FnGrpc] rex_final)
  (ISys rr_call (rt_failed e2e_rstored (red_inactive 0 rr_call)) [1; 2]).
Proof.
  eapply rtc_transitive; [apply is_run_start|].
  apply (rt_run (ystep rex_cfg) (red_calls 0) (red_inactive 0) wait rex_final ir_call rst_off rr_call e2e_rstored rst_call).
  - exact ir_begin.
  - rewrite ir_key. exact eq_refl.
  - exact ir_stored.
  - exact eq_refl.
  - exact (conj eq_refl eq_refl).
  - exact rr_begin.
  - rewrite ir_key. exact eq_refl.
Qed.

Lemma rr_call_sendable cs h : cs = [rst_call; rr_late_call] ∨ cs = [rst_call; match_call [rex_key]] ∨ cs = [rst_call] →
  AllSendable (rr_inst0 (rex_done1 :: cs) h).
Proof.
  intros H. apply rr_sendable. constructor; [apply Forall_singleton; vm_compute; done|].
  destruct H as [->|[->| ->]]; repeat (constructor; [apply Forall_singleton; vm_compute; done|]); constructor.
Qed.

Theorem C123_rejected_tickets_return_redis_refuted : ∀ wait, ¬ C123_rejected_tickets_return_redis wait.
Proof.
  intros wait H.
  assert (Hs : SnapshotBetween rex_cfg (rx_inst rr_end_inst1) (rx_inst rr_end_inst1) []).
  { exists [], (e2e_calm rex_key). split; [exact eq_refl|]. split; [|vm_compute; reflexivity].
    apply (e2e_calm_ok _ _ e2e_rstored). vm_compute. reflexivity. }
  assert (Hin : stored_ticket rex_key rex_value ∈ []).
  2: by apply elem_of_nil in Hin.
  assert (Hcu : CaughtUp rr_end rr_end_inst1) by (vm_compute; reflexivity).
  assert (Hrun : rtc (ystep rex_cfg) rr_call rr_end).
  { eapply rtc_transitive; [apply rr_activate|exact rr_late]. }
  refine (H rex_cfg [FnGrpc] 0 rex_final (ISys rr_call (rt_failed e2e_rstored (red_inactive 0 rr_call)) [1; 2])
    rr_end rr_end 0 (rr_inst0 [rex_done1; rst_call; match_call [rex_key]] rr_h) 0 rex_done1 rex_value (Response rex_key None)
    1 rr_end_inst1 1 rr_on_call 0 "" (Response "1700000000123-3" None) 1 rr_end_inst1 rr_end_inst1 []
    ir_reach (rt_run_redis wait) (ex_intro _ None eq_refl) _ Hrun (rtc_refl _ _) eq_refl _ eq_refl eq_refl (elem_of_list_here _ _) _
    _ eq_refl _ eq_refl eq_refl eq_refl _ _ eq_refl Hcu eq_refl _ Hs).
  - cbn [r_result]. rewrite <-ir_key. exact (rt_handed_out (red_inactive 0) rex_final rr_call e2e_rstored [1; 2]).
  - apply rr_call_sendable. right. left. exact eq_refl.
  - by split.
  - intros y [= <-]. exact (le_n 1).
  - apply rr_sendable1.
  - by split.
  - refine (rr_calls_of [1; 2] [rr_late_call] _ rr_end_inst0 rr_end eq_refl _ (elem_of_list_here _ _) rr_call
      (rr_inst0 [rex_done1; rst_call; match_call [rex_key]] rr_h) eq_refl _ _ _ _ eq_refl).
    + intros [|i] c Hc; [|discriminate]. exact (elem_of_list_further _ _ _ (elem_of_list_here _ _)).
    + apply rr_call_sendable. right. left. exact eq_refl.
  - intros x Hx. destruct (not_elem_of_nil x Hx).
Qed.
Print Assumptions C123_rejected_tickets_return_redis_refuted.

(** The function ends normally: both instances will offer the ticket again, here the
    second one. *)
Example C123_example_redis : ∀ wait,
  rtc (ir_step rex_cfg 0 wait) (is_init (red_inactive 0) [FnGrpc] rex_final)
    (ISys rst_off (is_done e2e_rstored (red_inactive 0 rst_off)) [1]) ∧
  rtc (ystep rex_cfg) rst_off rr_on ∧ CaughtUp rr_on rr_on_inst ∧ rex_key ∈ c_inactive (in_cache (rx_inst rst_inst1)) ∧
  ∀ ts, SnapshotBetween rex_cfg (rx_inst rr_on_inst) (rx_inst rr_on_inst) ts → stored_ticket rex_key rex_value ∈ ts.
Proof.
  intros wait.
  assert (Hrun : rtc (ir_step rex_cfg 0 wait) (is_init (red_inactive 0) [FnGrpc] rex_final)
    (ISys rst_off (is_done e2e_rstored (red_inactive 0 rst_off)) [1])).
  { eapply rtc_transitive; [apply is_run_start|].
    apply (ir_run wait rst_off rst_call); [exact ir_stored|exact eq_refl|exact (conj eq_refl eq_refl)]. }
  assert (Hcu : CaughtUp rr_on rr_on_inst) by (vm_compute; reflexivity).
  assert (Hon : rtc (ystep rex_cfg) rst_off rr_on).
  { eapply rtc_transitive; [apply rr_activate|exact rr_apply]. }
  split; [exact Hrun|]. split; [exact Hon|]. split; [exact Hcu|].
  split; [apply (bool_decide_unpack _); vm_compute; exact I|]. intros ts.
  refine (C123_rejected_tickets_return_redis_partial rex_cfg wait [FnGrpc] 0 rex_final
    (ISys rst_off (is_done e2e_rstored (red_inactive 0 rst_off)) [1])
    rr_on rr_on 0 rst_inst0 0 rex_done1 rex_value (Response rex_key None)
    1 rr_on_inst 1 rr_on_call 0 "" (Response "1700000000123-3" None) 1 rr_on_inst rr_on_inst ts
    ir_reach Hrun _ _ Hon (rtc_refl _ _) eq_refl _ eq_refl eq_refl (elem_of_list_here _ _) _
    _ eq_refl _ eq_refl eq_refl eq_refl _ _ eq_refl Hcu eq_refl _).
  - intros n k m (g & Hg & <- & _) _. cbn [is_inv is_done v_gors] in Hg. apply list_lookup_singleton_Some in Hg as [_ <-].
    by exists FnGrpc.
  - intros n j c r Hn Hj Hr. cbn [is_calls] in Hn. apply list_lookup_singleton_Some in Hn as [_ <-].
    unfold red_calls in Hj. cbn [is_server rst_off ry_insts lookup list_lookup rst_inst0 rx_inst in_calls] in Hj. injection Hj as <-.
    cbn [cl_got rst_call] in Hr. apply elem_of_list_singleton in Hr as ->. by split.
  - apply (rr_call_sendable [rst_call]). right. right. exact eq_refl.
  - by split.
  - intros y [= <-]. exact (le_n 1).
  - apply rr_sendable1.
  - by split.
  - refine (rr_calls_of [1] [] _ rst_inst0 rr_on eq_refl _ (elem_of_list_here _ _) rst_off rst_inst0 eq_refl _ _ _ _ eq_refl).
    + intros i c Hc. discriminate.
    + apply (rr_call_sendable [rst_call]). right. right. exact eq_refl.
  - intros x Hx. destruct (not_elem_of_nil x Hx).
Qed.
End example.
