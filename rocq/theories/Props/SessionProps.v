(** C132: the session guarantees. *)
From Coq Require Import Ascii String ZArith NArith Lia.
From stdpp Require Import prelude strings gmap relations.
From Verif.Model Require Import GoStrings Types Filter Wire Proto Cache Replica Handlers MemRepl Queues RedisRepl RedisReader Snapshot Chunk System RedisSystem.
From Verif.Spec Require Import HandlerSpec CacheSpec ChunkSpec RedisSpec SystemSpec EndToEndSpec AssignSpec StateSpec SessionSpec.
From Verif.Proofs Require Import SessionLemmas.
From Verif.Props Require Import SystemProps RedisSystemProps EndToEndProps StateProps.
Local Open Scope nat_scope.

(** ** Monotonic writes *)

(** If all answers to the first call carry an id, its updates are replicated before
    those of every call that begins, anywhere, after it has returned. *)
Theorem C132_monotonic_writes_partial : ∀ cfg s1 s2 n x i c m j p q,
  yreach cfg s1 → rtc (ystep cfg) s1 s2 →
  ry_insts s1 !! n = Some x → AllSendable x → in_calls (rx_inst x) !! i = Some c → AllGood c → NotYet s1 m j →
  WrittenAt s2 p n i → WrittenAt s2 q m j → p < q.
Proof. exact monotonic_writes. Qed.
Print Assumptions C132_monotonic_writes_partial.

(** With the in-memory store this is so for every call that has returned. *)
Theorem C132_monotonic_writes_in_memory : ∀ cfg t0 s1 s2 i c j p q,
  (0 <= t0)%Z → mreach cfg t0 s1 → rtc (mstep cfg) s1 s2 →
  in_calls (ms_inst s1) !! i = Some c → returned c → length (in_calls (ms_inst s1)) <= j →
  WrittenAtMem s2 p i → WrittenAtMem s2 q j → p < q.
Proof. exact monotonic_writes_mem. Qed.
Print Assumptions C132_monotonic_writes_in_memory.

(** ** Read your writes *)

(** A ticket was created and its id returned before call [j] of instance [m] began;
    this call's activation of the ticket is at position [p] of the history, with no
    deactivation after it. Every snapshot begun by an instance (this one or any
    other) that has applied position [p] contains the ticket. *)
Theorem C132_read_your_writes_partial : ∀ cfg s0 s1 s2 n x0 i ci v r m j w z1 z2 p u ts,
  yreach cfg s0 → rtc (ystep cfg) s0 s1 → rtc (ystep cfg) s1 s2 → Untrimmed s2 →
  ry_insts s0 !! n = Some x0 → AllSendable x0 → in_calls (rx_inst x0) !! i = Some ci → Creates ci v → AllGood ci → r ∈ cl_got ci →
  NotYet s0 m j → WrittenAt s1 p m j → history s1 !! p = Some (Update CmdActivate (r_result r) u) →
  (∀ q d, p < q → history s2 !! q ≠ Some (Update CmdDeactivate (r_result r) d)) →
  ry_insts s1 !! w = Some z1 → ry_insts s2 !! w = Some z2 →
  p < length (applied (rx_inst z1)) → NotDue cfg (rx_inst z2) (r_result r) v →
  SnapshotBetween cfg (rx_inst z1) (rx_inst z2) ts → stored_ticket (r_result r) v ∈ ts.
Proof. exact read_your_writes. Qed.
Print Assumptions C132_read_your_writes_partial.

Theorem C132_read_your_writes_in_memory_partial : ∀ cfg t0 s0 s1 s2 i ci v r j p u ts,
  (0 <= t0)%Z → mreach cfg t0 s0 → rtc (mstep cfg) s0 s1 → rtc (mstep cfg) s1 s2 →
  in_calls (ms_inst s0) !! i = Some ci → Creates ci v → returned ci → r ∈ cl_got ci →
  length (in_calls (ms_inst s0)) <= j → WrittenAtMem s1 p j →
  map sn_upd (ms_hist s1) !! p = Some (Update CmdActivate (r_result r) u) →
  (∀ q d, p < q → map sn_upd (ms_hist s2) !! q ≠ Some (Update CmdDeactivate (r_result r) d)) →
  p < length (applied (ms_inst s1)) → NotDue cfg (ms_inst s2) (r_result r) v →
  SnapshotBetween cfg (ms_inst s1) (ms_inst s2) ts → stored_ticket (r_result r) v ∈ ts.
Proof. exact read_your_writes_mem. Qed.
Print Assumptions C132_read_your_writes_in_memory_partial.

(** While an instance has applied the ticket but no activation of it, its snapshots
    do not contain it, whatever the clients have been told. *)
Theorem C132_not_before_applied : ∀ cfg s1 s2 w z1 z2 k ts,
  yreach cfg s1 → rtc (ystep cfg) s1 s2 → ry_insts s1 !! w = Some z1 → ry_insts s2 !! w = Some z2 →
  (∃ v, Update CmdTicket k v ∈ applied (rx_inst z1)) → (∀ u, Update CmdActivate k u ∉ applied (rx_inst z2)) →
  SnapshotBetween cfg (rx_inst z1) (rx_inst z2) ts → ∀ t, t ∈ ts → tk_id t ≠ k.
Proof. exact not_before. Qed.
Print Assumptions C132_not_before_applied.

(** ** Monotonic reads *)

(** What an instance has applied is never taken back ... *)
Theorem C132_monotonic_reads : ∀ cfg s1 s2 n x1 x2,
  rtc (ystep cfg) s1 s2 → ry_insts s1 !! n = Some x1 → ry_insts s2 !! n = Some x2 →
  applied (rx_inst x1) `prefix_of` applied (rx_inst x2).
Proof. exact monotonic_reads. Qed.
Print Assumptions C132_monotonic_reads.

(** ... so a ticket that is active in the cache of an instance is in all its
    snapshots from then on, until it applies a deactivation or expires it. *)
Theorem C132_monotonic_snapshots_partial : ∀ cfg s1 s2 n x1 x2 ts k v,
  yreach cfg s1 → rtc (ystep cfg) s1 s2 →
  ry_insts s1 !! n = Some x1 → Active (in_cache (rx_inst x1)) k → c_tickets (in_cache (rx_inst x1)) !! k = Some (stored_ticket k v) →
  ry_insts s2 !! n = Some x2 →
  (∀ w, Update CmdDeactivate k w ∉ drop (length (applied (rx_inst x1))) (applied (rx_inst x2))) →
  NotDue cfg (rx_inst x2) k v →
  SnapshotBetween cfg (rx_inst x1) (rx_inst x2) ts → stored_ticket k v ∈ ts.
Proof. exact active_stays. Qed.
Print Assumptions C132_monotonic_snapshots_partial.

(** ** Writes follow reads *)

(** The updates of a call come, in the common history, after all that any instance
    had applied when the call began ... *)
Theorem C132_writes_follow_reads : ∀ cfg s1 s2 n x m j q,
  yreach cfg s1 → rtc (ystep cfg) s1 s2 → ry_insts s1 !! n = Some x → NotYet s1 m j → WrittenAt s2 q m j →
  applied (rx_inst x) `sublist_of` take q (history s2).
Proof. exact writes_follow_reads. Qed.
Print Assumptions C132_writes_follow_reads.

(** ... in particular after the tickets of every snapshot taken before, ... *)
Theorem C132_writes_follow_snapshots : ∀ cfg s0 s1 s2 n x0 x1 ts t m j q,
  yreach cfg s0 → rtc (ystep cfg) s0 s1 → rtc (ystep cfg) s1 s2 →
  ry_insts s0 !! n = Some x0 → ry_insts s1 !! n = Some x1 →
  SnapshotBetween cfg (rx_inst x0) (rx_inst x1) ts → t ∈ ts → NotYet s1 m j → WrittenAt s2 q m j →
  ∃ v, t = stored_ticket (tk_id t) v ∧ Update CmdTicket (tk_id t) v ∈ take q (history s2).
Proof. exact writes_follow_snapshots. Qed.
Print Assumptions C132_writes_follow_snapshots.

(** ... and every instance that has applied them has applied all of that before. *)
Theorem C132_writes_follow_reads_everywhere : ∀ cfg s1 s2 n x m j q w z,
  yreach cfg s1 → rtc (ystep cfg) s1 s2 → Untrimmed s2 → ry_insts s1 !! n = Some x → NotYet s1 m j → WrittenAt s2 q m j →
  ry_insts s2 !! w = Some z → q < length (applied (rx_inst z)) →
  applied (rx_inst x) `sublist_of` take q (applied (rx_inst z)).
Proof. exact writes_follow_reads_everywhere. Qed.
Print Assumptions C132_writes_follow_reads_everywhere.

(** ** Runs *)
Section example.
Local Open Scope string_scope.

Local Ltac tidy1 := cbn -[rex_create rex_activate rex_value rex_now rex_id rex_id2 rst_id rex_key rst_deact rex_cache giga apply_update Z.mul Z.add Z.sub cmds_of xtrim_minid
                         redis_results redis_get unix_secs].
Local Ltac tidy :=
  tidy1; repeat (match goal with |- context [(?a <=? Z.of_nat ?b)%Z] =>
    let r := eval vm_compute in (a <=? Z.of_nat b)%Z in change (a <=? Z.of_nat b)%Z with r end; tidy1).
Local Ltac go t := eapply rtc_l; [t|tidy].
Local Ltac loc n t := go ltac:(eapply (Y_local _ _ _ _ _ _ n); [reflexivity|t]).

(** The client that has created a ticket at instance 0 activates it there, and is
    told that this has been stored. No instance has read the stream. *)
Definition ses_log : list logent := [LogEnt rex_id (Request rex_create 0) 0; LogEnt rex_id2 (Request rex_activate 1) 0].
Definition ses_inst0 : rinst :=
  RInst (Inst [rex_done1; rex_done2] (OCollect []) (PGet []) [] false empty_cache []) (0, 0)%Z
        [(Request rex_create 0, Response rex_key None); (Request rex_activate 1, Response "1700000000123-1" None)].
Definition ses_told : rsys := RSys [ses_inst0; rinst0] rex_stream2 [] ses_log [rex_thr; rex_thr].

Lemma ses_reach_told : rtc (ystep rex_cfg) rex_mid ses_told.
Proof.
  unfold rex_mid, rex_inst1.
  loc 0 ltac:(eapply L_call, rex_issues2).
  loc 0 ltac:(eapply (L_accept _ _ _ _ _ _ _ _ _ 1); reflexivity).
  loc 0 ltac:(eapply L_out_timeout).
  unfold redis_begin. rewrite rex_cmds_act.
  eapply rtc_l; [eapply (Y_xadd _ _ _ _ _ _ 0 _ _ _ _ _ _ 1699999999999%Z); reflexivity|].
  change (xadd rex_stream1 1699999999999 ["activate"; rex_key]) with (rex_stream2, rex_id2). tidy.
  eapply rtc_l; [eapply (Y_sent _ _ _ _ _ _ 0 _ _ _ rex_now); reflexivity|].
  change (unix_secs rex_now - cfg_ticket_ttl rex_cfg)%Z with rex_thr.
  replace (xtrim_minid rex_stream2 rex_thr) with rex_stream2 by (vm_compute; reflexivity).
  unfold finish_send.
  replace (redis_results [Request rex_activate 1] [Some rex_id2]) with [Response "1700000000123-1" None] by (vm_compute; reflexivity).
  tidy.
  loc 0 ltac:(eapply L_deliver_buffered; [reflexivity|intros [_ ?]; simpl in *; lia|simpl; lia]).
  loc 0 ltac:(eapply (L_receive _ _ _ _ _ _ _ _ _ 1); [reflexivity|split; simpl; lia|reflexivity]).
  loc 0 ltac:(eapply L_delivered).
  constructor.
Qed.

(** Then instance 1 reads it. *)
Definition ses_inst1 : rinst :=
  RInst (Inst [] (OCollect []) (PGet []) [] false rex_cache [HUpd rex_seen; HUpd rex_activate]) rex_id2 [].
Definition ses_seen : rsys := RSys [ses_inst0; ses_inst1] rex_stream2 [] ses_log [rex_thr; rex_thr].

Lemma ses_reach_seen : rtc (ystep rex_cfg) ses_told ses_seen.
Proof.
  unfold ses_told, ses_inst0.
  eapply rtc_l; [eapply (Y_poll _ _ _ _ _ _ 1 _ true); reflexivity|].
  unfold poll_redis. cbn [rx_cursor rinst0 cfg_in_max rex_cfg]. rewrite rex_get. tidy.
  loc 1 ltac:(eapply L_push; simpl; lia).
  loc 1 ltac:(eapply L_apply).
  loc 1 ltac:(eapply L_apply_direct).
  loc 1 ltac:(eapply L_pushed).
  constructor.
Qed.

(** Or instance 0 reads the ticket before there is an activation. *)
Definition ses_inst2 : rinst :=
  RInst (Inst [rex_done1] (OCollect []) (PGet []) [] false (apply_update empty_cache rex_seen) [HUpd rex_seen]) rex_id
        [(Request rex_create 0, Response rex_key None)].
Definition ses_new : rsys := RSys [ses_inst2; rinst0] rex_stream1 [] rex_log1 [rex_thr].

Lemma ses_reach_new : rtc (ystep rex_cfg) rex_mid ses_new.
Proof.
  unfold rex_mid, rex_inst1.
  eapply rtc_l; [eapply (Y_poll _ _ _ _ _ _ 0 _ true); reflexivity|].
  unfold poll_redis. cbn [rx_cursor rinst0 cfg_in_max rex_cfg].
  replace (redis_get 10 rex_stream1 (0, 0)%Z true) with (Filter.Done [rex_seen], rex_id) by (vm_compute; reflexivity). tidy.
  loc 0 ltac:(eapply L_push; simpl; lia).
  loc 0 ltac:(eapply L_apply).
  loc 0 ltac:(eapply L_pushed).
  constructor.
Qed.

(** After [rex_final], a client of instance 0 deactivates the ticket; the
    connection breaks, and the client is told OK. *)
Definition ses_off : call := Call [rst_deact] 1 1 [] [Response "" None].
Definition ses_lost_inst : rinst :=
  RInst (Inst [rex_done1; ses_off] (OCollect []) (PGet []) [] false rex_cache [HUpd rex_seen; HUpd rex_activate]) rex_id2
        [(Request rex_create 0, Response rex_key None); (Request rst_deact 1, Response "" None)].
Definition ses_lost : rsys :=
  RSys [ses_lost_inst; rex_inst3] rex_stream2 [(0, [(Request rst_deact 1, ["deactivate"; rex_key])])] rex_log2 [rex_thr; rex_thr].

Lemma ses_reach_lost : rtc (ystep rex_cfg) rex_final ses_lost.
Proof.
  unfold rex_final, rex_inst2.
  loc 0 ltac:(eapply (L_call _ _ _ _ _ _ _ _ _ [rst_deact]); eapply (Is_deactivate _ [rex_key]); vm_compute; reflexivity).
  loc 0 ltac:(eapply (L_accept _ _ _ _ _ _ _ _ _ 1); reflexivity).
  loc 0 ltac:(eapply L_out_timeout).
  unfold redis_begin.
  replace (cmds_of [Request rst_deact 1]) with [(Request rst_deact 1, ["deactivate"; rex_key])] by (vm_compute; reflexivity).
  go ltac:(eapply (Y_break _ _ _ _ _ _ 0); reflexivity).
  replace (redis_results [Request rst_deact 1] []) with [Response "" None] by (vm_compute; reflexivity).
  tidy.
  loc 0 ltac:(eapply L_deliver_buffered; [reflexivity|intros [_ ?]; simpl in *; lia|simpl; lia]).
  loc 0 ltac:(eapply (L_receive _ _ _ _ _ _ _ _ _ 1); [reflexivity|split; simpl; lia|reflexivity]).
  loc 0 ltac:(eapply L_delivered).
  constructor.
Qed.

(** The client then activates the ticket again; only after that does the server get
    to the deactivation. *)
Definition ses_id3 : sid := (1700000000123, 3)%Z.
Definition ses_on : call := Call [rex_activate] 1 1 [] [Response "1700000000123-2" None].
Definition ses_swap_inst : rinst :=
  RInst (Inst [rex_done1; ses_off; ses_on] (OCollect []) (PGet []) [] false rex_cache [HUpd rex_seen; HUpd rex_activate]) rex_id2
        [(Request rex_create 0, Response rex_key None); (Request rst_deact 1, Response "" None);
         (Request rex_activate 2, Response "1700000000123-2" None)].
Definition ses_stream3 : stream :=
  Stream [Entry rex_id ["ticket"; rex_value]; Entry rex_id2 ["activate"; rex_key]; Entry rst_id ["activate"; rex_key]] rst_id.
Definition ses_stream4 : stream :=
  Stream [Entry rex_id ["ticket"; rex_value]; Entry rex_id2 ["activate"; rex_key]; Entry rst_id ["activate"; rex_key];
          Entry ses_id3 ["deactivate"; rex_key]] ses_id3.
Definition ses_swapped : rsys :=
  RSys [ses_swap_inst; rex_inst3] ses_stream4 [(0, [])]
       (rex_log2 ++ [LogEnt rst_id (Request rex_activate 2) 0; LogEnt ses_id3 (Request rst_deact 1) 0]) [rex_thr; rex_thr; rex_thr].

Lemma ses_reach_swapped : rtc (ystep rex_cfg) ses_lost ses_swapped.
Proof.
  unfold ses_lost, ses_lost_inst.
  loc 0 ltac:(eapply L_call, rex_issues2).
  loc 0 ltac:(eapply (L_accept _ _ _ _ _ _ _ _ _ 2); reflexivity).
  loc 0 ltac:(eapply L_out_timeout).
  unfold redis_begin.
  replace (cmds_of [Request rex_activate 2]) with [(Request rex_activate 2, ["activate"; rex_key])] by (vm_compute; reflexivity).
  eapply rtc_l; [eapply (Y_xadd _ _ _ _ _ _ 0 _ _ _ _ _ _ 1699999999999%Z); reflexivity|].
  change (xadd rex_stream2 1699999999999 ["activate"; rex_key]) with (ses_stream3, rst_id). tidy.
  eapply rtc_l; [eapply (Y_sent _ _ _ _ _ _ 0 _ _ _ rex_now); reflexivity|].
  change (unix_secs rex_now - cfg_ticket_ttl rex_cfg)%Z with rex_thr.
  replace (xtrim_minid ses_stream3 rex_thr) with ses_stream3 by (vm_compute; reflexivity).
  unfold finish_send.
  replace (redis_results [Request rex_activate 2] [Some rst_id]) with [Response "1700000000123-2" None] by (vm_compute; reflexivity).
  tidy.
  loc 0 ltac:(eapply L_deliver_buffered; [reflexivity|intros [_ ?]; simpl in *; lia|simpl; lia]).
  loc 0 ltac:(eapply (L_receive _ _ _ _ _ _ _ _ _ 2); [reflexivity|split; simpl; lia|reflexivity]).
  loc 0 ltac:(eapply L_delivered).
  eapply rtc_l; [eapply (Y_late_xadd _ _ _ _ _ _ 0 0 (Request rst_deact 1) ["deactivate"; rex_key] [] 1699999999999%Z); reflexivity|].
  change (xadd ses_stream3 1699999999999 ["deactivate"; rex_key]) with (ses_stream4, ses_id3). tidy.
  constructor.
Qed.

(** With the in-memory store: the activation has been answered and has not been
    applied. *)
Definition ses_mem : msys :=
  MSys (Inst [ex_create; ex_activate] (OCollect []) (PGet [Update CmdActivate "1700000000-1" ""]) [] false
          (apply_update empty_cache (Update CmdTicket "1700000000-1" ex_value))
          [HUpd (Update CmdTicket "1700000000-1" ex_value)])
       (MemState (ex_t0 + giga)%Z 0) (ex_t0 + giga)%Z
       [Sent (Request (Update CmdTicket "" ex_value) 0) (Response "1700000000-1" None) (Update CmdTicket "1700000000-1" ex_value);
        Sent (Request (Update CmdActivate "1700000000-1" "") 1) (Response "1700000001-0" None) (Update CmdActivate "1700000000-1" "")].

Local Ltac mgo t := eapply rtc_l; [t|cbn -[ex_value ex_t0 ex_now giga apply_update Z.mul Z.add mem_new]].
Local Ltac mloc t := mgo ltac:(apply M_local; t).

Lemma ses_reach_mem : rtc (mstep ex_cfg) ex_mid ses_mem.
Proof.
  unfold ex_mid.
  mloc ltac:(eapply (L_call _ _ _ _ _ _ _ _ _ [Update CmdActivate "1700000000-1" ""]);
            eapply (Is_activate _ ["1700000000-1"]); vm_compute; reflexivity).
  mloc ltac:(eapply (L_accept _ _ _ _ _ _ _ _ _ 1); reflexivity).
  mloc ltac:(eapply L_out_timeout).
  mgo ltac:(eapply (M_id _ _ _ _ _ _ _ _ _ _ _ _ _ _ (ex_t0 + giga)%Z (ex_t0 + giga)%Z (Update CmdActivate "1700000000-1" "")
                     (Response "1700000001-0" None) (MemState (ex_t0 + giga)%Z 0));
           [unfold ex_t0, giga; lia|unfold ex_t0, giga; lia|vm_compute; reflexivity]).
  mgo ltac:(eapply M_give).
  mgo ltac:(eapply M_sent).
  mloc ltac:(eapply L_deliver_buffered; [reflexivity|intros [_ ?]; simpl in *; lia|simpl; lia]).
  mloc ltac:(eapply (L_receive _ _ _ _ _ _ _ _ _ 1); [reflexivity|split; simpl; lia|reflexivity]).
  mloc ltac:(eapply L_delivered).
  constructor.
Qed.

(** The snapshot of a cache that does not change meanwhile, here of at most the one
    ticket of the example. *)
Definition ses_still (order : list string) : snapshot := Snapshot 0 0 0 (λ _, 0) (λ _, 0) order.

Lemma ses_sendable1 : Sendable rex_create. Proof. by vm_compute. Qed.
Lemma ses_sendable2 : Sendable rex_activate. Proof. by vm_compute. Qed.
Lemma ses_sendable3 : Sendable rst_deact. Proof. by vm_compute. Qed.

Lemma ses_all0 : AllSendable ses_inst0.
Proof.
  intros cl Hcl. cbn [ses_inst0 rx_inst in_calls] in Hcl. rewrite !elem_of_cons in Hcl. pose proof ses_sendable1. pose proof ses_sendable2.
  destruct Hcl as [->|[->|Hcl]]; [by repeat constructor..|by apply elem_of_nil in Hcl].
Qed.
Lemma ses_all1 : AllSendable rex_inst1.
Proof. intros cl ->%elem_of_list_singleton. pose proof ses_sendable1. by repeat constructor. Qed.
Lemma ses_all_lost : AllSendable ses_lost_inst.
Proof.
  intros cl Hcl. cbn [ses_lost_inst rx_inst in_calls] in Hcl. rewrite !elem_of_cons in Hcl. pose proof ses_sendable1. pose proof ses_sendable3.
  destruct Hcl as [->|[->|Hcl]]; [by repeat constructor..|by apply elem_of_nil in Hcl].
Qed.

Lemma ses_untrimmed xs st os lg ts : (∀ t, t ∈ ts → t = rex_thr) → Forall (λ e, (rex_thr <= (le_id e).1)%Z) lg →
  Untrimmed (RSys xs st os lg ts).
Proof. intros Ht Hl t e Hin He. cbn in *. rewrite (Ht t Hin). rewrite Forall_forall in Hl. by apply Hl. Qed.

Lemma ses_untrimmed_told xs st os : Untrimmed (RSys xs st os ses_log [rex_thr; rex_thr]).
Proof.
  apply ses_untrimmed; [|repeat constructor; vm_compute; done].
  intros t [->|[->|Ht]%elem_of_cons]%elem_of_cons; [done|done|by apply elem_of_nil in Ht].
Qed.
Lemma ses_untrimmed_new : Untrimmed ses_new.
Proof. apply ses_untrimmed; [by intros t ->%elem_of_list_singleton|repeat constructor; vm_compute; done]. Qed.

Lemma ses_none {S} cfg (x : inst S) : in_cache x = empty_cache → SnapshotBetween cfg x x [].
Proof.
  intros Hc. exists [], (ses_still []). split; [by rewrite app_nil_r|]. cbn [hev_ops]. rewrite Hc. split; [|reflexivity].
  unfold snapshot_ok, ses_still, seen_ticket. cbn. split_and!; try lia; try (intros; lia); [apply NoDup_nil_2|].
  intros k. split; [intros H; by apply elem_of_nil in H|intros [t Ht]; by rewrite lookup_empty in Ht].
Qed.

Lemma ses_not_due {S} cfg (x : inst S) k v : hev_visits (in_events x) = [] → NotDue cfg x k v.
Proof. intros E e He. rewrite E in He. by apply elem_of_nil in He. Qed.

Lemma ses_reach_mid' : yreach rex_cfg ses_told.
Proof. eapply rtc_transitive; [exact rex_reach_mid|exact ses_reach_told]. Qed.

Lemma ses_good1 : AllGood rex_done1.
Proof. split; [done|]. apply Forall_singleton. by split. Qed.
Lemma ses_good2 : AllGood rex_done2.
Proof. split; [done|]. apply Forall_singleton. by split. Qed.
End example.

(** ** What is not guaranteed *)

(** A broken connection: "deactivate", then "activate", both answered with OK, are
    replicated in the other order. *)
Theorem C132_monotonic_writes_refuted : ¬ MonotonicWrites.
Proof.
  intros H.
  assert (Hr : yreach rex_cfg ses_lost).
  { eapply rtc_transitive; [exact rex_reach_mid|]. eapply rtc_transitive; [exact rex_reach_final|exact ses_reach_lost]. }
  assert (3 < 2); [|lia].
  eapply (H rex_cfg ses_lost ses_swapped 0 ses_lost_inst 1 ses_off 0 2 3 2 Hr ses_reach_swapped eq_refl ses_all_lost eq_refl).
  - split; [done|]. by apply Forall_singleton.
  - intros y [= <-]. simpl. lia.
  - by eexists.
  - by eexists.
Qed.
Print Assumptions C132_monotonic_writes_refuted.

(** The instance has not read the stream yet. *)
Theorem C132_read_your_writes_refuted : ¬ ReadYourWrites.
Proof.
  intros H.
  specialize (H rex_cfg rex_mid ses_told ses_told 0 rex_inst1 ses_inst0 ses_inst0 0 rex_done1 rex_value (Response rex_key None) 1 rex_done2 []
    rex_reach_mid ses_reach_told (rtc_refl _ _) (ses_untrimmed_told _ _ _) eq_refl ses_all1 eq_refl eq_refl ses_good1 ltac:(left)).
  assert (Hin : stored_ticket rex_key rex_value ∈ []); [|by apply elem_of_nil in Hin]. apply H.
  - intros y [= <-]. simpl. lia.
  - done.
  - exact ses_all0.
  - done.
  - exists ""%string. left.
  - exact ses_good2.
  - intros w Hw. unfold history in Hw. cbn [ses_told ry_log ses_log map] in Hw. rewrite !elem_of_cons in Hw.
    destruct Hw as [Hw|[Hw|Hw]]; [by vm_compute in Hw..|by apply elem_of_nil in Hw].
  - done.
  - by apply ses_not_due.
  - by apply ses_none.
Qed.
Print Assumptions C132_read_your_writes_refuted.

Theorem C132_read_your_writes_in_memory_refuted : ¬ ReadYourWritesMem.
Proof.
  intros H.
  specialize (H ex_cfg ex_t0 ex_mid ses_mem ses_mem 0 ex_create ex_value (Response "1700000000-1" None) 1 ex_activate []
    ltac:(by vm_compute) ex_reach_mid ses_reach_mem (rtc_refl _ _) eq_refl eq_refl (conj eq_refl eq_refl) ltac:(left) (le_n 1)).
  assert (Hin : stored_ticket "1700000000-1" ex_value ∈ []); [|by apply elem_of_nil in Hin]. apply H.
  - done.
  - exists ""%string. left.
  - done.
  - intros w Hw. cbn [ses_mem ms_hist map sn_upd] in Hw. rewrite !elem_of_cons in Hw.
    destruct Hw as [Hw|[Hw|Hw]]; [done|done|by apply elem_of_nil in Hw].
  - by apply ses_not_due.
  - exists [], (ses_still ["1700000000-1"%string]). split; [by rewrite app_nil_r|]. split; [|vm_compute; reflexivity].
    unfold snapshot_ok, ses_still. cbn [sn_begin sn_mid sn_end sn_at_inactive sn_at_ticket sn_order hev_ops].
    split_and!; try (simpl; lia); try (intros; lia); [apply NoDup_singleton|].
    intros k. unfold seen_ticket, cache_at. cbn [sn_at_ticket]. rewrite take_nil. cbn [ses_mem ms_inst in_cache apply_ops foldl].
    unfold apply_update, update_ops. cbn [u_cmd u_key u_value apply_ops foldl apply_op c_tickets empty_cache].
    rewrite elem_of_list_singleton. split; [intros ->; rewrite lookup_insert; by eexists|].
    intros [t Ht]. apply lookup_insert_Some in Ht as [[-> _]|[_ Ht]]; [done|by rewrite lookup_empty in Ht].
Qed.
Print Assumptions C132_read_your_writes_in_memory_refuted.

(** A snapshot that began before the ticket arrived may contain it although it is
    not active (C30); the next one does not. *)
Theorem C132_monotonic_snapshots_refuted : ¬ MonotonicSnapshots.
Proof.
  intros H.
  assert (Hr : yreach rex_cfg ses_new) by (eapply rtc_transitive; [exact rex_reach_mid|exact ses_reach_new]).
  specialize (H rex_cfg rex_mid ses_new ses_new 0 rex_inst1 ses_inst2 ses_inst2 [stored_ticket rex_key rex_value] [] rex_key rex_value
    rex_reach_mid ses_reach_new (rtc_refl _ _) ses_untrimmed_new eq_refl eq_refl eq_refl).
  assert (Hin : stored_ticket rex_key rex_value ∈ []); [|by apply elem_of_nil in Hin]. apply H.
  - exists [HUpd rex_seen], (Snapshot 0 0 2 (λ _, 0) (λ _, 2) [rex_key]). split; [done|].
    set (ops := hev_ops rex_cfg (in_cache (rx_inst rex_inst1)) [HUpd rex_seen]).
    assert (Eops : ops = [IStore rex_key; TStore rex_key (stored_ticket rex_key rex_value)]) by (vm_compute; reflexivity).
    rewrite Eops. split.
    + unfold snapshot_ok. cbn [sn_begin sn_mid sn_end sn_at_inactive sn_at_ticket sn_order].
      split_and!; try (simpl; lia); try (intros; lia); [apply NoDup_singleton|].
      intros k. unfold seen_ticket, cache_at. cbn [sn_at_ticket take apply_ops foldl apply_op c_tickets rex_inst1 rx_inst in_cache empty_cache].
      rewrite elem_of_list_singleton. split; [intros ->; rewrite lookup_insert; by eexists|].
      intros [t Ht]. apply lookup_insert_Some in Ht as [[-> _]|[_ Ht]]; [done|by rewrite lookup_empty in Ht].
    + vm_compute. reflexivity.
  - left.
  - intros w Hw. unfold history in Hw. cbn [ses_new ry_log rex_log1 map] in Hw. apply elem_of_list_singleton in Hw. by vm_compute in Hw.
  - by apply ses_not_due.
  - exists [], (ses_still [rex_key]). split; [by rewrite app_nil_r|]. split; [|vm_compute; reflexivity].
    unfold snapshot_ok, ses_still. cbn [sn_begin sn_mid sn_end sn_at_inactive sn_at_ticket sn_order hev_ops].
    split_and!; try (simpl; lia); try (intros; lia); [apply NoDup_singleton|].
    intros k. unfold seen_ticket, cache_at. cbn [sn_at_ticket]. rewrite take_nil. cbn [ses_inst2 rx_inst in_cache apply_ops foldl].
    unfold apply_update, update_ops. cbn [rex_seen u_cmd u_key u_value apply_ops foldl apply_op c_tickets empty_cache].
    rewrite elem_of_list_singleton. split; [intros ->; rewrite lookup_insert; by eexists|].
    intros [t Ht]. apply lookup_insert_Some in Ht as [[-> _]|[_ Ht]]; [done|by rewrite lookup_empty in Ht].
Qed.
Print Assumptions C132_monotonic_snapshots_refuted.

(** The other instance is behind. *)
Theorem C132_monotonic_across_refuted : ¬ MonotonicAcross.
Proof.
  intros H.
  assert (Hr : yreach rex_cfg ses_seen) by (eapply rtc_transitive; [exact ses_reach_mid'|exact ses_reach_seen]).
  specialize (H rex_cfg ses_seen ses_seen 1 0 ses_inst1 ses_inst0 ses_inst0 [] rex_key rex_value
    Hr (rtc_refl _ _) (ses_untrimmed_told _ _ _) eq_refl).
  assert (Hin : stored_ticket rex_key rex_value ∈ []); [|by apply elem_of_nil in Hin]. apply H.
  - split; [vm_compute; by eexists|]. apply (bool_decide_unpack _). vm_compute. exact I.
  - vm_compute. reflexivity.
  - reflexivity.
  - reflexivity.
  - intros w Hw. unfold history in Hw. cbn [ses_seen ry_log ses_log map] in Hw. rewrite !elem_of_cons in Hw.
    destruct Hw as [Hw|[Hw|Hw]]; [by vm_compute in Hw..|by apply elem_of_nil in Hw].
  - by apply ses_not_due.
  - by apply ses_none.
Qed.
Print Assumptions C132_monotonic_across_refuted.

(** ** The hypotheses of the theorems are met *)

Lemma ses_snapshot1 : SnapshotBetween rex_cfg (rx_inst ses_inst1) (rx_inst ses_inst1) [stored_ticket rex_key rex_value].
Proof.
  exists [], (ses_still [rex_key]). split; [by rewrite app_nil_r|]. split; [|vm_compute; reflexivity].
  unfold snapshot_ok, ses_still. cbn [sn_begin sn_mid sn_end sn_at_inactive sn_at_ticket sn_order hev_ops].
  split_and!; try (simpl; lia); try (intros; lia); [apply NoDup_singleton|].
  intros k. unfold seen_ticket, cache_at. cbn [sn_at_ticket]. rewrite take_nil. cbn [ses_inst1 rx_inst in_cache apply_ops foldl].
  unfold rex_cache, apply_update, update_ops. cbn [rex_seen rex_activate u_cmd u_key u_value apply_ops foldl apply_op c_tickets empty_cache].
  rewrite elem_of_list_singleton. split; [intros ->; rewrite lookup_insert; by eexists|].
  intros [t Ht]. apply lookup_insert_Some in Ht as [[-> _]|[_ Ht]]; [done|by rewrite lookup_empty in Ht].
Qed.

(** Instance 1 has applied the activation made at instance 0; its snapshot has the
    ticket, and a call that begins now is replicated after it. *)
Example C132_example :
  yreach rex_cfg rex_mid ∧ rtc (ystep rex_cfg) rex_mid ses_seen ∧ Untrimmed ses_seen ∧ AllGood rex_done1 ∧ AllGood rex_done2 ∧
  NotYet rex_mid 0 1 ∧ WrittenAt ses_seen 0 0 0 ∧ WrittenAt ses_seen 1 0 1 ∧
  history ses_seen !! 1 = Some (Update CmdActivate rex_key ""%string) ∧ 1 < length (applied (rx_inst ses_inst1)) ∧
  SnapshotBetween rex_cfg (rx_inst ses_inst1) (rx_inst ses_inst1) [stored_ticket rex_key rex_value] ∧
  (∀ ts, SnapshotBetween rex_cfg (rx_inst ses_inst1) (rx_inst ses_inst1) ts → stored_ticket rex_key rex_value ∈ ts).
Proof.
  assert (Hr : rtc (ystep rex_cfg) rex_mid ses_seen) by (eapply rtc_transitive; [exact ses_reach_told|exact ses_reach_seen]).
  assert (Hny : NotYet rex_mid 0 1) by (intros y [= <-]; simpl; lia).
  assert (Hw : WrittenAt ses_seen 1 0 1) by (by eexists).
  assert (Hp : history ses_seen !! 1 = Some (Update CmdActivate rex_key ""%string)) by (vm_compute; reflexivity).
  split; [exact rex_reach_mid|]. split; [exact Hr|]. split; [exact (ses_untrimmed_told _ _ _)|].
  split; [exact ses_good1|]. split; [exact ses_good2|]. split; [exact Hny|]. split; [by eexists|]. split; [exact Hw|]. split; [exact Hp|].
  split; [simpl; lia|]. split; [exact ses_snapshot1|]. intros ts Hts.
  eapply (C132_read_your_writes_partial rex_cfg rex_mid ses_seen ses_seen 0 rex_inst1 0 rex_done1 rex_value (Response rex_key None) 0 1
    1 ses_inst1 ses_inst1 1 ""%string ts rex_reach_mid Hr (rtc_refl _ _) (ses_untrimmed_told _ _ _) eq_refl ses_all1 eq_refl eq_refl ses_good1
    ltac:(left) Hny Hw Hp).
  - intros q d Hq Hx. apply lookup_lt_Some in Hx. unfold history in Hx. rewrite map_length in Hx. simpl in Hx. lia.
  - done.
  - done.
  - simpl. lia.
  - by apply ses_not_due.
  - exact Hts.
Qed.

Example C132_example_in_memory :
  mreach ex_cfg ex_t0 ex_mid ∧ rtc (mstep ex_cfg) ex_mid ex_final ∧ returned ex_create ∧
  WrittenAtMem ex_final 0 0 ∧ WrittenAtMem ex_final 1 1 ∧ 1 < length (applied (ms_inst ex_final)).
Proof.
  split; [exact ex_reach_mid|]. split; [exact ex_reach_final|]. split; [done|]. split; [by eexists|]. split; [by eexists|]. simpl. lia.
Qed.
