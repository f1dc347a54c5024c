(** C79, C80: assignments, from the CreateAssignments call to the answers of watches. *)
From Coq Require Import Ascii String ZArith NArith Lia.
From stdpp Require Import prelude strings gmap relations.
From Verif.Model Require Import GoStrings Types Wire Proto Cache Replica Handlers MemRepl Queues RedisRepl RedisReader System RedisSystem Watch WatchSystem.
From Verif.Spec Require Import CacheSpec RedisSpec SystemSpec WatchSpec AssignSpec.
From Verif.Proofs Require Import AssignLemmas AssignMem AssignRedis.
From Verif.Props Require Import WatchProps SystemProps RedisSystemProps.
Local Open Scope nat_scope.

(** ** C79: one instance with the in-memory store *)

(** Every assignment in the cache was given to this ticket by a CreateAssignments
    call, and is exactly what the caller sent. *)
Theorem C79_stored_assignments_were_made : ∀ cfg t0 s k a,
  (0 <= t0)%Z → mreach cfg t0 s → ValidAssigns (ms_inst s) → c_assign (in_cache (ms_inst s)) !! k = Some a →
  AssignedIn (ms_inst s) k a.
Proof. exact mem_assigned. Qed.
Print Assumptions C79_stored_assignments_were_made.

(** The last assignment wins: call [j] began after state [s1] and gives [b] to [k];
    every call that gives [k] something else had returned in [s1]. Once call [j] has
    returned and everything written has been applied, [k] has the assignment [b],
    unless it expired. *)
Theorem C79_last_assignment_wins : ∀ cfg t0 s1 s2 k b j cj,
  (0 <= t0)%Z → mreach cfg t0 s1 → rtc (mstep cfg) s1 s2 → ValidAssigns (ms_inst s2) →
  length (in_calls (ms_inst s1)) <= j →
  in_calls (ms_inst s2) !! j = Some cj → AssignCall cj b k → returned cj →
  (∀ i ci a, in_calls (ms_inst s2) !! i = Some ci → AssignCall ci a k →
     a = b ∨ ∃ c1, in_calls (ms_inst s1) !! i = Some c1 ∧ returned c1) →
  on_the_way (ms_inst s2) = [] →
  (∀ x, x ∈ hev_visits (in_events (ms_inst s2)) → ¬ OlderThan (cfg_ticket_ttl cfg + cfg_assign_ttl cfg) x.2 k) →
  c_assign (in_cache (ms_inst s2)) !! k = Some b.
Proof. exact mem_last_assignment. Qed.
Print Assumptions C79_last_assignment_wins.

(** Whatever a watch streams was given to that ticket by a CreateAssignments call,
    and the ticket is one the client asked for. *)
Theorem C79_watch_answers_were_assigned : ∀ cfg t0 ttl ids s0 now asg g s w,
  (0 <= t0)%Z → mreach cfg t0 s0 → asg ⊆ mem_assigns s0 →
  rtc (along (mstep cfg) mem_assigns ttl ids) (s0, w_init ids now asg g) (s, w) →
  ValidAssigns (ms_inst s) →
  ∀ k a, (k, a) ∈ w_sent w → k ∈ ids ∧ AssignedIn (ms_inst s) k a.
Proof. exact mem_watch_genuine. Qed.
Print Assumptions C79_watch_answers_were_assigned.

(** As soon as all watched tickets have assignments, a watch that has not timed out
    can answer all of them and return, without anything else happening. *)
Theorem C79_watch_can_finish : ∀ cfg ttl ids s0 now asg g s w,
  rtc (along (mstep cfg) mem_assigns ttl ids) (s0, w_init ids now asg g) (s, w) → ¬ w_timed_out w →
  (∀ id, id ∈ ids → is_Some (mem_assigns s !! id)) →
  ∃ w', rtc (along (mstep cfg) mem_assigns ttl ids) (s, w) (s, w') ∧ w_clock w' = w_clock w ∧
    w_handler w' = Returned false ∧ (w_sent w').*1 ≡ₚ ids.
Proof. exact (λ cfg, along_can_end (mstep cfg) mem_assigns). Qed.
Print Assumptions C79_watch_can_finish.

(** ** C80: several instances on one Redis stream *)

Theorem C80_stored_assignments_were_made : ∀ cfg s n x k a,
  yreach cfg s → AllValidAssigns s → ry_insts s !! n = Some x → c_assign (in_cache (rx_inst x)) !! k = Some a →
  AssignedAt s k a.
Proof. exact red_assigned. Qed.
Print Assumptions C80_stored_assignments_were_made.

(** The last assignment wins in every instance that has caught up: update [p] of
    call [j] of instance [m], begun after [s1], gives [b] to [k] and was answered
    well; every call that gives [k] something else had been answered well in [s1].
    (A call answered badly can still be written to the stream later.) *)
Theorem C80_last_assignment_wins : ∀ cfg s1 s2 m y k b j cj p r w z,
  yreach cfg s1 → rtc (ystep cfg) s1 s2 → AllValidAssigns s2 →
  NotYet s1 m j →
  ry_insts s2 !! m = Some y → AllSendable y → in_calls (rx_inst y) !! j = Some cj → AssignCall cj b k →
  (∃ v, cl_ups cj !! p = Some (Update CmdAssign k v)) → cl_got cj !! p = Some r → Good r →
  (∀ n x i ci a, ry_insts s2 !! n = Some x → in_calls (rx_inst x) !! i = Some ci → AssignCall ci a k →
     a = b ∨ ∃ x1 c1, ry_insts s1 !! n = Some x1 ∧ AllSendable x1 ∧ in_calls (rx_inst x1) !! i = Some c1 ∧ AllGood c1) →
  ry_insts s2 !! w = Some z → CaughtUp s2 z →
  (∀ x, x ∈ hev_visits (in_events (rx_inst z)) → ¬ OlderThan (cfg_ticket_ttl cfg + cfg_assign_ttl cfg) x.2 k) →
  c_assign (in_cache (rx_inst z)) !! k = Some b.
Proof. exact red_last_assignment. Qed.
Print Assumptions C80_last_assignment_wins.

(** A watch at instance [n]. *)
Theorem C80_watch_answers_were_assigned : ∀ cfg n ttl ids s0 now asg g s w,
  yreach cfg s0 → asg ⊆ red_assigns n s0 →
  rtc (along (ystep cfg) (red_assigns n) ttl ids) (s0, w_init ids now asg g) (s, w) →
  AllValidAssigns s →
  ∀ k a, (k, a) ∈ w_sent w → k ∈ ids ∧ AssignedAt s k a.
Proof. exact red_watch_genuine. Qed.
Print Assumptions C80_watch_answers_were_assigned.

Theorem C80_watch_can_finish : ∀ cfg n ttl ids s0 now asg g s w,
  rtc (along (ystep cfg) (red_assigns n) ttl ids) (s0, w_init ids now asg g) (s, w) → ¬ w_timed_out w →
  (∀ id, id ∈ ids → is_Some (red_assigns n s !! id)) →
  ∃ w', rtc (along (ystep cfg) (red_assigns n) ttl ids) (s, w) (s, w') ∧ w_clock w' = w_clock w ∧
    w_handler w' = Returned false ∧ (w_sent w').*1 ≡ₚ ids.
Proof. exact (λ cfg n, along_can_end (ystep cfg) (red_assigns n)). Qed.
Print Assumptions C80_watch_can_finish.

(** ** Examples *)
Section example.
Local Open Scope string_scope.

(** A roster of two tickets gets a server, one of them then another one. *)
Definition asx_a : assignment := Assignment "10.0.0.1:7777" ∅.
Definition asx_b : assignment := Assignment "10.0.0.2:7777" ∅.
Definition asx_k1 : string := "1700000000-1".
Definition asx_k2 : string := "1700000000-2".
Definition asx_tk (k : string) : ticket := Ticket k None None ∅.
Definition asx_r1 : roster := Roster "duel" (Some asx_a) [asx_tk asx_k1; asx_tk asx_k2] ∅.
Definition asx_r2 : roster := Roster "duel" (Some asx_b) [asx_tk asx_k1] ∅.
Definition asx_v (a : assignment) : string := match marshal_assignment [] a with Some v => v | None => "" end.
Definition asx_u (k : string) (a : assignment) : update := Update CmdAssign k (asx_v a).
Definition asx_c1 : call := Call [asx_u asx_k1 asx_a; asx_u asx_k2 asx_a] 2 2 [] [Response "1700000000-1" None; Response "1700000000-2" None].
Definition asx_c2 : call := Call [asx_u asx_k1 asx_b] 1 1 [] [Response "1700000001-0" None].
Lemma asx_call1 (cl : call) k : cl_ups cl = cl_ups asx_c1 → k = asx_k1 ∨ k = asx_k2 → AssignCall cl asx_a k.
Proof.
  intros E Hk. exists [], asx_r1, (asx_v asx_a). split; [done|]. split; [by vm_compute|]. split; [vm_compute; reflexivity|].
  split; [vm_compute; reflexivity|]. split; [by rewrite E|]. split; [by destruct Hk as [->| ->]|].
  simpl. rewrite !elem_of_cons. destruct Hk as [->| ->]; auto.
Qed.
Lemma asx_call2 (cl : call) : cl_ups cl = cl_ups asx_c2 → AssignCall cl asx_b asx_k1.
Proof.
  intros E. exists [], asx_r2, (asx_v asx_b). split; [done|]. split; [by vm_compute|]. split; [vm_compute; reflexivity|].
  split; [vm_compute; reflexivity|]. split; [by rewrite E|]. split; [done|]. simpl. by rewrite elem_of_list_singleton.
Qed.

Definition asx_e1 : hev := HUpd (asx_u asx_k1 asx_a).
Definition asx_cache : cache :=
  apply_update (apply_update (apply_update empty_cache (asx_u asx_k1 asx_a)) (asx_u asx_k2 asx_a)) (asx_u asx_k1 asx_b).
Definition asx_h1 : list sent :=
  [Sent (Request (asx_u asx_k1 asx_a) 0) (Response "1700000000-1" None) (asx_u asx_k1 asx_a);
   Sent (Request (asx_u asx_k2 asx_a) 0) (Response "1700000000-2" None) (asx_u asx_k2 asx_a)].
(** The first call has returned, nothing has been applied. *)
Definition asx_s1 : msys :=
  MSys (Inst [asx_c1] (OCollect []) (PGet [asx_u asx_k1 asx_a; asx_u asx_k2 asx_a]) [] false empty_cache [])
    (MemState ex_t0 2) (ex_t0 + 7)%Z asx_h1.
Definition asx_s2 : msys :=
  MSys (Inst [asx_c1; asx_c2] (OCollect []) (PGet []) [] false asx_cache
          [HUpd (asx_u asx_k1 asx_a); HUpd (asx_u asx_k2 asx_a); HUpd (asx_u asx_k1 asx_b)])
    (MemState (ex_t0 + giga)%Z 0) (ex_t0 + giga)%Z
    (asx_h1 ++ [Sent (Request (asx_u asx_k1 asx_b) 1) (Response "1700000001-0" None) (asx_u asx_k1 asx_b)])%list.

Local Ltac go t := eapply rtc_l; [t|cbn -[asx_u asx_k1 asx_k2 asx_a asx_b ex_t0 ex_now giga apply_update Z.mul Z.add mem_new]].
Local Ltac loc t := go ltac:(apply M_local; t).

Lemma asx_reach1 : mreach ex_cfg ex_t0 asx_s1.
Proof.
  unfold mreach, msys0, inst0.
  loc ltac:(eapply (L_call _ _ _ _ _ _ _ _ _ [asx_u asx_k1 asx_a; asx_u asx_k2 asx_a]);
            eapply (Is_assign _ [] asx_r1); vm_compute; reflexivity).
  loc ltac:(eapply (L_accept _ _ _ _ _ _ _ _ _ 0); reflexivity).
  loc ltac:(eapply (L_accept _ _ _ _ _ _ _ _ _ 0); reflexivity).
  go ltac:(eapply (M_id _ _ _ _ _ _ _ _ _ _ _ _ _ _ (ex_t0 + 7)%Z (ex_t0 + 7)%Z (asx_u asx_k1 asx_a)
                     (Response "1700000000-1" None) (MemState ex_t0 1));
           [unfold ex_t0; lia|unfold ex_t0; lia|vm_compute; reflexivity]).
  go ltac:(eapply M_give).
  go ltac:(eapply (M_id _ _ _ _ _ _ _ _ _ _ _ _ _ _ (ex_t0 + 7)%Z (ex_t0 + 7)%Z (asx_u asx_k2 asx_a)
                     (Response "1700000000-2" None) (MemState ex_t0 2));
           [unfold ex_t0; lia|unfold ex_t0; lia|vm_compute; reflexivity]).
  go ltac:(eapply M_give).
  go ltac:(eapply M_sent).
  loc ltac:(eapply L_deliver_buffered; [reflexivity|intros [_ ?]; simpl in *; lia|simpl; lia]).
  loc ltac:(eapply L_deliver_buffered; [reflexivity|intros [_ ?]; simpl in *; lia|simpl; lia]).
  loc ltac:(eapply (L_receive _ _ _ _ _ _ _ _ _ 0); [reflexivity|split; simpl; lia|reflexivity]).
  loc ltac:(eapply (L_receive _ _ _ _ _ _ _ _ _ 0); [reflexivity|split; simpl; lia|reflexivity]).
  loc ltac:(eapply L_delivered).
  constructor.
Qed.

Lemma asx_reach2 : rtc (mstep ex_cfg) asx_s1 asx_s2.
Proof.
  unfold asx_s1, asx_h1.
  loc ltac:(eapply (L_call _ _ _ _ _ _ _ _ _ [asx_u asx_k1 asx_b]);
            eapply (Is_assign _ [] asx_r2); vm_compute; reflexivity).
  loc ltac:(eapply (L_accept _ _ _ _ _ _ _ _ _ 1); reflexivity).
  loc ltac:(eapply L_out_timeout).
  go ltac:(eapply (M_id _ _ _ _ _ _ _ _ _ _ _ _ _ _ (ex_t0 + giga)%Z (ex_t0 + giga)%Z (asx_u asx_k1 asx_b)
                     (Response "1700000001-0" None) (MemState (ex_t0 + giga)%Z 0));
           [unfold ex_t0, giga; lia|unfold ex_t0, giga; lia|vm_compute; reflexivity]).
  go ltac:(eapply M_give).
  go ltac:(eapply M_sent).
  loc ltac:(eapply L_deliver_buffered; [reflexivity|intros [_ ?]; simpl in *; lia|simpl; lia]).
  loc ltac:(eapply (L_receive _ _ _ _ _ _ _ _ _ 1); [reflexivity|split; simpl; lia|reflexivity]).
  loc ltac:(eapply L_delivered).
  go ltac:(eapply M_poll_timeout).
  loc ltac:(eapply L_push; simpl; lia).
  loc ltac:(eapply L_push; simpl; lia).
  loc ltac:(eapply L_push; simpl; lia).
  loc ltac:(eapply L_apply).
  loc ltac:(eapply L_apply).
  loc ltac:(eapply L_apply).
  loc ltac:(eapply L_pushed).
  constructor.
Qed.

Lemma asx_valid : ValidAssigns (ms_inst asx_s2).
Proof.
  intros cl u Hcl Hu _. cbn [asx_s2 ms_inst in_calls] in Hcl. rewrite !elem_of_cons in Hcl.
  destruct Hcl as [->|[->|Hcl]]; [| |by apply elem_of_nil in Hcl]; cbn [asx_c1 asx_c2 cl_ups] in Hu; rewrite !elem_of_cons in Hu.
  - destruct Hu as [->|[->|Hu]]; [| |by apply elem_of_nil in Hu]; exists asx_a; apply asx_call1; auto.
  - destruct Hu as [->|Hu]; [|by apply elem_of_nil in Hu]. exists asx_b. by apply asx_call2.
Qed.

(** The premises of [C79_last_assignment_wins] hold, and its conclusion. *)
Example C79_example :
  mreach ex_cfg ex_t0 asx_s1 ∧ rtc (mstep ex_cfg) asx_s1 asx_s2 ∧ ValidAssigns (ms_inst asx_s2) ∧
  length (in_calls (ms_inst asx_s1)) = 1 ∧ in_calls (ms_inst asx_s2) !! 1 = Some asx_c2 ∧ AssignCall asx_c2 asx_b asx_k1 ∧
  returned asx_c2 ∧ in_calls (ms_inst asx_s1) !! 0 = Some asx_c1 ∧ returned asx_c1 ∧ AssignCall asx_c1 asx_a asx_k1 ∧
  on_the_way (ms_inst asx_s2) = [] ∧ hev_visits (in_events (ms_inst asx_s2)) = [] ∧
  mem_assigns asx_s2 !! asx_k1 = Some asx_b ∧ mem_assigns asx_s2 !! asx_k2 = Some asx_a.
Proof.
  split; [exact asx_reach1|]. split; [exact asx_reach2|]. split; [exact asx_valid|].
  repeat (split; [first [done|by apply asx_call2|apply asx_call1; auto]|]).
  split; refine (bool_decide_eq_true_1 _ _); vm_compute; reflexivity.
Qed.

(** A watch that begins before the first assignment is applied. *)
Definition asx_w : wstate := w_init [asx_k1; asx_k2] (ex_t0 + 7)%Z ∅ 0.
Example C79_watch_example :
  rtc (along (mstep ex_cfg) mem_assigns 600 [asx_k1; asx_k2]) (asx_s1, asx_w) (asx_s2, sees (mem_assigns asx_s2) asx_w) ∧
  ∃ w', rtc (along (mstep ex_cfg) mem_assigns 600 [asx_k1; asx_k2]) (asx_s1, asx_w) (asx_s2, w') ∧
        w_handler w' = Returned false ∧ (w_sent w').*1 ≡ₚ [asx_k1; asx_k2].
Proof.
  assert (H : rtc (along (mstep ex_cfg) mem_assigns 600 [asx_k1; asx_k2]) (asx_s1, asx_w) (asx_s2, sees (mem_assigns asx_s2) asx_w)).
  { change asx_w with (sees (mem_assigns asx_s1) asx_w) at 1.
    assert (Hg : ∀ s s', rtc (mstep ex_cfg) s s' →
      rtc (along (mstep ex_cfg) mem_assigns 600 [asx_k1; asx_k2]) (s, sees (mem_assigns s) asx_w) (s', sees (mem_assigns s') asx_w)).
    { induction 1 as [s|s s1 s' Hs _ IH]; [apply rtc_refl|]. eapply rtc_l; [|exact IH].
      exact (AL_server (mstep ex_cfg) mem_assigns 600 [asx_k1; asx_k2] s s1 (sees (mem_assigns s) asx_w) eq_refl Hs). }
    apply Hg, asx_reach2. }
  split; [exact H|].
  destruct (C79_watch_can_finish ex_cfg 600 _ _ _ _ _ _ _ H) as (w' & H1 & _ & H2 & H3).
  - done.
  - intros id. rewrite !elem_of_cons. intros [->|[->|Hn]]; [| |by apply elem_of_nil in Hn]; apply (bool_decide_eq_true_1 _); vm_compute; reflexivity.
  - exists w'. split; [|done]. by eapply rtc_transitive.
Qed.
End example.

Section redis_example.
Local Open Scope string_scope.

(** A client of the first instance assigns a ticket; a watch runs at the second. *)
Definition asr_u : update := asx_u rex_key asx_a.
Definition asr_id : sid := (1700000005000, 0)%Z.
Definition asr_r : roster := Roster "duel" (Some asx_a) [asx_tk rex_key] ∅.
Definition asr_call : call := Call [asr_u] 1 1 [] [Response "1700000005000-0" None].
Definition asr_fields : list string := ["assign"; rex_key; "connection"; asx_v asx_a].
Definition asr_stream : stream := Stream [Entry asr_id asr_fields] asr_id.
Definition asr_inst1 : rinst :=
  RInst (Inst [asr_call] (OCollect []) (PGet []) [] false empty_cache []) (0, 0)%Z
        [(Request asr_u 0, Response "1700000005000-0" None)].
Definition asr_inst2 : rinst :=
  RInst (Inst [] (OCollect []) (PGet []) [] false (apply_update empty_cache asr_u) [HUpd asr_u]) asr_id [].
Definition asr_final : rsys :=
  RSys [asr_inst1; asr_inst2] asr_stream [] [LogEnt asr_id (Request asr_u 0) 0] [rex_thr].

Lemma asr_cmds i : cmds_of [Request asr_u i] = [(Request asr_u i, asr_fields)].
Proof. vm_compute. reflexivity. Qed.
Lemma asr_get : redis_get 10 asr_stream (0, 0)%Z true = (Filter.Done [asr_u], asr_id).
Proof. vm_compute. reflexivity. Qed.

Local Ltac tidy1 := cbn -[asr_u asr_fields rex_now asr_id rex_key giga apply_update Z.mul Z.add Z.sub cmds_of xtrim_minid
                         redis_results redis_get unix_secs].
Local Ltac tidy :=
  tidy1; repeat (match goal with |- context [(?a <=? Z.of_nat ?b)%Z] =>
    let r := eval vm_compute in (a <=? Z.of_nat b)%Z in change (a <=? Z.of_nat b)%Z with r end; tidy1).
Local Ltac go t := eapply rtc_l; [t|tidy].
Local Ltac loc n t := go ltac:(eapply (Y_local _ _ _ _ _ _ n); [reflexivity|t]).

(** Both instances have started. *)
Definition asr_start : rsys := RSys [rinst0; rinst0] empty_stream [] [] [].
Lemma asr_reach_start : yreach rex_cfg asr_start.
Proof. eapply rtc_l; [eapply Y_join|]. eapply rtc_l; [eapply Y_join|]. constructor. Qed.

Lemma asr_reach_final : rtc (ystep rex_cfg) asr_start asr_final.
Proof.
  unfold asr_start, rinst0, inst0.
  loc 0 ltac:(eapply (L_call _ _ _ _ _ _ _ _ _ [asr_u]); eapply (Is_assign _ [] asr_r); vm_compute; reflexivity).
  loc 0 ltac:(eapply (L_accept _ _ _ _ _ _ _ _ _ 0); reflexivity).
  loc 0 ltac:(eapply L_out_timeout).
  unfold redis_begin. rewrite asr_cmds.
  eapply rtc_l; [eapply (Y_xadd _ _ _ _ _ _ 0 _ _ _ _ _ _ 1700000005000%Z); reflexivity|].
  change (xadd empty_stream 1700000005000 asr_fields) with (asr_stream, asr_id). tidy.
  eapply rtc_l; [eapply (Y_sent _ _ _ _ _ _ 0 _ _ _ rex_now); reflexivity|].
  change (unix_secs rex_now - cfg_ticket_ttl rex_cfg)%Z with rex_thr.
  replace (xtrim_minid asr_stream rex_thr) with asr_stream by (vm_compute; reflexivity).
  unfold finish_send.
  replace (redis_results [Request asr_u 0] [Some asr_id]) with [Response "1700000005000-0" None] by (vm_compute; reflexivity).
  tidy.
  loc 0 ltac:(eapply L_deliver_buffered; [reflexivity|intros [_ ?]; simpl in *; lia|simpl; lia]).
  loc 0 ltac:(eapply (L_receive _ _ _ _ _ _ _ _ _ 0); [reflexivity|split; simpl; lia|reflexivity]).
  loc 0 ltac:(eapply L_delivered).
  eapply rtc_l; [eapply (Y_poll _ _ _ _ _ _ 1 _ true); reflexivity|].
  unfold poll_redis. cbn [rx_cursor rinst0 cfg_in_max rex_cfg]. rewrite asr_get. tidy.
  loc 1 ltac:(eapply L_push; simpl; lia).
  loc 1 ltac:(eapply L_apply).
  loc 1 ltac:(eapply L_pushed).
  constructor.
Qed.

Lemma asr_assigns : AssignCall asr_call asx_a rex_key.
Proof.
  exists [], asr_r, (asx_v asx_a). split; [done|]. split; [by vm_compute|]. split; [vm_compute; reflexivity|].
  split; [vm_compute; reflexivity|]. split; [vm_compute; reflexivity|]. split; [done|]. simpl. by rewrite elem_of_list_singleton.
Qed.

Example C80_example :
  yreach rex_cfg asr_start ∧ rtc (ystep rex_cfg) asr_start asr_final ∧ AllValidAssigns asr_final ∧
  NotYet asr_start 0 0 ∧ AllSendable asr_inst1 ∧ AssignCall asr_call asx_a rex_key ∧
  cl_ups asr_call !! 0 = Some asr_u ∧ Good (Response "1700000005000-0" None) ∧ CaughtUp asr_final asr_inst2 ∧
  red_assigns 1 asr_final !! rex_key = Some asx_a.
Proof.
  split; [exact asr_reach_start|]. split; [exact asr_reach_final|]. split.
  { intros n x Hx cl u Hcl Hu _. destruct n as [|[|n]]; simpl in Hx; [| |done]; injection Hx as <-.
    - cbn in Hcl. apply elem_of_list_singleton in Hcl as ->. apply elem_of_list_singleton in Hu as ->. exists asx_a. exact asr_assigns.
    - by apply elem_of_nil in Hcl. }
  split; [intros y Hy; injection Hy as <-; simpl; lia|].
  split.
  { intros cl Hcl. cbn in Hcl. apply elem_of_list_singleton in Hcl as ->. constructor; [|constructor]. vm_compute. done. }
  split; [exact asr_assigns|]. split; [done|]. split; [done|]. split; [vm_compute; reflexivity|].
  refine (bool_decide_eq_true_1 _ _). vm_compute. reflexivity.
Qed.

(** The watch at the second instance is answered. *)
Definition asr_w : wstate := w_init [rex_key] rex_now ∅ 0.
Example C80_watch_example :
  ∃ w', rtc (along (ystep rex_cfg) (red_assigns 1) 600 [rex_key]) (asr_start, asr_w) (asr_final, w') ∧
        w_handler w' = Returned false ∧ (w_sent w').*1 ≡ₚ [rex_key].
Proof.
  assert (H : rtc (along (ystep rex_cfg) (red_assigns 1) 600 [rex_key]) (asr_start, asr_w) (asr_final, sees (red_assigns 1 asr_final) asr_w)).
  { change asr_w with (sees (red_assigns 1 asr_start) asr_w) at 1.
    assert (Hg : ∀ s s', rtc (ystep rex_cfg) s s' →
      rtc (along (ystep rex_cfg) (red_assigns 1) 600 [rex_key]) (s, sees (red_assigns 1 s) asr_w) (s', sees (red_assigns 1 s') asr_w)).
    { induction 1 as [s|s s1 s' Hs _ IH]; [apply rtc_refl|]. eapply rtc_l; [|exact IH].
      exact (AL_server (ystep rex_cfg) (red_assigns 1) 600 [rex_key] s s1 (sees (red_assigns 1 s) asr_w) eq_refl Hs). }
    apply Hg, asr_reach_final. }
  destruct (C80_watch_can_finish rex_cfg 1 600 _ _ _ _ _ _ _ H) as (w' & H1 & _ & H2 & H3).
  - done.
  - intros id ->%elem_of_list_singleton. apply (bool_decide_eq_true_1 _). vm_compute. reflexivity.
  - exists w'. split; [|done]. by eapply rtc_transitive.
Qed.
End redis_example.
