(** Property theorems about any number of instances over one Redis stream: C61, C71. *)
From Coq Require Import Ascii String ZArith NArith Lia.
From stdpp Require Import prelude strings gmap relations.
From Verif.Model Require Import GoStrings Types Proto Cache Replica Handlers MemRepl Queues RedisRepl System RedisSystem.
From Verif.Spec Require Import IdSpec RedisSpec CacheSpec SystemSpec.
From Verif.Proofs Require Import RedisSystemLemmas RedisSystemRead RedisSystemMore RedisSystemOrder RedisSystemLive.
Local Open Scope nat_scope.

(** ** C61 *)

(** What every instance has applied, followed by what it has read but not applied
    yet, is part of the common history, in its order and without repeats. *)
Theorem C61_subsequence : ∀ cfg s n x,
  yreach cfg s → ry_insts s !! n = Some x →
  applied (rx_inst x) ++ on_the_way (rx_inst x) `sublist_of` history s.
Proof. exact red_subsequence. Qed.
Print Assumptions C61_subsequence.

(** ... and without gaps, if no XTRIM had a threshold above an id in the stream. *)
Theorem C61_prefix : ∀ cfg s n x,
  yreach cfg s → Untrimmed s → ry_insts s !! n = Some x →
  ∃ rest, history s = applied (rx_inst x) ++ on_the_way (rx_inst x) ++ rest.
Proof. exact red_prefix. Qed.
Print Assumptions C61_prefix.

(** Hence of two instances one is behind the other, never on another branch. *)
Theorem C61_same_order : ∀ cfg s n m x y,
  yreach cfg s → Untrimmed s → ry_insts s !! n = Some x → ry_insts s !! m = Some y →
  applied (rx_inst x) `prefix_of` applied (rx_inst y) ∨ applied (rx_inst y) `prefix_of` applied (rx_inst x).
Proof. exact red_same_order. Qed.
Print Assumptions C61_same_order.

(** The cache is what applying these updates, with expiration cycles in between,
    makes of an empty one. *)
Theorem C61_cache : ∀ cfg s n x,
  yreach cfg s → ry_insts s !! n = Some x →
  in_cache (rx_inst x) = hev_run cfg empty_cache (in_events (rx_inst x)) ∧
  hev_fits cfg empty_cache (in_events (rx_inst x)).
Proof. exact red_cache. Qed.
Print Assumptions C61_cache.

(** An answer with an id and no error belongs to the update at the same position
    among those of the call, which is in the stream under that id. *)
Theorem C61_answers : ∀ cfg s n x i cl m r,
  yreach cfg s → ry_insts s !! n = Some x → AllSendable x → in_calls (rx_inst x) !! i = Some cl →
  cl_got cl !! m = Some r → Good r →
  ∃ u e, cl_ups cl !! m = Some u ∧ e ∈ ry_log s ∧ le_src e = n ∧ le_req e = Request u i ∧ r_result r = id_text (le_id e).
Proof. exact red_answers. Qed.
Print Assumptions C61_answers.

(** The calls that can not be sent completely are those with an empty ticket id in
    a match or an empty assignment. *)
Theorem C61_sendable : ∀ cfg s n x,
  yreach cfg s → ry_insts s !! n = Some x →
  (∀ cl u, cl ∈ in_calls (rx_inst x) → u ∈ cl_ups cl → u_cmd u = CmdDeactivate → u_key u ≠ ""%string) →
  (∀ cl u, cl ∈ in_calls (rx_inst x) → u ∈ cl_ups cl → u_cmd u = CmdAssign → u_value u ≠ ""%string) →
  AllSendable x.
Proof. exact red_sendable. Qed.
Print Assumptions C61_sendable.

(** No update gets into the stream more often than it was asked for, whatever
    happens to the connections. *)
Theorem C61_at_most_once : ∀ cfg s n x i cl,
  yreach cfg s → ry_insts s !! n = Some x → in_calls (rx_inst x) !! i = Some cl →
  updates_logged s n i ⊆+ cl_ups cl.
Proof. exact red_once. Qed.
Print Assumptions C61_at_most_once.

(** The full claim: answers without an error carry ids that are unique across all
    calls of all instances, and name the caller's ticket in the common history. *)
Definition C61_UniqueIds : Prop := ∀ cfg s n x i ci k r n' x' i' ci' k' r',
  yreach cfg s →
  ry_insts s !! n = Some x → AllSendable x → in_calls (rx_inst x) !! i = Some ci → cl_got ci !! k = Some r → r_err r = None →
  ry_insts s !! n' = Some x' → AllSendable x' → in_calls (rx_inst x') !! i' = Some ci' → cl_got ci' !! k' = Some r' → r_err r' = None →
  r_result r = r_result r' → n = n' ∧ i = i' ∧ k = k'.
Definition C61_NamesItsTicket : Prop := ∀ cfg s n x i cl v r,
  yreach cfg s → ry_insts s !! n = Some x → AllSendable x → in_calls (rx_inst x) !! i = Some cl → Creates cl v →
  r ∈ cl_got cl → r_err r = None → tickets_for (r_result r) (history s) = [v].

(** True of all non-empty ids. *)
Theorem C61_unique_ids_partial : ∀ cfg s n x i ci k r n' x' i' ci' k' r',
  yreach cfg s →
  ry_insts s !! n = Some x → AllSendable x → in_calls (rx_inst x) !! i = Some ci → cl_got ci !! k = Some r → Good r →
  ry_insts s !! n' = Some x' → AllSendable x' → in_calls (rx_inst x') !! i' = Some ci' → cl_got ci' !! k' = Some r' → Good r' →
  r_result r = r_result r' → n = n' ∧ i = i' ∧ k = k'.
Proof. exact red_ids_distinct. Qed.
Print Assumptions C61_unique_ids_partial.

Theorem C61_names_its_ticket_partial : ∀ cfg s n x i cl v r,
  yreach cfg s → ry_insts s !! n = Some x → AllSendable x → in_calls (rx_inst x) !! i = Some cl → Creates cl v →
  r ∈ cl_got cl → Good r → tickets_for (r_result r) (history s) = [v].
Proof. exact red_created. Qed.
Print Assumptions C61_names_its_ticket_partial.

(** Every ticket in a cache comes from a CreateTicket call at one of the
    instances; nothing else was ever stored under its id, and the call was told
    that id if it was told one at all. *)
Theorem C61_only_created : ∀ cfg s n x k t,
  yreach cfg s → ry_insts s !! n = Some x → c_tickets (in_cache (rx_inst x)) !! k = Some t →
  ∃ m y i cl v, ry_insts s !! m = Some y ∧ in_calls (rx_inst y) !! i = Some cl ∧ Creates cl v ∧ t = stored_ticket k v ∧
    tickets_for k (history s) = [v] ∧
    (AllSendable y → ∀ r, r ∈ cl_got cl → Good r → r_result r = k).
Proof. exact red_only_created. Qed.
Print Assumptions C61_only_created.

(** A ticket can be in a pool of an instance only if a client of some instance
    asked for its activation, and nothing applied since then changed it back. *)
Theorem C61_active_only_after_activation : ∀ cfg s n x k,
  yreach cfg s → ry_insts s !! n = Some x → Active (in_cache (rx_inst x)) k →
  ∃ us1 us2 v, applied (rx_inst x) = us1 ++ Update CmdActivate k ""%string :: us2 ∧
    Update CmdTicket k v ∈ us1 ∧ state_cmds_for k us2 = [] ∧
    ∃ m y j cj, ry_insts s !! m = Some y ∧ in_calls (rx_inst y) !! j = Some cj ∧ Activates cfg cj k.
Proof. exact red_active. Qed.
Print Assumptions C61_active_only_after_activation.

(** ** C71 *)

(** A call that begins (anywhere) after CreateTicket has returned an id has the
    updates it was given an id for replicated after that ticket. *)
Theorem C71_order : ∀ cfg s1 s2 n x i ci v r m y j cj p r' u,
  yreach cfg s1 → rtc (ystep cfg) s1 s2 →
  ry_insts s1 !! n = Some x → AllSendable x → in_calls (rx_inst x) !! i = Some ci → Creates ci v → r ∈ cl_got ci → Good r →
  NotYet s1 m j →
  ry_insts s2 !! m = Some y → AllSendable y → in_calls (rx_inst y) !! j = Some cj →
  cl_ups cj !! p = Some u → cl_got cj !! p = Some r' → Good r' →
  ∃ h1 h2 h3, history s2 = h1 ++ Update CmdTicket (r_result r) v :: h2 ++ AsStored u (r_result r') :: h3.
Proof. exact red_order. Qed.
Print Assumptions C71_order.

(** A ticket created at one instance and then activated at another is active in
    every instance that has caught up, unless it was deactivated or expired. *)
Theorem C71_created_then_activated : ∀ cfg s1 s2 n x i ci v r m y j cj p r' w z,
  yreach cfg s1 → rtc (ystep cfg) s1 s2 →
  ry_insts s1 !! n = Some x → AllSendable x → in_calls (rx_inst x) !! i = Some ci → Creates ci v → r ∈ cl_got ci → Good r →
  NotYet s1 m j →
  ry_insts s2 !! m = Some y → AllSendable y → in_calls (rx_inst y) !! j = Some cj →
  cl_ups cj !! p = Some (Update CmdActivate (r_result r) ""%string) → cl_got cj !! p = Some r' → Good r' →
  ry_insts s2 !! w = Some z → CaughtUp s2 z →
  (∀ v', Update CmdDeactivate (r_result r) v' ∉ history s2) →
  (∀ e, e ∈ hev_visits (in_events (rx_inst z)) →
        ¬ OlderThan (cfg_ticket_ttl cfg) e.2 (r_result r) ∧ ¬ ExpiredAt e.2 (stored_ticket (r_result r) v)) →
  Active (in_cache (rx_inst z)) (r_result r) ∧
  c_tickets (in_cache (rx_inst z)) !! r_result r = Some (stored_ticket (r_result r) v).
Proof. exact red_end_to_end. Qed.
Print Assumptions C71_created_then_activated.

(** No goroutine of any instance panics. *)
Theorem C71_no_panic : ∀ cfg s n x,
  yreach cfg s → ry_insts s !! n = Some x → in_out (rx_inst x) ≠ OCrash ∧ in_poll (rx_inst x) ≠ PCrash.
Proof. exact red_no_crash. Qed.
Print Assumptions C71_no_panic.

(** No deadlock: from every reachable state the instances can, without any further
    call, reach a state where all calls have returned and every instance has
    applied the complete history (if trims up to and including the time [now]
    spare the stream). *)
Theorem C71_can_finish : ∀ cfg now s,
  1 <= cfg_in_max cfg → yreach cfg s → Untrimmed s →
  (∀ e, e ∈ ry_log s → (unix_secs now - cfg_ticket_ttl cfg <= (le_id e).1)%Z) →
  ∃ s', rtc (ystep cfg) s s' ∧
    (∀ n x, ry_insts s' !! n = Some x → Quiescent (rx_inst x) ∧ CaughtUp s' x) ∧
    map (λ x, map cl_ups (in_calls (rx_inst x))) (ry_insts s') = map (λ x, map cl_ups (in_calls (rx_inst x))) (ry_insts s).
Proof. exact red_can_finish. Qed.
Print Assumptions C71_can_finish.

(** ** Examples *)
Section example.
Local Open Scope string_scope.
Definition rex_cfg : config := Config 600 600 500 2 10 false.
Definition rex_now : instant := (1700000000 * giga)%Z.
Definition rex_ticket : ticket := Ticket "" None (Some (Filterable ["mode.duel"] ∅ ∅ None)) ∅.
Definition rex_value : string :=
  match create_ticket 600 rex_now (TicketOrders [] [] []) (Some rex_ticket) with
  | Send (u :: _) => u_value u | _ => "" end.
Definition rex_id : sid := (1700000000123, 0)%Z.
Definition rex_key : string := "1700000000123-0".

Definition rex_create : update := Update CmdTicket "" rex_value.
Definition rex_activate : update := Update CmdActivate rex_key "".

Lemma rex_cmds i : cmds_of [Request rex_create i] = [(Request rex_create i, ["ticket"; rex_value])].
Proof. vm_compute. reflexivity. Qed.
Lemma rex_cmds2 : cmds_of [Request rex_create 0; Request rex_create 1] =
  [(Request rex_create 0, ["ticket"; rex_value]); (Request rex_create 1, ["ticket"; rex_value])].
Proof. vm_compute. reflexivity. Qed.
Lemma rex_issues : issues rex_cfg [rex_create] 0.
Proof. eapply (Is_create _ rex_now (TicketOrders [] [] []) (Some rex_ticket)); vm_compute; reflexivity. Qed.
Lemma rex_issues2 : issues rex_cfg [rex_activate] 1.
Proof. eapply (Is_activate _ [rex_key]); vm_compute; reflexivity. Qed.

Local Ltac tidy1 := cbn -[rex_create rex_activate rex_value rex_now rex_id rex_key giga apply_update Z.mul Z.add Z.sub cmds_of xtrim_minid
                         redis_results redis_get unix_secs].
Local Ltac tidy :=
  tidy1; repeat (match goal with |- context [(?a <=? Z.of_nat ?b)%Z] =>
    let r := eval vm_compute in (a <=? Z.of_nat b)%Z in change (a <=? Z.of_nat b)%Z with r end; tidy1).
Local Ltac go t := eapply rtc_l; [t|tidy].
Local Ltac loc n t := go ltac:(eapply (Y_local _ _ _ _ _ _ n); [reflexivity|t]).

(** Both callers of one batch, when the connection breaks: they get the same
    empty id, without an error, and no ticket. *)
Definition rex_call (got : list response) : call := Call [rex_create] 0 1 [] got.
Definition rex_broken : rsys :=
  RSys [RInst (Inst [rex_call [Response "" None]; rex_call [Response "" None]] (OCollect []) (PGet []) [] false empty_cache [])
              (0, 0)%Z
              [(Request rex_create 0, Response "" None); (Request rex_create 1, Response "" None)]]
       empty_stream [] [] [].

Lemma rex_reach_broken : yreach rex_cfg rex_broken.
Proof.
  unfold yreach, rsys0.
  go ltac:(eapply Y_join).
  loc 0 ltac:(eapply L_call, rex_issues).
  loc 0 ltac:(eapply L_call, rex_issues).
  loc 0 ltac:(eapply (L_accept _ _ _ _ _ _ _ _ _ 0); reflexivity).
  loc 0 ltac:(eapply (L_accept _ _ _ _ _ _ _ _ _ 1); reflexivity).
  unfold redis_begin. rewrite rex_cmds2.
  go ltac:(eapply (Y_break _ _ _ _ _ _ 0); reflexivity).
  change (redis_results [Request rex_create 0; Request rex_create 1] []) with [Response "" None; Response "" None].
  tidy.
  loc 0 ltac:(eapply L_deliver_direct; [reflexivity|reflexivity|split; simpl; lia]).
  loc 0 ltac:(eapply L_deliver_direct; [reflexivity|reflexivity|split; simpl; lia]).
  loc 0 ltac:(eapply L_delivered).
  go ltac:(eapply (Y_late_lost _ _ _ _ _ _ 0); reflexivity).
  constructor.
Qed.

Theorem C61_unique_ids_refuted : ¬ C61_UniqueIds.
Proof.
  intros H.
  assert (Ha : AllSendable (RInst (Inst [rex_call [Response "" None]; rex_call [Response "" None]] (OCollect []) (PGet []) [] false empty_cache [])
              (0, 0)%Z [(Request rex_create 0, Response "" None); (Request rex_create 1, Response "" None)])).
  { intros cl Hcl. cbn [rx_inst in_calls] in Hcl. rewrite !elem_of_cons in Hcl.
    assert (Sendable rex_create) by (vm_compute; done). destruct Hcl as [->|[->|Hcl]]; [repeat constructor; done..|by apply elem_of_nil in Hcl]. }
  destruct (H rex_cfg rex_broken 0 _ 0 _ 0 (Response "" None) 0 _ 1 _ 0 (Response "" None)
              rex_reach_broken eq_refl Ha eq_refl eq_refl eq_refl eq_refl Ha eq_refl eq_refl eq_refl eq_refl) as (_ & E & _). done.
Qed.
Print Assumptions C61_unique_ids_refuted.

Theorem C61_names_its_ticket_refuted : ¬ C61_NamesItsTicket.
Proof.
  intros H.
  assert (Ha : AllSendable (RInst (Inst [rex_call [Response "" None]; rex_call [Response "" None]] (OCollect []) (PGet []) [] false empty_cache [])
              (0, 0)%Z [(Request rex_create 0, Response "" None); (Request rex_create 1, Response "" None)])).
  { intros cl Hcl. cbn [rx_inst in_calls] in Hcl. rewrite !elem_of_cons in Hcl.
    assert (Sendable rex_create) by (vm_compute; done). destruct Hcl as [->|[->|Hcl]]; [repeat constructor; done..|by apply elem_of_nil in Hcl]. }
  specialize (H rex_cfg rex_broken 0 _ 0 (rex_call [Response "" None]) rex_value (Response "" None)
              rex_reach_broken eq_refl Ha eq_refl eq_refl ltac:(apply elem_of_list_here) eq_refl). done.
Qed.
Print Assumptions C61_names_its_ticket_refuted.

(** Two instances: a client of the first creates a ticket; a client of the second
    activates it; both instances end up with the ticket active. *)
Lemma rex_cmds_act i : cmds_of [Request rex_activate i] = [(Request rex_activate i, ["activate"; rex_key])].
Proof. vm_compute. reflexivity. Qed.
Definition rex_thr : Z := (unix_secs rex_now - 600)%Z.
Definition rex_stream1 : stream := Stream [Entry rex_id ["ticket"; rex_value]] rex_id.
Definition rex_id2 : sid := (1700000000123, 1)%Z.
Definition rex_stream2 : stream := Stream [Entry rex_id ["ticket"; rex_value]; Entry rex_id2 ["activate"; rex_key]] rex_id2.
Definition rex_log1 : list logent := [LogEnt rex_id (Request rex_create 0) 0].
Definition rex_log2 : list logent := [LogEnt rex_id (Request rex_create 0) 0; LogEnt rex_id2 (Request rex_activate 0) 1].
Definition rex_done1 : call := Call [rex_create] 0 1 [] [Response rex_key None].
Definition rex_done2 : call := Call [rex_activate] 1 1 [] [Response "1700000000123-1" None].
Definition rex_seen : update := Update CmdTicket rex_key rex_value.
Definition rex_cache : cache := apply_update (apply_update empty_cache rex_seen) rex_activate.

(** After CreateTicket has returned. *)
Definition rex_inst1 : rinst := RInst (Inst [rex_done1] (OCollect []) (PGet []) [] false empty_cache []) (0, 0)%Z
                 [(Request rex_create 0, Response rex_key None)].
Definition rex_mid : rsys := RSys [rex_inst1; rinst0] rex_stream1 [] rex_log1 [rex_thr].
Definition rex_inst2 : rinst :=
  RInst (Inst [rex_done1] (OCollect []) (PGet []) [] false rex_cache [HUpd rex_seen; HUpd rex_activate]) rex_id2
        [(Request rex_create 0, Response rex_key None)].
Definition rex_inst3 : rinst :=
  RInst (Inst [rex_done2] (OCollect []) (PGet []) [] false rex_cache [HUpd rex_seen; HUpd rex_activate]) rex_id2
        [(Request rex_activate 0, Response "1700000000123-1" None)].
Definition rex_final : rsys := RSys [rex_inst2; rex_inst3] rex_stream2 [] rex_log2 [rex_thr; rex_thr].

Lemma rex_reach_mid : yreach rex_cfg rex_mid.
Proof.
  unfold yreach, rsys0.
  go ltac:(eapply Y_join).
  go ltac:(eapply Y_join).
  loc 0 ltac:(eapply L_call, rex_issues).
  loc 0 ltac:(eapply (L_accept _ _ _ _ _ _ _ _ _ 0); reflexivity).
  loc 0 ltac:(eapply L_out_timeout).
  unfold redis_begin. rewrite rex_cmds.
  eapply rtc_l; [eapply (Y_xadd _ _ _ _ _ _ 0 _ _ _ _ _ _ 1700000000123%Z); reflexivity|].
  change (xadd empty_stream 1700000000123 ["ticket"; rex_value]) with (rex_stream1, rex_id). tidy.
  eapply rtc_l; [eapply (Y_sent _ _ _ _ _ _ 0 _ _ _ rex_now); reflexivity|].
  change (unix_secs rex_now - cfg_ticket_ttl rex_cfg)%Z with rex_thr.
  replace (xtrim_minid rex_stream1 rex_thr) with rex_stream1 by (vm_compute; reflexivity).
  unfold finish_send.
  replace (redis_results [Request rex_create 0] [Some rex_id]) with [Response rex_key None] by (vm_compute; reflexivity).
  tidy.
  loc 0 ltac:(eapply L_deliver_direct; [reflexivity|reflexivity|split; simpl; lia]).
  loc 0 ltac:(eapply L_delivered).
  constructor.
Qed.

Lemma rex_get : redis_get 10 rex_stream2 (0, 0)%Z true = (Filter.Done [rex_seen; rex_activate], rex_id2).
Proof. vm_compute. reflexivity. Qed.

Lemma rex_reach_final : rtc (ystep rex_cfg) rex_mid rex_final.
Proof.
  unfold rex_mid, rex_inst1.
  loc 1 ltac:(eapply L_call, rex_issues2).
  loc 1 ltac:(eapply (L_accept _ _ _ _ _ _ _ _ _ 0); reflexivity).
  loc 1 ltac:(eapply L_out_timeout).
  unfold redis_begin. rewrite rex_cmds_act.
  eapply rtc_l; [eapply (Y_xadd _ _ _ _ _ _ 1 _ _ _ _ _ _ 1699999999999%Z); reflexivity|].
  change (xadd rex_stream1 1699999999999 ["activate"; rex_key]) with (rex_stream2, rex_id2). tidy.
  eapply rtc_l; [eapply (Y_sent _ _ _ _ _ _ 1 _ _ _ rex_now); reflexivity|].
  change (unix_secs rex_now - cfg_ticket_ttl rex_cfg)%Z with rex_thr.
  replace (xtrim_minid rex_stream2 rex_thr) with rex_stream2 by (vm_compute; reflexivity).
  unfold finish_send.
  replace (redis_results [Request rex_activate 0] [Some rex_id2]) with [Response "1700000000123-1" None] by (vm_compute; reflexivity).
  tidy.
  loc 1 ltac:(eapply L_deliver_buffered; [reflexivity|intros [_ ?]; simpl in *; lia|simpl; lia]).
  loc 1 ltac:(eapply (L_receive _ _ _ _ _ _ _ _ _ 0); [reflexivity|split; simpl; lia|reflexivity]).
  loc 1 ltac:(eapply L_delivered).
  eapply rtc_l; [eapply (Y_poll _ _ _ _ _ _ 0 _ true); reflexivity|].
  unfold poll_redis. cbn [rx_cursor rinst0 cfg_in_max rex_cfg]. rewrite rex_get. tidy.
  eapply rtc_l; [eapply (Y_poll _ _ _ _ _ _ 1 _ true); reflexivity|].
  unfold poll_redis. cbn [rx_cursor rinst0 cfg_in_max rex_cfg]. rewrite rex_get. tidy.
  loc 0 ltac:(eapply L_push; simpl; lia).
  loc 0 ltac:(eapply L_push; simpl; lia).
  loc 1 ltac:(eapply L_push; simpl; lia).
  loc 0 ltac:(eapply L_apply).
  loc 1 ltac:(eapply L_apply).
  loc 1 ltac:(eapply L_apply_direct).
  loc 0 ltac:(eapply L_apply).
  loc 0 ltac:(eapply L_pushed).
  loc 1 ltac:(eapply L_pushed).
  constructor.
Qed.

Example C61_example :
  yreach rex_cfg rex_final ∧ Untrimmed rex_final ∧ AllSendable rex_inst2 ∧ AllSendable rex_inst3 ∧
  Creates rex_done1 rex_value ∧ Good (Response rex_key None) ∧ history rex_final = [rex_seen; rex_activate] ∧
  CaughtUp rex_final rex_inst2 ∧ CaughtUp rex_final rex_inst3 ∧ Active (in_cache (rx_inst rex_inst3)) rex_key.
Proof.
  split; [eapply rtc_transitive; [exact rex_reach_mid|exact rex_reach_final]|].
  assert (S1 : Sendable rex_create) by (vm_compute; done). assert (S2 : Sendable rex_activate) by (vm_compute; done).
  split.
  { intros t e Ht He. unfold rex_final in *. cbn [ry_trims ry_log] in *. rewrite !elem_of_cons in *.
    assert (t = rex_thr) as -> by (destruct Ht as [?|[?|Ht]]; [done|done|by apply elem_of_nil in Ht]).
    unfold rex_log2 in He. rewrite !elem_of_cons in He. destruct He as [->|[->|He]]; [vm_compute; done..|by apply elem_of_nil in He]. }
  split; [intros cl ->%elem_of_list_singleton; by repeat constructor|].
  split; [intros cl ->%elem_of_list_singleton; by repeat constructor|].
  split; [done|]. split; [done|]. split; [vm_compute; reflexivity|]. split; [vm_compute; reflexivity|]. split; [vm_compute; reflexivity|].
  split; [vm_compute; by eexists|]. apply (bool_decide_unpack _). vm_compute. exact I.
Qed.

(** The hypotheses of [C71_order] and [C71_created_then_activated] are met. *)
Example C71_example :
  yreach rex_cfg rex_mid ∧ rtc (ystep rex_cfg) rex_mid rex_final ∧
  ry_insts rex_mid !! 0 = Some rex_inst1 ∧ in_calls (rx_inst rex_inst1) !! 0 = Some rex_done1 ∧ NotYet rex_mid 1 0 ∧
  ry_insts rex_final !! 1 = Some rex_inst3 ∧ in_calls (rx_inst rex_inst3) !! 0 = Some rex_done2 ∧
  cl_ups rex_done2 !! 0 = Some (Update CmdActivate rex_key "") ∧ returned rex_done2 ∧ Good (Response "1700000000123-1" None) ∧
  hev_visits (in_events (rx_inst rex_inst2)) = [] ∧ 1 <= cfg_in_max rex_cfg.
Proof.
  split; [exact rex_reach_mid|]. split; [exact rex_reach_final|]. split_and!; try done.
  - intros y [= <-]. simpl. lia.
  - simpl. lia.
Qed.
End example.
