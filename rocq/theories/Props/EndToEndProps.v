(** C72, C73, C74: from the calls of clients to what matchmaking functions receive. *)
From Coq Require Import Ascii String ZArith NArith.
From stdpp Require Import prelude strings gmap relations.
From Verif.Model Require Import GoStrings Types Filter Wire Proto Cache Replica Handlers MemRepl Queues RedisRepl Snapshot Chunk System RedisSystem.
From Verif.Spec Require Import HandlerSpec CacheSpec ChunkSpec SystemSpec EndToEndSpec.
From Verif.Proofs Require Import SnapshotLemmas EndToEndLemmas EndToEndMem EndToEndRedis.
From Verif.Props Require Import SystemProps RedisSystemProps.

(** ** C72: one instance with the in-memory store *)

(** The tickets clients have created can not make the construction of the requests
    panic, and every function that uses GetChunkedRequest gets a profile. *)
Theorem C72_functions_are_served : ∀ cfg t0 s1 s2 p tsn,
  (0 <= t0)%Z → SaneTTL (cfg_ticket_ttl cfg) → mreach cfg t0 s1 → rtc (mstep cfg) s1 s2 →
  ValidCreates cfg (ms_inst s2) → SnapshotBetween cfg (ms_inst s1) (ms_inst s2) tsn.*1 →
  NamesFit p tsn → CountFits p tsn.*1 →
  ∃ cs, build_requests p tsn = Done cs ∧
    ∀ rcs, rcs.*1 = cs → pool_orders_fit rcs → ∃ got, get_chunked_request rcs = Done (Received got).
Proof. exact mem_served. Qed.
Print Assumptions C72_functions_are_served.

(** Every ticket in a pool that a function gets passes the filters of that pool and
    was created by a CreateTicket call: it has the attributes the client sent, and
    the id that this call returns. No ticket is in a pool twice. *)
Theorem C72_functions_get_created_tickets : ∀ cfg t0 s1 s2 ts p got n,
  (0 <= t0)%Z → SaneTTL (cfg_ticket_ttl cfg) → mreach cfg t0 s1 → rtc (mstep cfg) s1 s2 →
  ValidCreates cfg (ms_inst s2) → SnapshotBetween cfg (ms_inst s1) (ms_inst s2) ts →
  CountFits p ts → FunctionGets p ts got →
  NoDup (map tk_id (PoolTickets got n)) ∧
  ∀ t, t ∈ PoolTickets got n →
    Eligible p n t ∧
    ∃ i cl now req, in_calls (ms_inst s2) !! i = Some cl ∧ CreateCall cfg cl now req ∧
      StoredAs (cfg_ticket_ttl cfg) now (tk_id t) req t ∧ (∀ r, r ∈ cl_got cl → r = Response (tk_id t) None).
Proof. exact mem_functions_get. Qed.
Print Assumptions C72_functions_get_created_tickets.

(** A ticket that was created and then activated is in every pool it is eligible
    for, in every request built from a snapshot that begins when its activation has
    been applied, unless it was deactivated or expired. *)
Theorem C72_activated_ticket_reaches_functions : ∀ cfg t0 s1 s2 s3 i ci v r j cj ts p got n,
  (0 <= t0)%Z → SaneTTL (cfg_ticket_ttl cfg) →
  mreach cfg t0 s1 → rtc (mstep cfg) s1 s2 → rtc (mstep cfg) s2 s3 → ValidCreates cfg (ms_inst s3) →
  in_calls (ms_inst s1) !! i = Some ci → Creates ci v → r ∈ cl_got ci →
  length (in_calls (ms_inst s1)) <= j → in_calls (ms_inst s2) !! j = Some cj → returned cj →
  Update CmdActivate (r_result r) ""%string ∈ cl_ups cj →
  on_the_way (ms_inst s2) = [] →
  (∀ w, Update CmdDeactivate (r_result r) w ∉ applied (ms_inst s3)) →
  (∀ x, x ∈ hev_visits (in_events (ms_inst s3)) →
        ¬ OlderThan (cfg_ticket_ttl cfg) x.2 (r_result r) ∧ ¬ ExpiredAt x.2 (stored_ticket (r_result r) v)) →
  SnapshotBetween cfg (ms_inst s2) (ms_inst s3) ts → CountFits p ts → FunctionGets p ts got →
  Eligible p n (stored_ticket (r_result r) v) →
  stored_ticket (r_result r) v ∈ PoolTickets got n.
Proof. exact mem_reaches. Qed.
Print Assumptions C72_activated_ticket_reaches_functions.

(** A ticket that was stored before the snapshot began, and whose last applied state
    change was not an activation, is not offered. *)
Theorem C72_inactive_ticket_not_offered : ∀ cfg t0 s1 s2 us ts k,
  (0 <= t0)%Z → mreach cfg t0 s1 → rtc (mstep cfg) s1 s2 →
  tickets_for k (applied (ms_inst s1)) ≠ [] →
  last (state_cmds_for k (applied (ms_inst s1))) ≠ Some true →
  applied (ms_inst s2) = applied (ms_inst s1) ++ us → (∀ w, Update CmdActivate k w ∉ us) →
  SnapshotBetween cfg (ms_inst s1) (ms_inst s2) ts →
  ∀ t, t ∈ ts → tk_id t ≠ k.
Proof. exact mem_not_offered. Qed.
Print Assumptions C72_inactive_ticket_not_offered.

(** ** C74 *)

(** The full claim: only tickets for which somebody has asked activation are
    given to functions. *)
Definition C74_OnlyActivated : Prop := ∀ cfg t0 s1 s2 ts p got n t,
  (0 <= t0)%Z → SaneTTL (cfg_ticket_ttl cfg) → mreach cfg t0 s1 → rtc (mstep cfg) s1 s2 →
  ValidCreates cfg (ms_inst s2) → SnapshotBetween cfg (ms_inst s1) (ms_inst s2) ts →
  CountFits p ts → FunctionGets p ts got → t ∈ PoolTickets got n →
  ∃ j cj, in_calls (ms_inst s2) !! j = Some cj ∧ Activates cfg cj (tk_id t).

(** It holds for tickets that were stored before the snapshot began. *)
Theorem C74_only_activated_partial : ∀ cfg t0 s1 s2 ts t,
  (0 <= t0)%Z → mreach cfg t0 s1 → rtc (mstep cfg) s1 s2 →
  SnapshotBetween cfg (ms_inst s1) (ms_inst s2) ts → t ∈ ts →
  tickets_for (tk_id t) (applied (ms_inst s1)) ≠ [] →
  ∃ j cj, in_calls (ms_inst s2) !! j = Some cj ∧ Activates cfg cj (tk_id t).
Proof. exact mem_only_activated. Qed.
Print Assumptions C74_only_activated_partial.

(** ** C73: several instances on one Redis stream *)

(** As C72, for the tickets created at any of the instances. *)
Theorem C73_functions_are_served : ∀ cfg s1 s2 n x1 x2 p tsn,
  SaneTTL (cfg_ticket_ttl cfg) →
  yreach cfg s1 → rtc (ystep cfg) s1 s2 → ry_insts s1 !! n = Some x1 → ry_insts s2 !! n = Some x2 →
  AllValidCreates cfg s2 → SnapshotBetween cfg (rx_inst x1) (rx_inst x2) tsn.*1 →
  NamesFit p tsn → CountFits p tsn.*1 →
  ∃ cs, build_requests p tsn = Done cs ∧
    ∀ rcs, rcs.*1 = cs → pool_orders_fit rcs → ∃ got, get_chunked_request rcs = Done (Received got).
Proof. exact red_served. Qed.
Print Assumptions C73_functions_are_served.

(** Every ticket in a pool was created by a CreateTicket call at some instance; if
    that call was told an id, it is this one. *)
Theorem C73_functions_get_created_tickets : ∀ cfg s1 s2 n x1 x2 ts p got q,
  SaneTTL (cfg_ticket_ttl cfg) →
  yreach cfg s1 → rtc (ystep cfg) s1 s2 → ry_insts s1 !! n = Some x1 → ry_insts s2 !! n = Some x2 →
  AllValidCreates cfg s2 → SnapshotBetween cfg (rx_inst x1) (rx_inst x2) ts →
  CountFits p ts → FunctionGets p ts got →
  NoDup (map tk_id (PoolTickets got q)) ∧
  ∀ t, t ∈ PoolTickets got q →
    Eligible p q t ∧
    ∃ m y i cl now req, ry_insts s2 !! m = Some y ∧ in_calls (rx_inst y) !! i = Some cl ∧ CreateCall cfg cl now req ∧
      StoredAs (cfg_ticket_ttl cfg) now (tk_id t) req t ∧
      (AllSendable y → ∀ r, r ∈ cl_got cl → Good r → r_result r = tk_id t).
Proof. exact red_functions_get. Qed.
Print Assumptions C73_functions_get_created_tickets.

(** A ticket created at one instance and activated at another reaches the functions
    called by any instance that had caught up. *)
Theorem C73_activated_ticket_reaches_functions : ∀ cfg s1 s2 s3 n x i ci v r m y j cj k r' w z2 z3 ts p got q,
  SaneTTL (cfg_ticket_ttl cfg) →
  yreach cfg s1 → rtc (ystep cfg) s1 s2 → rtc (ystep cfg) s2 s3 → AllValidCreates cfg s3 →
  ry_insts s1 !! n = Some x → AllSendable x → in_calls (rx_inst x) !! i = Some ci → Creates ci v → r ∈ cl_got ci → Good r →
  NotYet s1 m j →
  ry_insts s2 !! m = Some y → AllSendable y → in_calls (rx_inst y) !! j = Some cj →
  cl_ups cj !! k = Some (Update CmdActivate (r_result r) ""%string) → cl_got cj !! k = Some r' → Good r' →
  ry_insts s2 !! w = Some z2 → CaughtUp s2 z2 → ry_insts s3 !! w = Some z3 →
  (∀ v', Update CmdDeactivate (r_result r) v' ∉ history s3) →
  (∀ e, e ∈ hev_visits (in_events (rx_inst z3)) →
        ¬ OlderThan (cfg_ticket_ttl cfg) e.2 (r_result r) ∧ ¬ ExpiredAt e.2 (stored_ticket (r_result r) v)) →
  SnapshotBetween cfg (rx_inst z2) (rx_inst z3) ts → CountFits p ts → FunctionGets p ts got →
  Eligible p q (stored_ticket (r_result r) v) →
  stored_ticket (r_result r) v ∈ PoolTickets got q.
Proof. exact red_reaches. Qed.
Print Assumptions C73_activated_ticket_reaches_functions.

(** A ticket that was stored before the snapshot began, and whose last applied state
    change was not an activation, is not offered. *)
Theorem C73_inactive_ticket_not_offered : ∀ cfg s1 s2 n x1 x2 us ts k,
  yreach cfg s1 → rtc (ystep cfg) s1 s2 → ry_insts s1 !! n = Some x1 → ry_insts s2 !! n = Some x2 →
  tickets_for k (applied (rx_inst x1)) ≠ [] →
  last (state_cmds_for k (applied (rx_inst x1))) ≠ Some true →
  applied (rx_inst x2) = applied (rx_inst x1) ++ us → (∀ w, Update CmdActivate k w ∉ us) →
  SnapshotBetween cfg (rx_inst x1) (rx_inst x2) ts →
  ∀ t, t ∈ ts → tk_id t ≠ k.
Proof. exact red_not_offered. Qed.
Print Assumptions C73_inactive_ticket_not_offered.

(** A ticket that was stored before the snapshot began is offered only after an
    activation (the full claim fails as with one instance). *)
Theorem C74_only_activated_redis_partial : ∀ cfg s1 s2 n x1 x2 ts t,
  yreach cfg s1 → rtc (ystep cfg) s1 s2 → ry_insts s1 !! n = Some x1 → ry_insts s2 !! n = Some x2 →
  SnapshotBetween cfg (rx_inst x1) (rx_inst x2) ts → t ∈ ts →
  tickets_for (tk_id t) (applied (rx_inst x1)) ≠ [] →
  ∃ m y j cj, ry_insts s2 !! m = Some y ∧ in_calls (rx_inst y) !! j = Some cj ∧ Activates cfg cj (tk_id t).
Proof. exact red_only_activated. Qed.
Print Assumptions C74_only_activated_redis_partial.

(** ** Examples *)
Section example.
Local Open Scope string_scope.
Definition e2e_pool : pool := Pool "duel" ["mode.duel"] [] [] None None ∅.
Definition e2e_profile : profile := Profile "duel" {["duel" := e2e_pool]} ∅.
Definition e2e_key : string := "1700000000-1".
Definition e2e_stored : ticket := stored_ticket e2e_key ex_value.

Lemma e2e_valid_name n : ValidName e2e_profile n ↔ n = "duel".
Proof.
  unfold ValidName, e2e_profile. cbn [pr_pools]. split.
  - intros (q & Hq & _). by apply lookup_singleton_Some in Hq as [<- _].
  - intros ->. exists e2e_pool. split; [by rewrite lookup_singleton|vm_compute; reflexivity].
Qed.

Lemma e2e_create : CreateCall ex_cfg ex_create ex_now ex_ticket.
Proof.
  split; [vm_compute; split; congruence|]. split.
  { split_and!; try (intros k x Hx; exfalso; revert Hx; vm_compute; congruence).
    intros s Hs. unfold client_tags in Hs. cbn in Hs. apply elem_of_list_singleton in Hs as ->. vm_compute. reflexivity. }
  exists (TicketOrders [] [] []), ex_value. split; [vm_compute; repeat split; constructor|].
  split; [vm_compute; reflexivity|]. split; [vm_compute; reflexivity|done].
Qed.

(** A function called with [ts], a list of tickets all eligible. *)
Lemma e2e_gets ts : NoFilterPanic e2e_profile ts → CountFits e2e_profile ts →
  ∃ got, FunctionGets e2e_profile ts got.
Proof.
  intros Hp Hf. set (tsn := map (λ t, (t, ["duel"])) ts).
  assert (E : tsn.*1 = ts).
  { unfold tsn. clear. induction ts as [|t ts IH]; [done|]. cbn [map]. rewrite fmap_cons. by f_equal. }
  assert (Hnf : NamesFit e2e_profile tsn).
  { intros t ns Hin. unfold tsn in Hin. apply elem_of_list_fmap in Hin as (t' & [= -> ->] & _).
    apply ChunkLemmas.names_order; [apply NoDup_singleton|]. intros n. by rewrite e2e_valid_name, elem_of_list_singleton. }
  destruct (functions_served e2e_profile tsn Hnf) as (cs & Hb & Hg); rewrite ?E; try done.
  set (rcs := map (λ c, (c, map_to_list (pr_pools (ch_profile c)))) cs).
  assert (Ec : rcs.*1 = cs).
  { unfold rcs. clear. induction cs as [|t cs IH]; [done|]. cbn [map]. rewrite fmap_cons. by f_equal. }
  assert (Hfit : pool_orders_fit rcs).
  { apply Forall_forall. intros x Hx. unfold rcs in Hx. by apply elem_of_list_fmap in Hx as (c & -> & _). }
  destruct (Hg rcs Ec Hfit) as [got Hgot].
  exists got. by exists tsn, cs, rcs.
Qed.

(** The state just before the new ticket is applied, and the one after. *)
Local Ltac go t := eapply rtc_l; [t|cbn -[ex_value ex_t0 ex_now giga apply_update Z.mul Z.add mem_new]].
Local Ltac loc t := go ltac:(apply M_local; t).

Definition e2e_before : msys :=
  MSys (Inst [ex_create] (OCollect []) (PPush []) [Update CmdTicket e2e_key ex_value] false empty_cache [])
       (MemState ex_t0 1) (ex_t0 + 7)%Z
       [Sent (Request (Update CmdTicket "" ex_value) 0) (Response e2e_key None) (Update CmdTicket e2e_key ex_value)].

Lemma e2e_reach_before : mreach ex_cfg ex_t0 e2e_before.
Proof.
  unfold mreach, msys0, inst0.
  loc ltac:(eapply (L_call _ _ _ _ _ _ _ _ _ [Update CmdTicket "" ex_value]);
            eapply (Is_create _ ex_now (TicketOrders [] [] []) (Some ex_ticket)); vm_compute; reflexivity).
  loc ltac:(eapply (L_accept _ _ _ _ _ _ _ _ _ 0); reflexivity).
  loc ltac:(eapply L_out_timeout).
  go ltac:(eapply (M_id _ _ _ _ _ _ _ _ _ _ _ _ _ _ (ex_t0 + 7)%Z (ex_t0 + 7)%Z (Update CmdTicket e2e_key ex_value)
                     (Response e2e_key None) (MemState ex_t0 1));
           [unfold ex_t0; lia|unfold ex_t0; lia|vm_compute; reflexivity]).
  go ltac:(eapply M_give).
  go ltac:(eapply M_sent).
  go ltac:(eapply M_poll_timeout).
  loc ltac:(eapply L_push; simpl; lia).
  loc ltac:(eapply L_deliver_direct; [reflexivity|reflexivity|split; simpl; lia]).
  loc ltac:(eapply L_delivered).
  constructor.
Qed.

Lemma e2e_before_mid : rtc (mstep ex_cfg) e2e_before ex_mid.
Proof.
  unfold e2e_before.
  loc ltac:(eapply L_apply).
  loc ltac:(eapply L_pushed).
  constructor.
Qed.

(** Reads the inactive set first, and the tickets when the new ticket is there. *)
Definition e2e_race : snapshot := Snapshot 0 0 2 (λ _, 0) (λ _, 2) [e2e_key].

Lemma e2e_race_snapshot : SnapshotBetween ex_cfg (ms_inst e2e_before) (ms_inst ex_mid) [e2e_stored].
Proof.
  exists [HUpd (Update CmdTicket e2e_key ex_value)], e2e_race. split; [done|]. split; [|vm_compute; reflexivity].
  unfold snapshot_ok. cbn [e2e_race sn_begin sn_mid sn_end sn_at_inactive sn_at_ticket sn_order].
  split_and!; try (intros; simpl; lia); try (simpl; lia).
  - apply NoDup_singleton.
  - intros k. rewrite elem_of_list_singleton. unfold seen_ticket, cache_at.
    change (c_tickets (apply_ops (in_cache (ms_inst e2e_before))
      (take (sn_at_ticket e2e_race k) (hev_ops ex_cfg (in_cache (ms_inst e2e_before)) [HUpd (Update CmdTicket e2e_key ex_value)]))))
      with (<[e2e_key := e2e_stored]> (∅ : gmap string ticket)).
    split; [intros ->; rewrite lookup_insert; by eexists|].
    intros [t Ht]. apply lookup_insert_Some in Ht as [[-> _]|[_ Ht]]; [done|]. by rewrite lookup_empty in Ht.
Qed.

Lemma e2e_valid_creates_mid : ValidCreates ex_cfg (ms_inst ex_mid).
Proof. intros cl v ->%elem_of_list_singleton _. exists ex_now, ex_ticket. exact e2e_create. Qed.

Lemma e2e_eligible : Eligible e2e_profile "duel" e2e_stored.
Proof. exists e2e_pool. split; [done|]. split; vm_compute; reflexivity. Qed.

(** A ticket nobody has activated is given to a function. *)
Theorem C74_only_activated_refuted : ¬ C74_OnlyActivated.
Proof.
  intros H.
  assert (Hf : CountFits e2e_profile [e2e_stored]) by (vm_compute; reflexivity).
  assert (Hnp : NoFilterPanic e2e_profile [e2e_stored]).
  { eapply (mem_no_filter_panic ex_cfg ex_t0 e2e_before ex_mid);
      [by vm_compute|by vm_compute|exact e2e_reach_before|exact e2e_before_mid|exact e2e_valid_creates_mid|exact e2e_race_snapshot]. }
  destruct (e2e_gets [e2e_stored] Hnp Hf) as [got Hg].
  destruct (functions_get e2e_profile [e2e_stored] got Hnp Hf Hg) as (_ & _ & Hp).
  destruct (H ex_cfg ex_t0 e2e_before ex_mid [e2e_stored] e2e_profile got "duel" e2e_stored) as (j & cj & Hj & ids & Hids & Hs);
    [by vm_compute|by vm_compute|exact e2e_reach_before|exact e2e_before_mid|exact e2e_valid_creates_mid|exact e2e_race_snapshot|done|done| |].
  - rewrite Hp. apply elem_of_list_filter. split; [exact e2e_eligible|left].
  - cbn [ms_inst ex_mid in_calls] in Hj. apply list_lookup_singleton_Some in Hj as [_ <-]. cbn [cl_ups ex_create] in Hs.
    unfold activate_start, set_active_start in Hs. cbv zeta in Hs. destruct (_ =? 0)%Z; [done|].
    destruct (_ <? _)%Z; [done|]. unfold state_updates in Hs. injection Hs as Hs. destruct ids as [|a ids]; [by apply elem_of_nil in Hids|].
    revert Hs. match goal with |- map _ ?l = _ → _ => destruct l end; done.
Qed.
Print Assumptions C74_only_activated_refuted.

(** A snapshot without concurrent changes: all tickets that are not inactive. *)
Definition e2e_calm (k : string) : snapshot := Snapshot 0 0 0 (λ _, 0) (λ _, 0) [k].

Lemma e2e_calm_ok c k t : c_tickets c = <[k := t]> ∅ → snapshot_ok c [] (e2e_calm k).
Proof.
  intros E. unfold snapshot_ok. cbn [e2e_calm sn_begin sn_mid sn_end sn_at_inactive sn_at_ticket sn_order].
  split_and!; try (intros; simpl; lia); try (simpl; lia).
  - apply NoDup_singleton.
  - intros k'. rewrite elem_of_list_singleton. unfold seen_ticket, cache_at. cbn [e2e_calm sn_at_ticket take apply_ops foldl].
    change (apply_ops c []) with c. rewrite E.
    split; [intros ->; rewrite lookup_insert; by eexists|].
    intros [t' Ht]. apply lookup_insert_Some in Ht as [[-> _]|[_ Ht]]; [done|]. by rewrite lookup_empty in Ht.
Qed.

(** The ticket of [C70_example] reaches the function. *)
Example C72_example :
  mreach ex_cfg ex_t0 ex_mid ∧ rtc (mstep ex_cfg) ex_mid ex_final ∧ ValidCreates ex_cfg (ms_inst ex_final) ∧
  SnapshotBetween ex_cfg (ms_inst ex_final) (ms_inst ex_final) [e2e_stored] ∧ CountFits e2e_profile [e2e_stored] ∧
  Eligible e2e_profile "duel" e2e_stored ∧
  ∃ got, FunctionGets e2e_profile [e2e_stored] got ∧ PoolTickets got "duel" = [e2e_stored].
Proof.
  assert (Hv : ValidCreates ex_cfg (ms_inst ex_final)).
  { intros cl v Hcl Hc. cbn [ms_inst ex_final in_calls] in Hcl. rewrite !elem_of_cons in Hcl.
    destruct Hcl as [->|[->|Hcl]]; [exists ex_now, ex_ticket; exact e2e_create|done|by apply elem_of_nil in Hcl]. }
  assert (Hs : SnapshotBetween ex_cfg (ms_inst ex_final) (ms_inst ex_final) [e2e_stored]).
  { exists [], (e2e_calm e2e_key). split; [done|]. split; [|vm_compute; reflexivity].
    apply (e2e_calm_ok _ _ e2e_stored). vm_compute. reflexivity. }
  assert (Hf : CountFits e2e_profile [e2e_stored]) by (vm_compute; reflexivity).
  assert (Hr : mreach ex_cfg ex_t0 ex_final) by (eapply rtc_transitive; [exact ex_reach_mid|exact ex_reach_final]).
  assert (Hnp : NoFilterPanic e2e_profile [e2e_stored]).
  { eapply (mem_no_filter_panic ex_cfg ex_t0 ex_final ex_final); [by vm_compute|by vm_compute|exact Hr|constructor|exact Hv|exact Hs]. }
  split; [exact ex_reach_mid|]. split; [exact ex_reach_final|]. split; [exact Hv|]. split; [exact Hs|].
  split; [exact Hf|]. split; [exact e2e_eligible|].
  destruct (e2e_gets [e2e_stored] Hnp Hf) as [got Hg]. exists got. split; [done|].
  destruct (functions_get e2e_profile [e2e_stored] got Hnp Hf Hg) as (_ & _ & Hp). rewrite Hp.
  rewrite filter_cons_True by exact e2e_eligible. done.
Qed.

(** The ticket was stored before this snapshot, and somebody has activated it. *)
Example C74_example :
  SnapshotBetween ex_cfg (ms_inst ex_final) (ms_inst ex_final) [e2e_stored] ∧
  tickets_for (tk_id e2e_stored) (applied (ms_inst ex_final)) ≠ [] ∧
  ∃ cj, in_calls (ms_inst ex_final) !! 1 = Some cj ∧ Activates ex_cfg cj (tk_id e2e_stored).
Proof.
  split; [exact (proj1 (proj2 (proj2 (proj2 C72_example))))|]. split; [vm_compute; discriminate|].
  eexists. split; [reflexivity|]. exists [e2e_key]. split; [apply elem_of_list_here|vm_compute; reflexivity].
Qed.

(** The ticket created at the first instance of [C71_example] and activated at the
    second one reaches functions called by the first one. *)
Definition e2e_rstored : ticket := stored_ticket rex_key rex_value.

Lemma e2e_rcreate : CreateCall rex_cfg rex_done1 rex_now rex_ticket.
Proof.
  split; [vm_compute; split; congruence|]. split.
  { split_and!; try (intros k x Hx; exfalso; revert Hx; vm_compute; congruence).
    intros s Hs. unfold client_tags in Hs. cbn in Hs. apply elem_of_list_singleton in Hs as ->. vm_compute. reflexivity. }
  exists (TicketOrders [] [] []), rex_value. split; [vm_compute; repeat split; constructor|].
  split; [vm_compute; reflexivity|]. split; [vm_compute; reflexivity|done].
Qed.

Example C73_example :
  yreach rex_cfg rex_final ∧ AllValidCreates rex_cfg rex_final ∧ ry_insts rex_final !! 0 = Some rex_inst2 ∧
  SnapshotBetween rex_cfg (rx_inst rex_inst2) (rx_inst rex_inst2) [e2e_rstored] ∧ CountFits e2e_profile [e2e_rstored] ∧
  Eligible e2e_profile "duel" e2e_rstored ∧
  ∃ got, FunctionGets e2e_profile [e2e_rstored] got ∧ PoolTickets got "duel" = [e2e_rstored].
Proof.
  assert (Hv : AllValidCreates rex_cfg rex_final).
  { intros n x Hx cl v Hcl Hc. destruct n as [|[|n]]; [| |done].
    - injection Hx as <-. apply elem_of_list_singleton in Hcl as ->. exists rex_now, rex_ticket. exact e2e_rcreate.
    - injection Hx as <-. apply elem_of_list_singleton in Hcl as ->. done. }
  assert (Hs : SnapshotBetween rex_cfg (rx_inst rex_inst2) (rx_inst rex_inst2) [e2e_rstored]).
  { exists [], (e2e_calm rex_key). split; [done|]. split; [|vm_compute; reflexivity].
    apply (e2e_calm_ok _ _ e2e_rstored). vm_compute. reflexivity. }
  assert (Hf : CountFits e2e_profile [e2e_rstored]) by (vm_compute; reflexivity).
  assert (Hr : yreach rex_cfg rex_final) by (eapply rtc_transitive; [exact rex_reach_mid|exact rex_reach_final]).
  assert (Hnp : NoFilterPanic e2e_profile [e2e_rstored]).
  { eapply (red_no_filter_panic rex_cfg rex_final rex_final 0 rex_inst2 rex_inst2);
      [by vm_compute|exact Hr|constructor|done|done|exact Hv|exact Hs]. }
  assert (He : Eligible e2e_profile "duel" e2e_rstored).
  { exists e2e_pool. split; [done|]. split; vm_compute; reflexivity. }
  split; [exact Hr|]. split; [exact Hv|]. split; [done|]. split; [exact Hs|].
  split; [exact Hf|]. split; [exact He|].
  destruct (e2e_gets [e2e_rstored] Hnp Hf) as [got Hg]. exists got. split; [done|].
  destruct (functions_get e2e_profile [e2e_rstored] got Hnp Hf Hg) as (_ & _ & Hp). rewrite Hp.
  rewrite filter_cons_True by exact He. done.
Qed.
End example.
