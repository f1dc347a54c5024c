(** Property theorems about the replicated ticket cache: C07, C19 - C25, C28,
    C57, C58. *)
From Coq Require Import Ascii String ZArith NArith.
From stdpp Require Import prelude strings gmap.
From Verif.Model Require Import GoStrings Types Wire Proto Cache Replica Handlers.
From Verif.Spec Require Import FilterSpec HandlerSpec CacheSpec.
From Verif.Proofs Require Import CacheLemmas HistoryLemmas HistoryMore CacheWitness.
Local Open Scope string_scope.
Local Open Scope Z_scope.

(** C07: the full claim is [GoneAfterTTL] (CacheWitness.v): whatever ticket
    CreateTicket produced, once a cycle runs more than TTL seconds after its id
    was issued it is gone. It is false: a creation time in the future postpones
    the expiration time, and an active ticket is only removed at that time. *)
Theorem C07_future_ticket_outlives_ttl_refuted : ¬ GoneAfterTTL.
Proof. exact outlives_ttl. Qed.
Print Assumptions C07_future_ticket_outlives_ttl_refuted.

(** Missing from the full claim: client-supplied creation times in the future. *)
Theorem C07_gone_after_ttl_partial : ∀ cfg es o k now t v,
  CreatedFrom (cfg_ticket_ttl cfg) now t (Update CmdTicket k v) → NotFromTheFuture now t →
  (∀ w, Update CmdTicket k w ∈ hev_updates es → w = v) →
  orders_fit cfg o (hev_run cfg empty_cache es) →
  (∀ x, x ∈ cycle_visits o → OlderThan (cfg_ticket_ttl cfg) x.2 k) →
  c_tickets (cycle cfg o (hev_run cfg empty_cache es)) !! k = None.
Proof. exact honest_gone_after_ttl. Qed.
Print Assumptions C07_gone_after_ttl_partial.

(** An active ticket, seen by a cycle 700 seconds later. *)
Example C07_example :
  CreatedFrom 600 w_now honest_ticket h_create ∧ NotFromTheFuture w_now honest_ticket ∧
  orders_fit w_cfg o_seen (hev_run w_cfg empty_cache [HUpd h_create; HUpd w_activate]) ∧
  is_Some (c_tickets (hev_run w_cfg empty_cache [HUpd h_create; HUpd w_activate]) !! w_id) ∧
  (∀ x, x ∈ cycle_visits o_seen → OlderThan 600 x.2 w_id).
Proof.
  split; [exact honest_created|]. split; [exact honest_not_future|].
  split; [unfold orders_fit; split_and!; vm_compute; reflexivity|].
  split; [eexists; vm_compute; reflexivity|].
  intros x ->%elem_of_list_singleton. vm_compute. reflexivity.
Qed.

(** C19: at every intermediate point of applying an update (after [n] of its map
    operations), a ticket that is active has been activated after its creation:
    the last state-changing command begun for its id is an activation. *)
Theorem C19_inactive_from_birth : ∀ cfg es u n k,
  Active (apply_ops (hev_run cfg empty_cache es) (take n (update_ops u))) k →
  last (state_cmds_for k (hev_updates es ++ (if (n =? 0)%nat then [] else [u]))%list) = Some true.
Proof. exact inactive_at_birth_update. Qed.
Print Assumptions C19_inactive_from_birth.

(** The same for every intermediate point of an expiration cycle. *)
Theorem C19_inactive_during_expiry : ∀ cfg es o n k,
  Active (apply_ops (hev_run cfg empty_cache es) (take n (cycle_ops cfg o (hev_run cfg empty_cache es)))) k →
  last (state_cmds_for k (hev_updates es)) = Some true.
Proof. exact inactive_at_birth_cycle. Qed.
Print Assumptions C19_inactive_during_expiry.

(** Between the two operations of a creation the id is already inactive, and
    after the activation it is active. *)
Example C19_example :
  let c1 := apply_ops empty_cache (take 1 (update_ops h_create)) in
  w_id ∈ c_inactive c1 ∧ c_tickets c1 !! w_id = None ∧
  Active (hev_run w_cfg empty_cache [HUpd h_create; HUpd w_activate]) w_id.
Proof.
  split; [vm_compute; reflexivity|]. split; [vm_compute; reflexivity|].
  split; [eexists; vm_compute; reflexivity|]. apply (bool_decide_eq_false_1 _). vm_compute. reflexivity.
Qed.

(** C20: which tickets are offered after any history of updates. *)
Theorem C20_last_command_wins : ∀ us k,
  Active (apply_updates empty_cache us) k ↔
    tickets_for k us ≠ [] ∧ last (state_cmds_for k us) = Some true.
Proof. exact last_command_wins. Qed.
Print Assumptions C20_last_command_wins.

(** The complete content of the cache after any history of updates. *)
Theorem C20_cache_content : ∀ us,
  let c := apply_updates empty_cache us in
  (∀ k, c_tickets c !! k = stored_ticket k <$> last (tickets_for k us)) ∧
  (∀ k, k ∈ c_inactive c ↔ last (state_cmds_for k us) = Some false) ∧
  (∀ k, c_assign c !! k = unmarshal_assignment <$> last (assigns_for k us)).
Proof. exact updates_char. Qed.
Print Assumptions C20_cache_content.

Theorem C20_other_ids_irrelevant : ∀ us us' k,
  filter (λ u, u_key u = k) us = filter (λ u, u_key u = k) us' →
  c_tickets (apply_updates empty_cache us) !! k = c_tickets (apply_updates empty_cache us') !! k ∧
  (k ∈ c_inactive (apply_updates empty_cache us) ↔ k ∈ c_inactive (apply_updates empty_cache us')).
Proof. exact other_ids_irrelevant. Qed.
Print Assumptions C20_other_ids_irrelevant.

Theorem C20_updates_never_remove : ∀ us us' k,
  is_Some (c_tickets (apply_updates empty_cache us) !! k) →
  is_Some (c_tickets (apply_updates empty_cache (us ++ us')%list) !! k).
Proof. exact updates_never_remove. Qed.
Print Assumptions C20_updates_never_remove.

Example C20_example :
  let us := [h_create; w_activate; Update CmdDeactivate "9-9" ""; Update CmdAssign w_id ""] in
  tickets_for w_id us = [honest_value] ∧ state_cmds_for w_id us = [false; true] ∧
  state_cmds_for w_id (us ++ [Update CmdDeactivate w_id ""])%list = [false; true; false].
Proof. split_and!; vm_compute; reflexivity. Qed.

(** C21. *)
Theorem C21_expiry_never_revives : ∀ cfg o c n k,
  k ∈ c_inactive c → ¬ Active (apply_ops c (take n (cycle_ops cfg o c))) k.
Proof. exact expiry_never_revives. Qed.
Print Assumptions C21_expiry_never_revives.

(** After one of the two operations the ticket is gone but its id is still inactive. *)
Example C21_example :
  let c := hev_run w_cfg empty_cache [HUpd h_create] in
  w_id ∈ c_inactive c ∧ cycle_ops w_cfg o_inactive c = [TDelete w_id; IDelete w_id].
Proof. split; vm_compute; reflexivity. Qed.

(** C22: a cycle whose clock readings all give [t]. *)
Theorem C22_expiry_exact : ∀ cfg o c t,
  orders_fit cfg o c → (∀ v, v ∈ cycle_visits o → v.2 = t) →
  (∀ k, k ∈ c_inactive (cycle cfg o c) ↔
        k ∈ c_inactive c ∧ ¬ OlderThan (cfg_ticket_ttl cfg) t k) ∧
  (∀ k tk, c_tickets (cycle cfg o c) !! k = Some tk ↔
        c_tickets c !! k = Some tk ∧ ¬ ExpiredAt t tk ∧
        ¬ (k ∈ c_inactive c ∧ OlderThan (cfg_ticket_ttl cfg) t k)) ∧
  (∀ k a, c_assign (cycle cfg o c) !! k = Some a ↔
        c_assign c !! k = Some a ∧ ¬ OlderThan (cfg_ticket_ttl cfg + cfg_assign_ttl cfg) t k).
Proof. exact expiry_exact. Qed.
Print Assumptions C22_expiry_exact.

(** A cycle that takes time: readings anywhere between t1 and t2, in any order. *)
Theorem C22_expiry_between : ∀ cfg o c t1 t2,
  orders_fit cfg o c → (∀ v, v ∈ cycle_visits o → t1 <= v.2 <= t2) →
  (∀ k, k ∈ c_inactive (cycle cfg o c) → k ∈ c_inactive c ∧ ¬ OlderThan (cfg_ticket_ttl cfg) t1 k) ∧
  (∀ k, k ∈ c_inactive c → ¬ OlderThan (cfg_ticket_ttl cfg) t2 k → k ∈ c_inactive (cycle cfg o c)) ∧
  (∀ k tk, c_tickets (cycle cfg o c) !! k = Some tk →
        c_tickets c !! k = Some tk ∧ ¬ ExpiredAt t1 tk ∧
        ¬ (k ∈ c_inactive c ∧ OlderThan (cfg_ticket_ttl cfg) t1 k)) ∧
  (∀ k tk, c_tickets c !! k = Some tk → ¬ ExpiredAt t2 tk →
        ¬ (k ∈ c_inactive c ∧ OlderThan (cfg_ticket_ttl cfg) t2 k) →
        c_tickets (cycle cfg o c) !! k = Some tk) ∧
  (∀ k a, c_assign (cycle cfg o c) !! k = Some a →
        c_assign c !! k = Some a ∧ ¬ OlderThan (cfg_ticket_ttl cfg + cfg_assign_ttl cfg) t1 k) ∧
  (∀ k a, c_assign c !! k = Some a → ¬ OlderThan (cfg_ticket_ttl cfg + cfg_assign_ttl cfg) t2 k →
        c_assign (cycle cfg o c) !! k = Some a).
Proof. exact expiry_between. Qed.
Print Assumptions C22_expiry_between.

(** Two inactive ids, one of them old, and an assignment. *)
Definition c22_history : list hev :=
  [HUpd h_create; HUpd (Update CmdDeactivate "1650-3" ""); HUpd (Update CmdAssign w_id "")].
Definition c22_orders : cycle_orders :=
  CycleOrders [("1650-3", w_late); (w_id, w_late)] [] [(w_id, w_late)].
Example C22_example :
  orders_fit w_cfg c22_orders (hev_run w_cfg empty_cache c22_history) ∧
  (∀ v, v ∈ cycle_visits c22_orders → v.2 = w_late) ∧
  let c' := cycle w_cfg c22_orders (hev_run w_cfg empty_cache c22_history) in
  c_tickets c' !! w_id = None ∧ elements (c_inactive c') = ["1650-3"] ∧ is_Some (c_assign c' !! w_id).
Proof.
  split.
  { unfold orders_fit. split_and!; vm_compute; try reflexivity. by repeat econstructor. }
  split.
  { intros v Hv. unfold cycle_visits in Hv. cbn in Hv.
    repeat (apply elem_of_cons in Hv as [->|Hv]; [done|]). by apply elem_of_nil in Hv. }
  split; [vm_compute; reflexivity|]. split; [vm_compute; reflexivity|]. eexists. vm_compute. reflexivity.
Qed.

(** C23. [ExpiresInTime]: the ticket expires at most TTL seconds after the second
    in which its id was issued. *)
Theorem C23_replicas_agree : ∀ cfg es1 es2 o1 o2 T,
  hev_updates es1 = hev_updates es2 →
  (∀ x, x ∈ hev_visits es1 → x.2 <= T) → (∀ x, x ∈ hev_visits es2 → x.2 <= T) →
  orders_fit cfg o1 (hev_run cfg empty_cache es1) → orders_fit cfg o2 (hev_run cfg empty_cache es2) →
  (∀ v, v ∈ cycle_visits o1 → v.2 = T) → (∀ v, v ∈ cycle_visits o2 → v.2 = T) →
  (∀ u, u ∈ hev_updates es1 → u_cmd u = CmdTicket →
        ExpiresInTime (cfg_ticket_ttl cfg) (u_key u) (stored_ticket (u_key u) (u_value u))) →
  cycle cfg o1 (hev_run cfg empty_cache es1) = cycle cfg o2 (hev_run cfg empty_cache es2).
Proof. exact replicas_agree. Qed.
Print Assumptions C23_replicas_agree.

(** One replica expired the ticket before the activation came, the other not
    until the final cycle. *)
Example C23_example :
  ExpiresInTime 600 w_id (stored_ticket w_id honest_value) ∧
  let es1 := [HUpd h_create; HUpd w_activate] in
  let es2 := [HUpd h_create; HCycle o_inactive; HUpd w_activate] in
  orders_fit w_cfg o_seen (hev_run w_cfg empty_cache es1) ∧
  orders_fit w_cfg o_none (hev_run w_cfg empty_cache es2) ∧
  is_Some (c_tickets (hev_run w_cfg empty_cache es1) !! w_id) ∧
  c_tickets (hev_run w_cfg empty_cache es2) !! w_id = None.
Proof.
  split; [vm_compute; reflexivity|]. cbv zeta.
  split; [unfold orders_fit; split_and!; vm_compute; reflexivity|].
  split; [unfold orders_fit; split_and!; vm_compute; reflexivity|].
  split; [eexists; vm_compute; reflexivity|]. vm_compute. reflexivity.
Qed.

(** C24: the full claim is [AgreeEvenForFuture] (CacheWitness.v). It is false:
    a replica that ran a cycle before the (late) activation arrived has dropped
    the ticket, another one still offers it. *)
Theorem C24_replicas_disagree_refuted : ¬ AgreeEvenForFuture.
Proof. exact replicas_disagree. Qed.
Print Assumptions C24_replicas_disagree_refuted.

(** Missing from the full claim: client-supplied creation times in the future. *)
Theorem C24_replicas_agree_partial : ∀ cfg es1 es2 o1 o2 T,
  hev_updates es1 = hev_updates es2 →
  (∀ x, x ∈ hev_visits es1 → x.2 <= T) → (∀ x, x ∈ hev_visits es2 → x.2 <= T) →
  orders_fit cfg o1 (hev_run cfg empty_cache es1) → orders_fit cfg o2 (hev_run cfg empty_cache es2) →
  (∀ v, v ∈ cycle_visits o1 → v.2 = T) → (∀ v, v ∈ cycle_visits o2 → v.2 = T) →
  (∀ u, u ∈ hev_updates es1 → u_cmd u = CmdTicket →
        ∃ now t, CreatedFrom (cfg_ticket_ttl cfg) now t u ∧ NotFromTheFuture now t) →
  cycle cfg o1 (hev_run cfg empty_cache es1) = cycle cfg o2 (hev_run cfg empty_cache es2).
Proof. exact replicas_agree_honest. Qed.
Print Assumptions C24_replicas_agree_partial.

Example C24_example : ∃ now t, CreatedFrom (cfg_ticket_ttl w_cfg) now t h_create ∧ NotFromTheFuture now t.
Proof. exists w_now, honest_ticket. split; [exact honest_created|exact honest_not_future]. Qed.

(** C25: [us1] is the part of the stream that was trimmed before the late joiner
    started reading. *)
Theorem C25_late_joiner : ∀ us1 us2 k,
  tickets_for k us2 ≠ [] →
  c_tickets (apply_updates empty_cache (us1 ++ us2)%list) !! k = c_tickets (apply_updates empty_cache us2) !! k ∧
  (k ∈ c_inactive (apply_updates empty_cache (us1 ++ us2)%list) ↔ k ∈ c_inactive (apply_updates empty_cache us2)) ∧
  (Active (apply_updates empty_cache (us1 ++ us2)%list) k ↔ Active (apply_updates empty_cache us2) k).
Proof. exact suffix_same. Qed.
Print Assumptions C25_late_joiner.

(** With expiration cycles of both instances in between. *)
Theorem C25_late_joiner_with_expiry : ∀ cfg es1 es2 us1 o1 o2 T k,
  hev_updates es1 = (us1 ++ hev_updates es2)%list → tickets_for k (hev_updates es2) ≠ [] →
  (∀ x, x ∈ hev_visits es1 → x.2 <= T) → (∀ x, x ∈ hev_visits es2 → x.2 <= T) →
  orders_fit cfg o1 (hev_run cfg empty_cache es1) → orders_fit cfg o2 (hev_run cfg empty_cache es2) →
  (∀ v, v ∈ cycle_visits o1 → v.2 = T) → (∀ v, v ∈ cycle_visits o2 → v.2 = T) →
  (∀ v, Update CmdTicket k v ∈ hev_updates es2 → ExpiresInTime (cfg_ticket_ttl cfg) k (stored_ticket k v)) →
  let c1 := cycle cfg o1 (hev_run cfg empty_cache es1) in
  let c2 := cycle cfg o2 (hev_run cfg empty_cache es2) in
  c_tickets c1 !! k = c_tickets c2 !! k ∧ (k ∈ c_inactive c1 ↔ k ∈ c_inactive c2) ∧
  (Active c1 k ↔ Active c2 k).
Proof. exact late_joiner. Qed.
Print Assumptions C25_late_joiner_with_expiry.

Example C25_example :
  tickets_for w_id [h_create; w_activate] ≠ [] ∧
  Active (apply_updates empty_cache ([Update CmdDeactivate w_id ""; Update CmdTicket "1-1" ""] ++ [h_create; w_activate])%list) w_id.
Proof.
  split; [vm_compute; discriminate|]. split; [eexists; vm_compute; reflexivity|].
  apply (bool_decide_eq_false_1 _). vm_compute. reflexivity.
Qed.

(** C28: as long as no cycle has seen the id more than TTL + additional TTL
    seconds old, the assignment of an id is that of the last assign command. *)
Theorem C28_assignments : ∀ cfg es k,
  (∀ x, x ∈ hev_visits es → ¬ OlderThan (cfg_ticket_ttl cfg + cfg_assign_ttl cfg) x.2 k) →
  c_assign (hev_run cfg empty_cache es) !! k =
    unmarshal_assignment <$> last (assigns_for k (hev_updates es)).
Proof. exact assignments_last_write_wins. Qed.
Print Assumptions C28_assignments.

(** A cycle 700 seconds after the id was issued does not touch it. *)
Example C28_example :
  (∀ x, x ∈ hev_visits (c22_history ++ [HCycle c22_orders])%list →
        ¬ OlderThan (cfg_ticket_ttl w_cfg + cfg_assign_ttl w_cfg) x.2 w_id) ∧
  assigns_for w_id (hev_updates c22_history) = [""].
Proof.
  split; [|vm_compute; reflexivity]. intros v Hv. cbn in Hv.
  repeat (apply elem_of_cons in Hv as [->|Hv]; [vm_compute; discriminate|]). by apply elem_of_nil in Hv.
Qed.

(** C57. *)
Theorem C57_gauges : ∀ cfg o c,
  orders_fit cfg o c →
  cycle_gauges cfg o c =
    Gauges (Z.of_nat (size (c_tickets c))) (Z.of_nat (size (c_inactive c))) (Z.of_nat (size (c_assign c))).
Proof. exact gauges_exact. Qed.
Print Assumptions C57_gauges.

Example C57_example :
  orders_fit w_cfg c22_orders (hev_run w_cfg empty_cache c22_history) ∧
  cycle_gauges w_cfg c22_orders (hev_run w_cfg empty_cache c22_history) = Gauges 1 2 1.
Proof.
  split; [|vm_compute; reflexivity].
  unfold orders_fit. split_and!; vm_compute; try reflexivity. by repeat econstructor.
Qed.

(** C58: the full claim is [ActiveGaugeCorrect] (CacheWitness.v). It is false:
    deactivating an id without a ticket makes the gauge negative. *)
Theorem C58_active_gauge_refuted : ¬ ActiveGaugeCorrect.
Proof. exact active_gauge_wrong. Qed.
Print Assumptions C58_active_gauge_refuted.

(** What the gauge reports: the number of active tickets minus the number of ids
    that are marked inactive but have no ticket. (Missing from the full claim:
    caches with such ids.) *)
Theorem C58_active_gauge_partial : ∀ cfg o c,
  orders_fit cfg o c →
  active_gauge (cycle_gauges cfg o c) =
    Z.of_nat (size (dom (c_tickets c) ∖ c_inactive c)) - Z.of_nat (size (c_inactive c ∖ dom (c_tickets c))).
Proof. exact active_gauge_exact. Qed.
Print Assumptions C58_active_gauge_partial.

Example C58_example :
  orders_fit w_cfg o_seen (hev_run w_cfg empty_cache [HUpd h_create; HUpd w_activate]) ∧
  active_gauge (cycle_gauges w_cfg o_seen (hev_run w_cfg empty_cache [HUpd h_create; HUpd w_activate])) = 1.
Proof. split; [unfold orders_fit; split_and!; vm_compute; reflexivity|vm_compute; reflexivity]. Qed.
