(** Property theorems about what the cache forgets: C116. *)
From Coq Require Import Ascii String ZArith NArith Lia.
From stdpp Require Import prelude strings gmap.
From Verif.Model Require Import GoStrings Types Proto Cache Replica Handlers.
From Verif.Spec Require Import CacheSpec ForgetSpec.
From Verif.Proofs Require Import ForgetLemmas.
Local Open Scope string_scope.
Local Open Scope Z_scope.

(** The full claim: when tickets come with ids the store issued up to [T] and
    expire in time, then long after [T] nothing is left of anything said up to
    then. *)
Definition C116_EverythingForgotten : Prop := ∀ cfg es o T,
  0 <= cfg_ticket_ttl cfg → 0 <= cfg_assign_ttl cfg →
  orders_fit cfg o (hev_run cfg empty_cache es) → LongAfter cfg T o →
  (∀ k, InTime cfg (hev_updates es) k) →
  (∀ u, u ∈ hev_updates es → u_cmd u = CmdTicket → IssuedBy T (u_key u)) →
  ∀ k, Forgotten (cycle cfg o (hev_run cfg empty_cache es)) k.

(** True of every id the store has issued. *)
Theorem C116_issued_ids_forgotten_partial : ∀ cfg es o T k,
  0 <= cfg_ticket_ttl cfg → 0 <= cfg_assign_ttl cfg →
  orders_fit cfg o (hev_run cfg empty_cache es) → LongAfter cfg T o →
  InTime cfg (hev_updates es) k → IssuedBy T k →
  Forgotten (cycle cfg o (hev_run cfg empty_cache es)) k.
Proof. exact forgotten. Qed.
Print Assumptions C116_issued_ids_forgotten_partial.

(** An id with a later number that was deactivated stays inactive as long as the
    clock has not passed that number and the ticket TTL. *)
Theorem C116_later_ids_stay_inactive_partial : ∀ cfg es k,
  (∀ v, v ∈ hev_visits es → unix_secs v.2 <= id_time k + cfg_ticket_ttl cfg) →
  last (state_cmds_for k (hev_updates es)) = Some false →
  k ∈ c_inactive (hev_run cfg empty_cache es).
Proof. exact stays_inactive. Qed.
Print Assumptions C116_later_ids_stay_inactive_partial.

(** The same for its assignment. *)
Theorem C116_later_ids_stay_assigned_partial : ∀ cfg es k x,
  (∀ v, v ∈ hev_visits es → unix_secs v.2 <= id_time k + cfg_ticket_ttl cfg + cfg_assign_ttl cfg) →
  last (assigns_for k (hev_updates es)) = Some x →
  c_assign (hev_run cfg empty_cache es) !! k = Some (unmarshal_assignment x).
Proof. exact stays_assigned. Qed.
Print Assumptions C116_later_ids_stay_assigned_partial.

(** ** Witnesses and examples *)

(** An id no store issued; DeactivateTickets accepts it. *)
Definition made_up : string := "99999999999999999999-0".
Definition made_up_updates : list update :=
  match deactivate_start default_config [made_up] with Send us => us | _ => [] end.
Definition made_up_history : list hev :=
  [HUpd (Update CmdDeactivate "1000-0" "")] ++ map HUpd made_up_updates.
(** A cycle in the year 5138. *)
Definition year_5138 : instant := 100000000000 * giga.
Definition made_up_orders : cycle_orders :=
  CycleOrders [("1000-0", year_5138); (made_up, year_5138)] [] [].

Lemma made_up_fit : orders_fit default_config made_up_orders (hev_run default_config empty_cache made_up_history).
Proof.
  unfold orders_fit. split_and!; vm_compute; reflexivity.
Qed.
Lemma made_up_long : LongAfter default_config (2000 * giga) made_up_orders.
Proof.
  intros v Hv. unfold cycle_visits, made_up_orders in Hv. cbn [v_inactive v_tickets v_assign] in Hv.
  rewrite app_nil_r in Hv. apply elem_of_cons in Hv as [->|Hv].
  { apply Z.leb_le. vm_compute. reflexivity. }
  apply elem_of_list_singleton in Hv as ->. apply Z.leb_le. vm_compute. reflexivity.
Qed.
Lemma made_up_intime k : InTime default_config (hev_updates made_up_history) k.
Proof.
  intros v Hv.
  assert (E : tickets_for k (hev_updates made_up_history) = []) by (vm_compute; reflexivity).
  rewrite E in Hv. by apply elem_of_nil in Hv.
Qed.

Theorem C116_everything_forgotten_refuted : ¬ C116_EverythingForgotten.
Proof.
  intros H.
  destruct (H default_config made_up_history made_up_orders (2000 * giga) ltac:(done) ltac:(done)
              made_up_fit made_up_long made_up_intime) with (k := made_up) as (Hk & _).
  { intros u Hu Hc. exfalso. vm_compute in Hu. apply elem_of_cons in Hu as [->|Hu]; [done|].
    apply elem_of_list_singleton in Hu as ->. done. }
  apply Hk. apply (bool_decide_eq_true_1 _). vm_compute. reflexivity.
Qed.
Print Assumptions C116_everything_forgotten_refuted.

(** The issued id of the same history is forgotten. *)
Example C116_example :
  made_up_updates = [Update CmdDeactivate made_up ""] ∧
  IssuedBy (2000 * giga) "1000-0" ∧
  "1000-0" ∈ c_inactive (hev_run default_config empty_cache made_up_history) ∧
  Forgotten (cycle default_config made_up_orders
               (hev_run default_config empty_cache made_up_history)) "1000-0".
Proof.
  split; [vm_compute; reflexivity|]. split; [vm_compute; discriminate|].
  split; [apply (bool_decide_eq_true_1 _); vm_compute; reflexivity|].
  exact (forgotten default_config made_up_history made_up_orders (2000 * giga) "1000-0" ltac:(done) ltac:(done) made_up_fit made_up_long
           (made_up_intime _) ltac:(vm_compute; discriminate)).
Qed.
