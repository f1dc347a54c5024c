(** Property theorems about the state-changing handlers: C06, C31 - C35. *)
From Coq Require Import Ascii String ZArith NArith.
From stdpp Require Import prelude strings gmap.
From Verif.Model Require Import GoStrings Types Wire Proto Cache Handlers RedisRepl.
From Verif.Spec Require Import StringSpec FilterSpec HandlerSpec.
From Verif.Proofs Require Import HandlerLemmas HandlerMore.
Local Open Scope string_scope.
Local Open Scope Z_scope.

(** C06: CreateTicket sends one new-ticket update, without key, and every
    replica that applies it under an id stores the client's data with the
    normalised timestamps under that id. *)
Theorem C06_create_ticket_normalises : ∀ ttl now o t,
  SaneTTL ttl → SaneNow now → ClientTicketOk t → orders_ok (prepare_ticket ttl now t) o →
  ∃ v, create_ticket ttl now o (Some t) = Send [Update CmdTicket "" v] ∧
       ((slen v < 2 ^ 64)%N → ∀ id, StoredAs ttl now id t (stored_ticket id v)).
Proof. exact create_ticket_spec. Qed.
Print Assumptions C06_create_ticket_normalises.

(** A request without a ticket is rejected, and nothing is sent. *)
Theorem C06_missing_ticket_rejected : ∀ ttl now o, create_ticket ttl now o None = Reject InvalidArgument.
Proof. exact create_ticket_none. Qed.
Print Assumptions C06_missing_ticket_rejected.

(** A client ticket with a bogus id, an expiration that is too late and no
    creation time. *)
Definition client_ticket : ticket :=
  Ticket "mine" (Some (Timestamp 1800000000 0))
    (Some (Filterable ["ranked"] {["mode" := "duel"]} {["rank" := 0x4024000000000000%N]} None)) ∅.
Definition now0 : instant := 1700000000000000123.

Example C06_example :
  SaneTTL 600 ∧ SaneNow now0 ∧ ClientTicketOk client_ticket ∧
  match create_ticket 600 now0 (canon_orders (prepare_ticket 600 now0 client_ticket)) (Some client_ticket) with
  | Send [u] => stored_ticket "7-1" (u_value u) =
      Ticket "7-1" (Some (Timestamp 1700000600 123))
        (Some (Filterable ["ranked"] {["mode" := "duel"]} {["rank" := 0x4024000000000000%N]}
                 (Some (Timestamp 1700000000 123)))) ∅
  | _ => False
  end.
Proof.
  split; [unfold SaneTTL; lia|]. split; [unfold SaneNow, now0; lia|]. split.
  - unfold ClientTicketOk, client_doubles, client_strings, client_tags, client_ticket; simpl.
    split_and!; intros *.
    + intros [<- <-]%lookup_singleton_Some. split; vm_compute; reflexivity.
    + intros [<- <-]%lookup_singleton_Some. split; vm_compute; reflexivity.
    + intros ->%elem_of_list_singleton. vm_compute. reflexivity.
    + done.
  - vm_compute. reflexivity.
Qed.

(** C31. *)
Theorem C31_limits : ∀ cfg c ids,
  (ids = [] ∨ cfg_max_updates cfg < Z.of_nat (length ids)) →
  set_active_start cfg c ids = Reject InvalidArgument.
Proof. exact set_active_rejects. Qed.
Print Assumptions C31_limits.

Theorem C31_sends_accepted_ids : ∀ cfg ids,
  ids ≠ [] → Z.of_nat (length ids) <= cfg_max_updates cfg →
  activate_start cfg ids =
    Send (map (λ id, Update CmdActivate id "") (filter (λ id, valid_ticket_id id = true) ids)) ∧
  deactivate_start cfg ids =
    Send (map (λ id, Update CmdDeactivate id "") (filter (λ id, valid_ticket_id id = true) ids)).
Proof. exact both_send. Qed.
Print Assumptions C31_sends_accepted_ids.

Example C31_example :
  activate_start default_config ["1-1"; "bad"; "1-2"] = Send [Update CmdActivate "1-1" ""; Update CmdActivate "1-2" ""] ∧
  deactivate_start default_config ["1-1"] = Send [Update CmdDeactivate "1-1" ""] ∧
  activate_start default_config [] = Reject InvalidArgument ∧
  activate_start (Config 600 600 2 50 10 false) ["1-1"; "1-2"; "1-3"] = Reject InvalidArgument.
Proof. split_and!; vm_compute; reflexivity. Qed.

(** C32: the full claim. *)
Definition ToldAboutDroppedIds : Prop := ∀ cfg c ids us rs,
  set_active_start cfg c ids = Send us → length rs = length us →
  s_code (set_active_finish ids rs) = OK →
  ∀ id, id ∈ ids → Update c id "" ∈ us.

(** It is false: an id without a dash is dropped and the call returns OK. *)
Theorem C32_dropped_ids_refuted : ¬ ToldAboutDroppedIds.
Proof. exact dropped_ids. Qed.
Print Assumptions C32_dropped_ids_refuted.

(** Exactly the calls all of whose ids contain a dash are sent completely
    (missing from the full claim: the other calls). *)
Theorem C32_all_sent_partial : ∀ cfg c ids us,
  set_active_start cfg c ids = Send us →
  (∀ id, id ∈ ids → Update c id "" ∈ us) ↔ (∀ id, id ∈ ids → HasDash id).
Proof. exact set_active_all_sent. Qed.
Print Assumptions C32_all_sent_partial.

Example C32_example :
  set_active_start default_config CmdActivate ["1-1"; "7"] = Send [Update CmdActivate "1-1" ""] ∧
  s_code (set_active_finish ["1-1"; "7"] [Response "5-1" None]) = OK.
Proof. split; vm_compute; reflexivity. Qed.

(** C33, first half: the call fails iff an update failed, if the texts of the errors
    are UTF-8 (Model/Handlers.v has no texts; Props/DetailsProps.v has). *)
Theorem C33_error_iff_failure_partial : ∀ ids rs,
  length rs = length (valid_ids ids) →
  s_code (set_active_finish ids rs) ≠ OK ↔ ∃ r, r ∈ rs ∧ r_err r ≠ None.
Proof. exact finish_error_iff. Qed.
Print Assumptions C33_error_iff_failure_partial.

(** C33, second half: the full claim, for the answers the Redis store can give. *)
Definition OneViolationPerFailure : Prop := ∀ ids c ttl now s po s' rs,
  redis_send ttl now s po (state_updates c (valid_ids ids)) = (s', rs) →
  ∀ i id r, valid_ids ids !! i = Some id → rs !! i = Some r → r_err r ≠ None →
  ∃ k e, s_violations (set_active_finish ids rs) !! k = Some (id, e).

(** It is false: all errors are filed under the same empty key. *)
Theorem C33_violations_collapse_refuted : ¬ OneViolationPerFailure.
Proof. exact violations_collapse. Qed.
Print Assumptions C33_violations_collapse_refuted.

(** Missing from the full claim: failures followed by another failure with the
    same result text (the Redis store gives all failures the same text). *)
Theorem C33_violation_partial : ∀ ids rs i id r e,
  length rs = length (valid_ids ids) → valid_ids ids !! i = Some id → rs !! i = Some r → r_err r = Some e →
  (∀ j r', (i < j)%nat → rs !! j = Some r' → r_err r' ≠ None → r_result r' ≠ r_result r) →
  s_violations (set_active_finish ids rs) !! r_result r = Some (id, e).
Proof. exact violation_reported. Qed.
Print Assumptions C33_violation_partial.

Example C33_example :
  let st := set_active_finish ["1-1"; "1-2"] [Response "5-1" None; Response "" (Some EReply)] in
  s_code st = InvalidArgument ∧ s_violations st !! "" = Some ("1-2", EReply) ∧ size (s_violations st) = 1%nat.
Proof. split_and!; vm_compute; reflexivity. Qed.

(** C34. *)
Theorem C34_assigns_named_tickets : ∀ oe r a,
  ro_assignment r = Some a → oe ≡ₚ map_to_list (as_ext a) → utf8_assignment oe a = true →
  ∃ v, create_assignments_start oe (Some r) =
         Send (map (λ t, Update CmdAssign (tk_id t) v) (filter (λ t, tk_id t ≠ "") (ro_tickets r))) ∧
       ((slen v < 2 ^ 64)%N → unmarshal_assignment v = a).
Proof. exact create_assignments_sends. Qed.
Print Assumptions C34_assigns_named_tickets.

Theorem C34_rejects_malformed : ∀ oe req,
  (req = None ∨ ∃ r, req = Some r ∧ ro_assignment r = None) →
  create_assignments_start oe req = Reject InvalidArgument.
Proof. exact create_assignments_rejects. Qed.
Print Assumptions C34_rejects_malformed.

Definition id_ticket (s : string) : ticket := Ticket s None None ∅.
Example C34_example :
  match create_assignments_start []
     (Some (Roster "r" (Some (Assignment "1.2.3.4:5" ∅)) [id_ticket "1-1"; id_ticket ""; id_ticket "1-2"] ∅)) with
  | Send [u1; u2] => u_key u1 = "1-1" ∧ u_key u2 = "1-2" ∧ u_value u1 = u_value u2 ∧
                     unmarshal_assignment (u_value u1) = Assignment "1.2.3.4:5" ∅
  | _ => False
  end.
Proof. vm_compute. split_and!; reflexivity. Qed.

(** C35: the full claim. *)
Definition AssignFailuresReported : Prop := ∀ oe r us rs,
  create_assignments_start oe (Some r) = Send us → length rs = length us →
  ((∃ t, t ∈ ro_tickets r ∧ tk_id t = "") ∨ (∃ x, x ∈ rs ∧ r_err x ≠ None)) →
  s_code (create_assignments_finish rs) ≠ OK.

(** It is false: the call returns OK whatever the store answers. *)
Theorem C35_failures_swallowed_refuted : ¬ AssignFailuresReported.
Proof. exact failures_swallowed. Qed.
Print Assumptions C35_failures_swallowed_refuted.

(** In particular, with Redis, assigning the empty assignment always fails in
    the store and is always reported as success. *)
Theorem C35_empty_assignment_lost : ∀ r id ttl now s po,
  ro_assignment r = Some (Assignment "" ∅) → ro_tickets r = [id_ticket id] → id ≠ "" →
  ∃ us s' rs, create_assignments_start [] (Some r) = Send us ∧ redis_send ttl now s po us = (s', rs) ∧
    length rs = 1%nat ∧ (∀ x, x ∈ rs → r_err x ≠ None) ∧ s_code (create_assignments_finish rs) = OK.
Proof. exact empty_assignment_lost. Qed.
Print Assumptions C35_empty_assignment_lost.

(** Missing from the full claim: everything except malformed requests. *)
Theorem C35_malformed_reported_partial : ∀ oe req,
  (req = None ∨ ∃ r, req = Some r ∧ ro_assignment r = None) →
  ∃ c, create_assignments_start oe req = Reject c ∧ c ≠ OK.
Proof. exact malformed_reported. Qed.
Print Assumptions C35_malformed_reported_partial.

Example C35_example :
  create_assignments_start [] None = Reject InvalidArgument ∧
  create_assignments_start [] (Some (Roster "r" None [id_ticket "1-0"] ∅)) = Reject InvalidArgument ∧
  (* one ticket without an id, and an error of the store for the other: OK all the same *)
  create_assignments_start [] (Some (Roster "r" (Some (Assignment "" ∅)) [id_ticket "1-0"; id_ticket ""] ∅)) =
    Send [Update CmdAssign "1-0" ""] ∧
  s_code (create_assignments_finish [Response "" (Some EReply)]) = OK.
Proof. vm_compute. repeat split; reflexivity. Qed.
