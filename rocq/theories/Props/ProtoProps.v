(** Property theorems about serialisation: C59. *)
From Coq Require Import Ascii String ZArith NArith.
From stdpp Require Import prelude strings gmap.
From Verif.Model Require Import GoStrings Types Wire Proto.
From Verif.Spec Require Import FilterSpec.
From Verif.Proofs Require Import ProtoLemmas.
Local Open Scope string_scope.
Local Open Scope Z_scope.

(** C59: decoding gives back the encoded ticket, in whatever order its maps are
    written. [ticket_wf]: timestamps and doubles are in range for their Go types;
    sizes are below 2^64. *)
Theorem C59_ticket_round_trip : ∀ o t s,
  orders_ok t o → ticket_wf t → marshal_ticket o t = Some s → (slen s < 2 ^ 64)%N →
  unmarshal_ticket s = t.
Proof. exact rt_ticket. Qed.
Print Assumptions C59_ticket_round_trip.

Theorem C59_assignment_round_trip : ∀ oe a s,
  oe ≡ₚ map_to_list (as_ext a) → marshal_assignment oe a = Some s → (slen s < 2 ^ 64)%N →
  unmarshal_assignment s = a.
Proof. exact rt_assignment. Qed.
Print Assumptions C59_assignment_round_trip.

Definition sample_ticket : ticket :=
  Ticket "7-1" (Some (Timestamp (-3) 5))
    (Some (Filterable ["a"; ""; "b"] {["k" := "v"; "k2" := ""]} {["d" := 0x4024000000000000%N]}
             (Some (Timestamp 1700000000 999999999))))
    {["x" := Any "type.googleapis.com/t" "bytes"]}.

Example C59_example :
  marshal_ticket (canon_orders sample_ticket) sample_ticket ≠ None ∧
  unmarshal_ticket (default "" (marshal_ticket (canon_orders sample_ticket) sample_ticket)) = sample_ticket ∧
  (* the other order of the string map *)
  unmarshal_ticket (default "" (marshal_ticket
     (TicketOrders (reverse (o_strings (canon_orders sample_ticket))) (o_doubles (canon_orders sample_ticket))
        (o_ext (canon_orders sample_ticket))) sample_ticket)) = sample_ticket ∧
  ticket_wf sample_ticket.
Proof.
  split; [vm_compute; discriminate|].
  split; [refine (bool_decide_eq_true_1 _ _); vm_compute; reflexivity|].
  split; [refine (bool_decide_eq_true_1 _ _); vm_compute; reflexivity|].
  unfold ticket_wf, filterable_wf, ts_wf, doubles_wf. simpl. split; [lia|]. split; [|lia].
  rewrite map_to_list_singleton. apply Forall_singleton. done.
Qed.
