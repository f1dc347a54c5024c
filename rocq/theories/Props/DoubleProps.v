(** Property theorems about tickets in several matches: C117. *)
From Coq Require Import Ascii String ZArith NArith Lia.
From stdpp Require Import prelude strings gmap relations.
From Verif.Model Require Import GoStrings Types Invoke.
From Verif.Spec Require Import InvokeSpec.
From Verif.Proofs Require Import InvokeLemmas DoubleLemmas.
Local Open Scope string_scope.

(** The full claim: no ticket is in two of the matches an invocation gives to its
    caller. *)
Definition C117_OneMatchPerTicket : Prop := ∀ wait fns ina s n1 n2 k1 k2 m1 m2 id,
  v_later wait (v_init fns ina) s → n1 ∈ v_streamed s → n2 ∈ v_streamed s →
  ReceivedAs s n1 k1 m1 → ReceivedAs s n2 k2 m2 → TicketIn m1 id → TicketIn m2 id → n1 = n2.

(** Nothing is checked: any matches with tickets in them, from any of the functions,
    in any order and with any tickets in common, can all be passed on, whether or
    not deactivations are waited for. *)
Theorem C117_any_matches_passed_on_partial : ∀ wait n ina (ms : list (nat * option match_)),
  (∀ k m, (k, m) ∈ ms → (k < n)%nat ∧ ∃ id, TicketIn m id) →
  ∃ s, v_later wait (v_init (replicate n FnGrpc) ina) s ∧
    (∀ j k m, ms !! j = Some (k, m) → ReceivedAs s j k m) ∧ v_streamed s = seq 0 (length ms).
Proof. exact all_passed_on. Qed.
Print Assumptions C117_any_matches_passed_on_partial.

(** Two matches in common with a ticket always come from two answers of functions:
    no match is passed on twice, and none is made up. *)
Theorem C117_from_functions_partial : ∀ wait fns ina s n,
  v_later wait (v_init fns ina) s → n ∈ v_streamed s → ∃ k m, ReceivedAs s n k m.
Proof. exact passed_on_received. Qed.
Print Assumptions C117_from_functions_partial.

(** ** Witness: two functions put the same player in a match each *)
Definition dbl_match (n : string) (ids : list string) : match_ :=
  Match n {["r" := Roster "r" None (map (λ id, Ticket id None None ∅) ids) ∅]} ∅.
Definition dbl_a : option match_ := Some (dbl_match "a" ["1-0"; "2-0"]).
Definition dbl_b : option match_ := Some (dbl_match "b" ["3-0"; "1-0"]).
Lemma dbl_a_in : TicketIn dbl_a "1-0".
Proof.
  eexists _, "r", _, (Ticket "1-0" None None ∅). split; [done|]. split; [vm_compute; reflexivity|].
  split; [apply elem_of_list_here|done].
Qed.
Lemma dbl_b_in : TicketIn dbl_b "1-0".
Proof.
  eexists _, "r", _, (Ticket "1-0" None None ∅). split; [done|]. split; [vm_compute; reflexivity|].
  split; [apply elem_of_list_further, elem_of_list_here|done].
Qed.

Lemma dbl_run wait : ∃ s, v_later wait (v_init [FnGrpc; FnGrpc] ∅) s ∧
  (∀ j k m, [(0%nat, dbl_a); (1%nat, dbl_b)] !! j = Some (k, m) → ReceivedAs s j k m) ∧ v_streamed s = [0; 1]%nat.
Proof.
  apply (all_passed_on wait 2 ∅ [(0%nat, dbl_a); (1%nat, dbl_b)]).
  intros k m [E|E%elem_of_list_singleton]%elem_of_cons; injection E as -> ->; (split; [lia|]); exists "1-0".
  - exact dbl_a_in.
  - exact dbl_b_in.
Qed.

Theorem C117_one_match_per_ticket_refuted : ¬ C117_OneMatchPerTicket.
Proof.
  intros H. destruct (dbl_run true) as (s & H1 & H2 & H3).
  assert (0%nat = 1%nat); [|done].
  eapply (H true [FnGrpc; FnGrpc] ∅ s 0%nat 1%nat); [exact H1| | | | |exact dbl_a_in|exact dbl_b_in].
  - rewrite H3. apply elem_of_list_here.
  - rewrite H3. apply elem_of_list_further, elem_of_list_here.
  - apply (H2 0%nat). reflexivity.
  - apply (H2 1%nat). reflexivity.
Qed.
Print Assumptions C117_one_match_per_ticket_refuted.

Example C117_example : ∀ wait, ∃ s, v_later wait (v_init [FnGrpc; FnGrpc] ∅) s ∧
  ReceivedAs s 0 0 dbl_a ∧ ReceivedAs s 1 1 dbl_b ∧ v_streamed s = [0; 1]%nat ∧
  TicketIn dbl_a "1-0" ∧ TicketIn dbl_b "1-0".
Proof.
  intros wait. destruct (dbl_run wait) as (s & H1 & H2 & H3). exists s.
  split; [exact H1|]. split; [by apply (H2 0%nat)|]. split; [by apply (H2 1%nat)|].
  split; [exact H3|]. split; [exact dbl_a_in|exact dbl_b_in].
Qed.
