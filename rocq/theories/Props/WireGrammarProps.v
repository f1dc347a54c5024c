(** C161: which bytes are protobuf messages. *)
From Coq Require Import Ascii String ZArith NArith Lia.
From stdpp Require Import prelude strings gmap.
From Verif.Model Require Import GoStrings Types Wire Proto ProtoMsg.
From Verif.Spec Require Import WireGrammarSpec.
From Verif.Proofs Require Import WireLemmas WireGrammarLemmas.
Local Open Scope string_scope.
Local Open Scope list_scope.

(** Exactly the byte strings of the wire format are read, as the fields they are made of. *)
Theorem C161_fields : ∀ s l, dec_fields s = Some l ↔ IsMessage s l.
Proof. exact dec_fields_iff. Qed.
Print Assumptions C161_fields.

(** Everything else is refused as any of the messages. *)
Theorem C161_refused : ∀ s, (∀ l, ¬ IsMessage s l) →
  unmarshal_ticket_err s = None ∧ unmarshal_request s = None ∧ unmarshal_chunk s = None ∧ unmarshal_result s = None.
Proof.
  intros s H. assert (dec_fields s = None) as E.
  { destruct (dec_fields s) as [l|] eqn:E; [|done]. apply C161_fields in E. by apply H in E. }
  unfold unmarshal_ticket_err, unmarshal_request, unmarshal_chunk, unmarshal_result, unmarshal. by rewrite E.
Qed.
Print Assumptions C161_refused.

(** Where the error is ignored (in replicas) the fields up to the first place where no field begins are used, and
    the error is noticed if there is such a place. *)
Theorem C161_prefix : ∀ s l ok, dec_prefix s = (l, ok) →
  ∃ t r, s = t +:+ r ∧ IsMessage t l ∧ (ok = true ↔ r = "") ∧ ∀ u f v, r = u +:+ v → ¬ IsField u f.
Proof. exact dec_prefix_grammar. Qed.
Print Assumptions C161_prefix.

(** Messages one after the other are one message, read as the second on top of the first. *)
Theorem C161_concat : ∀ s l s', IsMessage s l → (∃ l', IsMessage s' l') →
  unmarshal_ticket_err (s +:+ s') = (t ← unmarshal_ticket_err s; unmarshal ticket_step t s') ∧
  unmarshal_request (s +:+ s') = (r ← unmarshal_request s; unmarshal request_step r s') ∧
  unmarshal_chunk (s +:+ s') = (c ← unmarshal_chunk s; unmarshal chunk_step c s') ∧
  unmarshal_result (s +:+ s') = (m ← unmarshal_result s; unmarshal result_step m s').
Proof. intros s l s' H H'. split_and!; exact (unmarshal_concat _ _ s l s' H H'). Qed.
Print Assumptions C161_concat.

(** Examples: a number in more bytes than it needs is read, ... *)
Definition of_bytes (bs : list nat) : string := string_of_list_ascii (map ascii_of_nat bs).
Example C161_example_long : IsMessage (of_bytes [16; 133; 0]) [(2%N, WVar 5)] ∧
  unmarshal_chunk (of_bytes [16; 133; 0]) = Some (None, 5%Z).
Proof. split; [apply C161_fields|]; vm_compute; reflexivity. Qed.
(** ... the greatest number is, the next one and the field number 0 are not, nor is a text that is cut off. *)
Definition top_bytes (last : nat) : string := of_bytes ([16] ++ repeat 255 9 ++ [last]).
Example C161_example_bounds : IsMessage (top_bytes 1) [(2%N, WVar (2 ^ 64 - 1))] ∧
  (∀ l, ¬ IsMessage (top_bytes 2) l) ∧ (∀ l, ¬ IsMessage (of_bytes [0; 5]) l) ∧ (∀ l, ¬ IsMessage (of_bytes [10; 3; 97; 98]) l).
Proof.
  split; [apply C161_fields; vm_compute; reflexivity|].
  split_and!; intros l H; apply C161_fields in H; vm_compute in H; discriminate H.
Qed.
(** A ticket in two parts. *)
Example C161_example_concat :
  let s := enc_fields [(1%N, WLen "7-0"); (2%N, WLen (enc_fields [(1%N, WVar 9)]))] in
  let s' := enc_fields [(2%N, WLen (enc_fields [(2%N, WVar 5)])); (1%N, WLen "8-0")] in
  unmarshal_ticket_err (s +:+ s') = Some (Ticket "8-0" (Some (Timestamp 9 5)) None ∅).
Proof. vm_compute. reflexivity. Qed.
