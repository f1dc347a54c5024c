(** C160: what does not matter in protobuf messages. *)
From Coq Require Import Ascii String ZArith NArith Lia.
From stdpp Require Import prelude strings gmap.
From Verif.Model Require Import GoStrings Types Wire Proto ProtoMsg Cache.
From Verif.Spec Require Import WireLikeSpec.
From Verif.Proofs Require Import WireLemmas WireLikeLemmas WireLikeMore.
Local Open Scope string_scope.
Local Open Scope list_scope.

(** Bytes that differ, at any depth, in the order of fields with different numbers, in fields that the message does not have,
    and in how numbers are written, are read as the same message, or refused together. *)
Theorem C160_messages : ∀ s s',
  (wlike ticket_w s s' → unmarshal_ticket_err s = unmarshal_ticket_err s') ∧
  (wlike request_w s s' → unmarshal_request s = unmarshal_request s') ∧
  (wlike chunk_w s s' → unmarshal_chunk s = unmarshal_chunk s') ∧
  (wlike result_w s s' → unmarshal_result s = unmarshal_result s').
Proof.
  exact (λ s s', conj (ticket_good empty_ticket s s') (conj (request_good (Request None []) s s')
    (conj (chunk_good (None, 0%Z) s s') (result_good None s s')))).
Qed.
Print Assumptions C160_messages.

(** In particular a field with an unknown number, of any kind and at any place, changes nothing ... *)
Theorem C160_unknown : ∀ pre u post, Forall wf_field (pre ++ u :: post) →
  let s := enc_fields (pre ++ u :: post) in let s' := enc_fields (pre ++ post) in
  (u.1 ∉ [1; 2; 3; 4]%N → unmarshal_ticket_err s = unmarshal_ticket_err s') ∧
  (u.1 ∉ [1; 2]%N → unmarshal_request s = unmarshal_request s' ∧ unmarshal_chunk s = unmarshal_chunk s') ∧
  (u.1 ≠ 1%N → unmarshal_result s = unmarshal_result s').
Proof.
  intros pre u post HF s s'. split; [|split].
  - intros Hu. apply C160_messages. apply (unknown_like _ pre u post HF); exact Hu.
  - intros Hu. split; apply C160_messages; apply (unknown_like _ pre u post HF); exact Hu.
  - intros Hu. apply C160_messages. apply (unknown_like _ pre u post HF). apply not_elem_of_cons. split; [exact Hu|apply not_elem_of_nil].
Qed.
Print Assumptions C160_unknown.

(** ... nor do two neighbours with different numbers in the other order. *)
Theorem C160_moved : ∀ pre x y post, Forall wf_field (pre ++ x :: y :: post) → x.1 ≠ y.1 →
  let s := enc_fields (pre ++ x :: y :: post) in let s' := enc_fields (pre ++ y :: x :: post) in
  unmarshal_ticket_err s = unmarshal_ticket_err s' ∧ unmarshal_request s = unmarshal_request s' ∧
  unmarshal_chunk s = unmarshal_chunk s' ∧ unmarshal_result s = unmarshal_result s'.
Proof. intros pre x y post HF Hne s s'. split_and!; apply C160_messages; exact (moved_like _ pre x y post HF Hne). Qed.
Print Assumptions C160_moved.

(** What matters: with the same number the last text counts, and lists stay in order. *)
Theorem C160_order_matters :
  (∀ a b, utf8_valid a = true → utf8_valid b = true → (slen a < 2 ^ 64)%N → (slen b < 2 ^ 64)%N →
    unmarshal_ticket_err (enc_fields [(1%N, WLen a); (1%N, WLen b)]) = Some (Ticket b None None ∅)) ∧
  (∀ a b x y, (slen a < 2 ^ 64)%N → (slen b < 2 ^ 64)%N →
    unmarshal_request (enc_fields [(2%N, WLen a)]) = Some (Request None [x]) → unmarshal_request (enc_fields [(2%N, WLen b)]) = Some (Request None [y]) →
    unmarshal_request (enc_fields [(2%N, WLen a); (2%N, WLen b)]) = Some (Request None [x; y])).
Proof. exact (conj last_text functions_in_order). Qed.
Print Assumptions C160_order_matters.

(** Example: a request from another library, with its fields in another order and some that are not known,
    in the request, in the function and in the profile. *)
Example C160_example :
  let fn := enc_fields [(1%N, WLen "duels"); (2%N, WLen "http://mmf"); (3%N, WVar 50080)] in
  let fn' := enc_fields [(3%N, WVar 50080); (2%N, WLen "http://mmf"); (99%N, WF32 7); (1%N, WLen "duels")] in
  let pr := enc_fields [(1%N, WLen "1v1")] in
  let pr' := enc_fields [(9%N, WLen "new"); (1%N, WLen "1v1")] in
  let s := enc_fields [(1%N, WLen pr); (2%N, WLen fn)] in
  let s' := enc_fields [(2%N, WLen fn'); (15%N, WVar 1); (1%N, WLen pr')] in
  wlike request_w s s' ∧ s ≠ s' ∧
  unmarshal_request s' = Some (Request (Some (Profile "1v1" ∅ ∅)) [MmfSpec "duels" "http://mmf" 50080 MMF_REST]).
Proof.
  intros fn fn' pr pr' s s'. split; [|split; [done|vm_compute; reflexivity]].
  eapply wl_msg with (m := [(2%N, WLen fn); (1%N, WLen pr)]); [vm_compute; reflexivity|vm_compute; reflexivity| |].
  - vm_compute. by apply sh_swap.
  - match goal with |- Forall2 _ _ ?r => assert (r = [(2%N, WLen fn'); (1%N, WLen pr')]) as -> by (vm_compute; reflexivity) end.
    constructor; [|constructor; [|constructor]]; (split; [done|]); right.
    + exists spec_w, fn, fn'. split; [right; left|]. split; [done|]. split; [done|].
      eapply wl_msg with (m := [(3%N, WVar 50080); (2%N, WLen "http://mmf"); (1%N, WLen "duels")]); [vm_compute; reflexivity|vm_compute; reflexivity| |].
      * vm_compute. eapply sh_trans; [apply sh_skip; by apply sh_swap|]. eapply sh_trans; [by apply sh_swap|]. apply sh_skip. by apply sh_swap.
      * match goal with |- Forall2 _ _ ?r => assert (r = [(3%N, WVar 50080); (2%N, WLen "http://mmf"); (1%N, WLen "duels")]) as -> by (vm_compute; reflexivity) end.
        apply self_fields.
    + exists profile_w, pr, pr'. split; [left|]. split; [done|]. split; [done|].
      apply (wl_msg _ _ _ [(1%N, WLen "1v1")] [(9%N, WLen "new"); (1%N, WLen "1v1")] [(1%N, WLen "1v1")]);
        [vm_compute; reflexivity|vm_compute; reflexivity|vm_compute; apply shuffled_refl|vm_compute; apply self_fields].
Qed.

(** Replicas whose updates come from servers of other versions hold the same: the tickets and assignments in them may be
    encoded in any such way, if they can be decoded. *)
Theorem C160_replicas : ∀ c us us', Forall2 update_like us us' → apply_updates c us = apply_updates c us'.
Proof. exact updates_like. Qed.
Print Assumptions C160_replicas.

(** Example: a ticket with a field 12 from a newer server. *)
Example C160_example_replica :
  let t := enc_fields [(2%N, WLen (enc_fields [(1%N, WVar 1700000000)])); (3%N, WLen (enc_fields [(1%N, WLen "beta")]))] in
  let t' := enc_fields [(3%N, WLen (enc_fields [(1%N, WLen "beta")])); (12%N, WLen "party"); (2%N, WLen (enc_fields [(1%N, WVar 1700000000)]))] in
  let u := Update CmdTicket "1699999000-0" t in let u' := Update CmdTicket "1699999000-0" t' in
  update_like u u' ∧ t ≠ t' ∧
  c_tickets (apply_updates (Cache ∅ ∅ ∅) [u']) !! "1699999000-0" =
    Some (Ticket "1699999000-0" (Some (Timestamp 1700000000 0)) (Some (Filterable ["beta"] ∅ ∅ None)) ∅).
Proof.
  intros t t' u u'. split; [|split; [done|vm_compute; reflexivity]].
  split; [done|]. split; [done|]. right. left. split; [done|]. split; [vm_compute; by eexists|]. simpl.
  eapply wl_msg with (m := [(3%N, WLen (enc_fields [(1%N, WLen "beta")])); (2%N, WLen (enc_fields [(1%N, WVar 1700000000)]))]);
    [vm_compute; reflexivity|vm_compute; reflexivity|vm_compute; by apply sh_swap|].
  match goal with |- Forall2 _ ?l ?r => assert (r = l) as -> by (vm_compute; reflexivity) end. apply self_fields.
Qed.

(** Without that the order does matter: what follows a text that is not UTF-8 is lost. *)
Example C160_example_damaged :
  let x : field := (1%N, WLen (String (ascii_of_nat 255) "")) in let y : field := (3%N, WLen (enc_fields [(1%N, WLen "beta")])) in
  wlike ticket_w (enc_fields [x; y]) (enc_fields [y; x]) ∧
  tk_attrs (unmarshal_ticket (enc_fields [x; y])) = None ∧
  tk_attrs (unmarshal_ticket (enc_fields [y; x])) = Some (Filterable ["beta"] ∅ ∅ None).
Proof.
  intros x y. split; [|vm_compute; done]. apply (moved_like _ [] x y []); [|done].
  repeat constructor; vm_compute; done.
Qed.
