(** Property theorems about values of the replication stream that do not decode:
    C115. *)
From Coq Require Import Ascii String ZArith NArith Lia.
From stdpp Require Import prelude strings gmap.
From Verif.Model Require Import Types Wire Proto Cache Handlers.
From Verif.Spec Require Import CacheSpec.
From Verif.Proofs Require Import WireLemmas DamageLemmas.
Local Open Scope string_scope.

(** The full claim: a ticket whose value does not decode is not taken into the
    cache. *)
Definition C115_DamagedIsIgnored : Prop := ∀ c k v,
  unmarshal ticket_step empty_ticket v = None →
  c_tickets (apply_update c (Update CmdTicket k v)) !! k = c_tickets c !! k.

(** Whatever its value, it is stored, and is inactive. *)
Theorem C115_always_stored_partial : ∀ c k v,
  c_tickets (apply_update c (Update CmdTicket k v)) !! k = Some (stored_ticket k v) ∧
  k ∈ c_inactive (apply_update c (Update CmdTicket k v)).
Proof. exact announced_is_stored. Qed.
Print Assumptions C115_always_stored_partial.

(** A value that decodes is stored as what it decodes to, under the id of the
    update. *)
Theorem C115_sound_value_partial : ∀ v t k,
  unmarshal ticket_step empty_ticket v = Some t →
  stored_ticket k v = Ticket k (tk_exp t) (tk_attrs t) (tk_ext t).
Proof. exact undamaged_ticket. Qed.
Print Assumptions C115_sound_value_partial.

Theorem C115_sound_assignment_partial : ∀ v a,
  unmarshal assignment_step empty_assignment v = Some a → unmarshal_assignment v = a.
Proof. exact undamaged_assignment. Qed.
Print Assumptions C115_sound_assignment_partial.

(** A value that is damaged behind some whole fields is stored as what those
    fields say. *)
Theorem C115_damaged_value_partial : ∀ fs tail t k,
  Forall wf_field fs → tail ≠ "" → dec_field tail = None →
  unmarshal ticket_step empty_ticket (enc_fields fs) = Some t →
  stored_ticket k (enc_fields fs +:+ tail) = Ticket k (tk_exp t) (tk_attrs t) (tk_ext t).
Proof. exact ticket_damaged. Qed.
Print Assumptions C115_damaged_value_partial.

Theorem C115_damaged_assignment_partial : ∀ fs tail a,
  Forall wf_field fs → tail ≠ "" → dec_field tail = None →
  unmarshal assignment_step empty_assignment (enc_fields fs) = Some a →
  unmarshal_assignment (enc_fields fs +:+ tail) = a.
Proof. exact assignment_damaged. Qed.
Print Assumptions C115_damaged_assignment_partial.

(** Damage inside the attributes of a ticket, where the length given for them still
    fits: the attributes before it are kept, and nothing of what follows them. *)
Theorem C115_damaged_attributes_partial : ∀ fs gs tail rest t x k,
  Forall wf_field fs → Forall wf_field gs → tail ≠ "" → dec_field tail = None →
  wf_field (3%N, WLen (enc_fields gs +:+ tail)) →
  unmarshal ticket_step empty_ticket (enc_fields fs) = Some t →
  unmarshal filterable_step (default empty_filterable (tk_attrs t)) (enc_fields gs) = Some x →
  stored_ticket k (enc_fields fs +:+ (enc_field (3%N, WLen (enc_fields gs +:+ tail)) +:+ rest)) =
  Ticket k (tk_exp t) (Some x) (tk_ext t).
Proof. exact attributes_damaged. Qed.
Print Assumptions C115_damaged_attributes_partial.

(** ** Witness: a ticket with an expiration time, two tags and a string, cut off
    inside the string *)
Definition whole : string :=
  enc_fields (fields_ticket_c (Ticket "" (Some (Timestamp 5000 0))
    (Some (Filterable ["a"; "b"] {[ "role" := "tank" ]} ∅ None)) ∅)).
Definition cut : string := substring 0 (String.length whole - 3) whole.

(** Damage inside the attributes, whose length field promises more than there
    is: all of them are lost. *)
Lemma cut_stored : stored_ticket "7-0" cut = Ticket "7-0" (Some (Timestamp 5000 0)) None ∅.
Proof. vm_compute. reflexivity. Qed.

(** Damage inside the attributes that leaves their length as promised: the part
    before it is kept. *)
Definition spoilt : string := substring 0 (String.length whole - 1) whole +:+ String (Ascii.ascii_of_nat 255) "".
Lemma spoilt_stored :
  stored_ticket "7-0" spoilt =
  Ticket "7-0" (Some (Timestamp 5000 0)) (Some (Filterable ["a"; "b"] ∅ ∅ None)) ∅.
Proof. vm_compute. reflexivity. Qed.

Theorem C115_damaged_is_ignored_refuted : ¬ C115_DamagedIsIgnored.
Proof.
  intros H. specialize (H empty_cache "7-0" cut ltac:(vm_compute; reflexivity)).
  rewrite (proj1 (announced_is_stored _ _ _)) in H. rewrite cut_stored in H. discriminate H.
Qed.
Print Assumptions C115_damaged_is_ignored_refuted.

Example C115_example :
  let fs := [(2%N, WLen (enc_fields (fields_ts (Timestamp 5000 0))))] in
  cut = enc_fields fs +:+ substring 5 100 cut ∧
  dec_field (substring 5 100 cut) = None ∧ Forall wf_field fs ∧
  stored_ticket "7-0" cut = Ticket "7-0" (Some (Timestamp 5000 0)) None ∅ ∧
  stored_ticket "7-0" spoilt =
  Ticket "7-0" (Some (Timestamp 5000 0)) (Some (Filterable ["a"; "b"] ∅ ∅ None)) ∅.
Proof.
  split; [vm_compute; reflexivity|]. split; [vm_compute; reflexivity|].
  split; [constructor; [|constructor]; split; [simpl; lia|vm_compute; reflexivity]|].
  split; [exact cut_stored|exact spoilt_stored].
Qed.
