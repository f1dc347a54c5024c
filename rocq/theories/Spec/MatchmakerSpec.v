(** Notions for the example matchmaker. *)
From Coq Require Import Ascii String ZArith NArith.
From stdpp Require Import prelude strings gmap.
From Verif.Model Require Import GoStrings Types Matchmaker.
Local Open Scope Z_scope.

Definition a_later (s1 s2 : astate) : Prop := rtc a_step s1 s2.

(** The ids of the calls made, in order. *)
Definition batches (s : astate) : list (list string) := (a_calls s).*1.

Definition a_ended (s : astate) : Prop := a_phase_of s = AWaiting ∨ a_phase_of s = AReturned.

(** A call om-core accepts by default: not empty and at most 500 ids. *)
Definition LegalBatch (b : list string) : Prop := 1 ≤ Z.of_nat (length b) ≤ 500.

(** [n] consecutive cycles from [j] on gave no match. *)
Definition EmptyRun (r : nat → nat) (j n : nat) : Prop := ∀ i, (j ≤ i < j + n)%nat → r i = 0%nat.
