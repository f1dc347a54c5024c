(** Notions for invocations whose caller may go away. *)
From Coq Require Import Ascii String ZArith NArith.
From stdpp Require Import prelude strings gmap.
From Verif.Model Require Import GoStrings Types Invoke Hangup.
From Verif.Spec Require Import InvokeSpec.

Definition h_later (wait : bool) (s1 s2 : hstate) : Prop := rtc (h_step wait) s1 s2.

(** The invocation deactivated this ticket: the store has answered the update. *)
Definition DeactivatedBy (s : istate) (id : string) : Prop := ∃ n, (n, id) ∈ v_answered s.

(** The caller got a match with this ticket. *)
Definition ToldAbout (h : hstate) (id : string) : Prop :=
  ∃ n k m, n ∈ h_delivered h ∧ ReceivedAs (h_inv h) n k m ∧ TicketIn m id.
