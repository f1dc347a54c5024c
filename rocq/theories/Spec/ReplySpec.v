(** What the client of a CreateTicket call is told. *)
From Coq Require Import String.
From stdpp Require Import prelude strings.
From Verif.Model Require Import Types Handlers System.

(** The call has answered with the ticket id [k] and no error. *)
Definition Told (cl : call) (k : string) : Prop :=
  ∃ r, cl_got cl = [r] ∧ create_ticket_reply r = (k, None).

(** The call has answered with an error; gRPC then drops the response message. *)
Definition ToldError (cl : call) : Prop :=
  ∃ r k e, cl_got cl = [r] ∧ create_ticket_reply r = (k, Some e).
