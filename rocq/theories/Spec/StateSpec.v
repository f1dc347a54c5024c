(** Calls that change the state of a ticket. *)
From Coq Require Import String.
From stdpp Require Import prelude strings gmap.
From Verif.Model Require Import Types Cache System.

(** The command that makes a ticket active ([true]) or inactive ([false]). *)
Definition StateCmd (b : bool) : cmd := if b then CmdActivate else CmdDeactivate.

(** [cl] makes the ticket [k] active or inactive: ActivateTickets or
    DeactivateTickets with [k] among the ids, or the deactivation of the tickets of
    a match that a function has returned. *)
Definition SetsState (cl : call) (k : string) (b : bool) : Prop :=
  ∃ w, Update (StateCmd b) k w ∈ cl_ups cl.
