(** Vocabulary for C149. *)
From Coq Require Import String.
From stdpp Require Import prelude strings gmap.
From Verif.Model Require Import Types Filter.
Local Open Scope string_scope.

Global Instance pool_err_eq_dec : EqDecision pool_err.
Proof. solve_decision. Defined.
(** How many pools of a profile are invalid, and how many for a given reason (C04). *)
Definition InvalidPools (p : profile) : nat := size (filter (λ kv, pool_valid kv.2 = false) (pr_pools p)).
Definition InvalidFor (p : profile) (e : pool_err) : nat := size (filter (λ kv, validate_pool kv.2 = Some e) (pr_pools p)).
(** The line about a pool with the reason. *)
Definition LineFor (e : pool_err) : string :=
  match e with
  | BadStart => "Unable to fill pool with tickets, invalid: %wrpc error: code = InvalidArgument desc = .invalid creation time filter start value"
  | BadEnd => "Unable to fill pool with tickets, invalid: %wrpc error: code = InvalidArgument desc = .invalid creation time filter end value"
  end.
