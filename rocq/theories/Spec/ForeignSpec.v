(** Entries of the replication stream that this version of the program did not
    write. *)
From Coq Require Import String.
From stdpp Require Import prelude strings.
From Verif.Model Require Import Types RedisRepl.
Local Open Scope string_scope.

Definition kinds : list string := ["ticket"; "activate"; "deactivate"; "assign"].

(** An entry of another kind. *)
Definition Foreign (e : entry) : Prop := ∃ c args, e_fields e = c :: args ∧ c ∉ kinds.

(** An entry of a known kind that lacks a part the reader needs. *)
Definition Short (e : entry) : Prop :=
  e_fields e = [] ∨
  (∃ c, c ∈ ["ticket"; "activate"; "deactivate"] ∧ e_fields e = [c]) ∨
  (∃ args, e_fields e = "assign" :: args ∧ (length args < 3)%nat).
