(** Vocabulary for C150. *)
From Coq Require Import String ZArith.
From stdpp Require Import prelude.
From Verif.Model Require Import FnLog.

Definition SameKind (o o' : fn_end) : Prop :=
  match o, o' with
  | Rest, Rest | NoDial _, NoDial _ | NoRun _, NoRun _ | Broke _, Broke _ | Complete, Complete => True
  | _, _ => False
  end.
Definition Fails (o : fn_end) : Prop := o ≠ Complete.
(** The request was sent. *)
Definition Sent (o : fn_end) : Prop := match o with Broke _ | Complete => True | _ => False end.
