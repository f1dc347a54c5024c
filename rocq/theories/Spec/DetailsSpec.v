(** Failed updates and what the client is told. *)
From Coq Require Import Ascii String ZArith NArith.
From stdpp Require Import prelude strings gmap.
From Verif.Model Require Import GoStrings Types Wire Handlers RedisRepl Details.
Local Open Scope string_scope.

(** [rs] are the responses [ss], with some text for each error. *)
Definition WithTexts (ss : list response) (rs : list tresp) : Prop :=
  Forall2 (λ s r, r_result s = tr_result r ∧ (r_err s = None ↔ tr_err r = None)) ss rs.

Definition SomeFailed (rs : list tresp) : Prop := ∃ r, r ∈ rs ∧ tr_err r ≠ None.

(** The last of the failed updates: its position and the text of its error. *)
Definition LastFailure (rs : list tresp) (i : nat) (e : string) : Prop :=
  ∃ r, rs !! i = Some r ∧ tr_err r = Some e ∧ ∀ j r', (i < j)%nat → rs !! j = Some r' → tr_err r' = None.

(** The text of a violation: for which id, which state, and why not. *)
Definition ErrorText (c : cmd) (id e : string) : string :=
  match c with
  | CmdActivate => "Unable to update ticket " +:+ id +:+ " state to active : " +:+ e
  | CmdDeactivate => "Unable to update ticket " +:+ id +:+ " state to inactive : " +:+ e
  | _ => ""
  end.

(** The full claim: with the answers of the Redis store to ids that protobuf allows,
    the client is told about a failure whenever there is one. *)
Definition FailuresReported : Prop := ∀ c ids ttl now s po s' ss rs,
  Forall (λ id, utf8_valid id = true) ids →
  redis_send ttl now s po (state_updates c (valid_ids ids)) = (s', ss) → WithTexts ss rs →
  SomeFailed rs → td_code (set_active_told c ids rs) ≠ OK.
