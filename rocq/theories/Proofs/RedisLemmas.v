(** Lemmas about Model/RedisRepl.v. *)
From Coq Require Import Ascii String ZArith NArith Lia ZifyBool ZifyN Sorting.
From stdpp Require Import prelude strings.
From Verif.Model Require Import GoStrings Types Filter RedisRepl.
From Verif.Spec Require Import StringSpec IdSpec.
From Verif.Proofs Require Import StringLemmas MemLemmas.
Local Open Scope string_scope.
Local Open Scope Z_scope.

Lemma sid_str_text i : sid_str i = id_text i.
Proof. done. Qed.

Lemma sid_ltb_spec a b : sid_ltb a b = true ↔ LexLt a b.
Proof. unfold sid_ltb, LexLt. lia. Qed.

Lemma next_sid_gt l ms : LexLt l (next_sid l ms).
Proof. unfold LexLt, next_sid. destruct (l.1 <? ms) eqn:E; simpl; lia. Qed.

Lemma xadd_id_ok s ms fields s' i :
  xadd s ms fields = (s', i) → 0 <= (st_last s).1 <= max_i64 → 0 <= (st_last s).2 → ms <= max_i64 →
  valid_ticket_id (sid_str i) = true ∧ WellFormedId (sid_str i) ∧ id_time (sid_str i) = i.1 ∧ ms <= i.1.
Proof.
  unfold xadd. intros [= _ <-] H1 H2 H3.
  assert (0 <= (next_sid (st_last s) ms).1 <= max_i64 ∧ 0 <= (next_sid (st_last s) ms).2 ∧
          ms <= (next_sid (st_last s) ms).1) as (Ha & Hb & Hc).
  { unfold next_sid. destruct (_ <? ms) eqn:E; simpl; lia. }
  rewrite sid_str_text. destruct (next_sid (st_last s) ms) as [a b].
  destruct (id_text_ok a b Ha Hb) as (? & ? & ?). done.
Qed.
