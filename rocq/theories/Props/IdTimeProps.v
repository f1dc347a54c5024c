(** Property theorems about the creation time read out of an id: C94. *)
From Coq Require Import Ascii String ZArith NArith Lia.
From stdpp Require Import prelude strings.
From Verif.Model Require Import GoStrings ParseBase0.
From Verif.Spec Require Import IdTimeSpec.
From Verif.Proofs Require Import IdTimeLemmas LiteralLemmas LiteralMore FrontLemmas.
Local Open Scope string_scope.
Local Open Scope N_scope.

(** C94: an id that passes validation has the same creation time for a watch as for
    the expiry of the cache. *)
Definition C94_one_creation_time : Prop :=
  ∀ id, valid_ticket_id id = true → id_time0 id = id_time id.

(** It is false: a watch takes a leading zero for the octal prefix. *)
Theorem C94_one_creation_time_refuted : ¬ C94_one_creation_time.
Proof. intros H. specialize (H "010-0" eq_refl). vm_compute in H. discriminate H. Qed.
Print Assumptions C94_one_creation_time_refuted.

(** For decimal numerals the cache reads the number; the watch reads it too exactly
    if there is no leading zero or the number has a single significant octal digit. *)
Theorem C94_decimal_partial : ∀ id s n, Front id s → Numeral 10 s n → n < 2 ^ 63 →
  id_time id = Z.of_N n ∧ (id_time0 id = Z.of_N n ↔ ¬ LeadingZero s ∨ n < 8).
Proof. exact front_decimal. Qed.
Print Assumptions C94_decimal_partial.

(** With a literal prefix the watch reads a number, the cache reads nothing. *)
Theorem C94_prefix_partial : ∀ id pre b s n, Front id (pre +:+ s) → LiteralPrefix pre b → Numeral b s n → n < 2 ^ 63 →
  id_time0 id = Z.of_N n ∧ id_time id = 0%Z.
Proof. exact front_prefix. Qed.
Print Assumptions C94_prefix_partial.

(** What a watch reads in front of the dash: the value of an integer literal of Go, cut
    off at the ends of 64 bits; anything else counts as 0, or as the largest number. *)
Theorem C94_watch_reads : ∀ id s z, Front id s → GoInteger s z → Nearest z (id_time0 id).
Proof. exact front_reads. Qed.
Print Assumptions C94_watch_reads.

Theorem C94_watch_reads_only : ∀ id, id_time0 id ≠ 0%Z → id_time0 id ≠ (2 ^ 63 - 1)%Z →
  ∃ s, Front id s ∧ GoInteger s (id_time0 id) ∧ InInt64 (id_time0 id).
Proof. exact front_reads_only. Qed.
Print Assumptions C94_watch_reads_only.

(** The parser without errors reads exactly the literals that fit. *)
Theorem C94_parser_exact : ∀ s z, parse_int0 s = PRok z ↔ GoInteger s z ∧ InInt64 z.
Proof. exact parse_int0_literal. Qed.
Print Assumptions C94_parser_exact.

(** The ids the server issues are read the same way by both. *)
Theorem C94_issued_ids : ∀ t k, (0 <= t <= max_i64)%Z →
  id_time (format_Z t +:+ "-" +:+ format_Z k) = t ∧ id_time0 (format_Z t +:+ "-" +:+ format_Z k) = t.
Proof. exact agree_issued. Qed.
Print Assumptions C94_issued_ids.

Example C94_example_leading_zero :
  Numeral 10 "0" 0 ∧ Numeral 10 "01" 1 ∧ Numeral 10 "017" 17 ∧ LeadingZero "017" ∧
  id_time "017-3" = 17%Z ∧ id_time0 "017-3" = 15%Z ∧ id_time0 "018-3" = 0%Z.
Proof.
  assert (Numeral 10 "0" 0) as N0 by (apply Numeral_one; [lia|left; split; [lia|reflexivity]]).
  assert (Numeral 10 "01" 1) as N1.
  { apply (Numeral_more 10 "0" 0 "1" 1); [exact N0|lia|left; split; [lia|reflexivity]]. }
  assert (Numeral 10 "017" 17) as N2.
  { apply (Numeral_more 10 "01" 1 "7" 7); [exact N1|lia|left; split; [lia|reflexivity]]. }
  split; [exact N0|]. split; [exact N1|]. split; [exact N2|]. split; [exists "17"; reflexivity|].
  split; [reflexivity|]. split; reflexivity.
Qed.
Example C94_example_prefix :
  id_time0 "0x6553F100-1" = 1700000000%Z ∧ id_time "0x6553F100-1" = 0%Z ∧
  id_time0 "0o17-1" = 15%Z ∧ id_time0 "0b101-1" = 5%Z ∧ id_time0 "1700000000-1" = 1700000000%Z.
Proof. repeat split; vm_compute; reflexivity. Qed.

Example C94_example_underscores :
  id_time0 "1_700_000_000-1" = 1700000000%Z ∧ id_time0 "0b_1_01-1" = 5%Z ∧ id_time0 "0_17-1" = 15%Z ∧
  id_time0 "0b11" = 3%Z ∧ id_time "11" = 11%Z ∧ id_time0 "1__7-1" = 0%Z ∧ id_time0 "17_-1" = 0%Z ∧ id_time0 "99999999999999999999-1" = (2 ^ 63 - 1)%Z.
Proof. repeat split; vm_compute; reflexivity. Qed.
