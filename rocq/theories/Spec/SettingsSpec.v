(** Numbers as people write them into environment variables. *)
From Coq Require Import Ascii String ZArith NArith.
From stdpp Require Import prelude strings.
From Verif.Model Require Import GoStrings Types Settings.
From Verif.Spec Require Import StringSpec MiscSpec.
Local Open Scope string_scope.

(** A non-empty string of digits below [b] and its value in base [b]. *)
Inductive ValueIn (b : N) : string → N → Prop :=
| VI_digit d : (d < b)%N → ValueIn b (digit_of d) d
| VI_snoc s n d : ValueIn b s n → (d < b)%N → ValueIn b (s +:+ digit_of d) (b * n + d).

(** No superfluous zero in front. *)
Definition Plain (ds : string) : Prop := ds = "0" ∨ ∀ s, ds ≠ String "0" s.

(** The usual way to write a number: an optional sign and decimal digits. *)
Definition PlainDecimal (s : string) (z : Z) : Prop :=
  ∃ ds n, HasValue ds n ∧ Plain ds ∧
    ((s = ds ∨ s = "+" +:+ ds) ∧ z = Z.of_N n ∨ s = "-" +:+ ds ∧ z = (- Z.of_N n)%Z).

Definition FitsInt64 (z : Z) : Prop := (- 2 ^ 63 <= z < 2 ^ 63)%Z.

(** A character that occurs in no way of writing a number: not a hexadecimal digit, sign,
    dot, underscore, or one of the base letters b, o, x. *)
Definition NotNumeric (c : ascii) : Prop :=
  c ∉ list_ascii_of_string "0123456789abcdefABCDEF+-._oOxX".
Definition HasUnit (s : string) : Prop := ∃ c, c ∈ list_ascii_of_string s ∧ NotNumeric c.

(** An environment with one variable. *)
Definition one_var (k v : string) : environment := λ x, if String.eqb x k then Some v else None.
