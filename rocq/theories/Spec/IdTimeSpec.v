(** Vocabulary for C94: numerals in a base, read from left to right. *)
From Coq Require Import Ascii String ZArith NArith.
From stdpp Require Import prelude strings.
Local Open Scope string_scope.
Local Open Scope N_scope.

(** 0-9, then a, b, ... or A, B, ... *)
Definition DigitVal (c : ascii) (v : N) : Prop :=
  (v <= 9 ∧ N_of_ascii c = 48 + v) ∨ (10 <= v ∧ (N_of_ascii c = 87 + v ∨ N_of_ascii c = 55 + v)).

Inductive Numeral (b : N) : string → N → Prop :=
| Numeral_one c v : v < b → DigitVal c v → Numeral b (String c "") v
| Numeral_more s n c v : Numeral b s n → v < b → DigitVal c v → Numeral b (s +:+ String c "") (n * b + v).

Definition LeadingZero (s : string) : Prop := ∃ r, s = "0" +:+ r.

(** The prefixes of a Go integer literal. *)
Definition LiteralPrefix (pre : string) (b : N) : Prop :=
  (b = 2 ∧ (pre = "0b" ∨ pre = "0B")) ∨ (b = 8 ∧ (pre = "0o" ∨ pre = "0O")) ∨ (b = 16 ∧ (pre = "0x" ∨ pre = "0X")).

(** Integer literals of Go (language specification, "Integer literals"). *)

(** digit { [ "_" ] digit } in base [b], and the value. *)
Inductive Digits (b : N) : string → N → Prop :=
| Digits_one c v : v < b → DigitVal c v → Digits b (String c "") v
| Digits_next s n c v : Digits b s n → v < b → DigitVal c v → Digits b (s +:+ String c "") (n * b + v)
| Digits_under s n c v : Digits b s n → v < b → DigitVal c v → Digits b (s +:+ "_" +:+ String c "") (n * b + v).

(** An optional underscore. *)
Definition MayUnderscore (u : string) : Prop := u = "" ∨ u = "_".

Inductive GoLiteral : string → N → Prop :=
| GoLiteral_zero : GoLiteral "0" 0
| GoLiteral_decimal s n : Digits 10 s n → ¬ LeadingZero s → GoLiteral s n
| GoLiteral_octal u s n : Digits 8 s n → MayUnderscore u → GoLiteral ("0" +:+ u +:+ s) n
| GoLiteral_prefix pre b u s n : LiteralPrefix pre b → Digits b s n → MayUnderscore u → GoLiteral (pre +:+ u +:+ s) n.

(** With an optional sign. *)
Inductive GoInteger : string → Z → Prop :=
| GoInteger_plain s n : GoLiteral s n → GoInteger s (Z.of_N n)
| GoInteger_plus s n : GoLiteral s n → GoInteger ("+" +:+ s) (Z.of_N n)
| GoInteger_minus s n : GoLiteral s n → GoInteger ("-" +:+ s) (- Z.of_N n)%Z.

(** [s] is what stands in front of the first dash of [id], or all of it. *)
Definition Front (id s : string) : Prop :=
  (∀ a b, s ≠ a +:+ "-" +:+ b) ∧ (id = s ∨ ∃ k, id = s +:+ "-" +:+ k).

Definition InInt64 (z : Z) : Prop := (- 2 ^ 63 <= z < 2 ^ 63)%Z.
(** The nearest number that fits. *)
Definition Nearest (z r : Z) : Prop :=
  (InInt64 z ∧ r = z) ∨ (2 ^ 63 <= z ∧ r = 2 ^ 63 - 1)%Z ∨ (z < - 2 ^ 63 ∧ r = - 2 ^ 63)%Z.

(** The texts that are read as a whole number in a setting: an integer literal that fits
    into 64 bits, also with a fraction of zeros, which may have superfluous dots behind. *)
Fixpoint repeated (c : ascii) (n : nat) : string :=
  match n with O => "" | S n => String c (repeated c n) end.
Definition ReadsAs (s : string) (z : Z) : Prop :=
  ∃ i, GoInteger i z ∧ InInt64 z ∧
    (s = i ∨ ∃ n m, s = i +:+ "." +:+ repeated "0" (S n) +:+ repeated "." m).
