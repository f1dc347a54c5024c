(** Declarative notions about strings and ids, independent of the model. *)
From Coq Require Import Ascii String ZArith NArith.
From stdpp Require Import prelude strings.
From Verif.Model Require Import GoStrings.
Local Open Scope string_scope.

(** A decimal digit. *)
Definition Digit (c : ascii) : Prop :=
  c ∈ ["0"; "1"; "2"; "3"; "4"; "5"; "6"; "7"; "8"; "9"]%char.

(** The language of a regular expression. *)
Inductive Lang : re → string → Prop :=
| L_eps : Lang REps ""
| L_digit c : Digit c → Lang RDigit (String c "")
| L_char c : Lang (RChar c) (String c "")
| L_seq a b s t : Lang a s → Lang b t → Lang (RSeq a b) (s +:+ t)
| L_alt_l a b s : Lang a s → Lang (RAlt a b) s
| L_alt_r a b s : Lang b s → Lang (RAlt a b) s
| L_star_nil a : Lang (RStar a) ""
| L_star_cons a s t : Lang a s → Lang (RStar a) t → Lang (RStar a) (s +:+ t).

(** Every byte of the string is a decimal digit. *)
Definition AllDigits (s : string) : Prop := Forall Digit (list_ascii_of_string s).

(** Well-formed replication ids: digits, a dash, digits. *)
Definition WellFormedId (s : string) : Prop :=
  ∃ a b, s = a +:+ "-" +:+ b ∧ AllDigits a ∧ AllDigits b.

(** The string contains a dash. *)
Definition HasDash (s : string) : Prop := ∃ a b, s = a +:+ "-" +:+ b.
