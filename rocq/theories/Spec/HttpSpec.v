(** Vocabulary for C98. *)
From Coq Require Import Ascii String ZArith NArith.
From stdpp Require Import prelude.
From Verif.Model Require Import HttpStream.
Local Open Scope N_scope.

(** White space in Unicode. *)
Definition SpaceChar (r : N) : Prop :=
  9 <= r <= 13 ∨ r = 32 ∨ r = 0x85 ∨ r = 0xa0 ∨ r = 0x1680 ∨ 0x2000 <= r <= 0x200a ∨
  r = 0x2028 ∨ r = 0x2029 ∨ r = 0x202f ∨ r = 0x205f ∨ r = 0x3000.
Definition SpaceFree (t : text) : Prop := ∀ r, r ∈ t → ¬ SpaceChar r.

(** The strings (keys included) and the other scalars in a value. *)
Inductive StringIn (t : text) : json → Prop :=
| StringIn_here : StringIn t (JStr t)
| StringIn_arr j l : j ∈ l → StringIn t j → StringIn t (JArr l)
| StringIn_key j l : (t, j) ∈ l → StringIn t (JObj l)
| StringIn_val k j l : (k, j) ∈ l → StringIn t j → StringIn t (JObj l).
Inductive RawIn (t : text) : json → Prop :=
| RawIn_here : RawIn t (JRaw t)
| RawIn_arr j l : j ∈ l → RawIn t j → RawIn t (JArr l)
| RawIn_val k j l : (k, j) ∈ l → RawIn t j → RawIn t (JObj l).

(** Numbers, booleans and null. *)
Definition ScalarChar (r : N) : Prop :=
  48 <= r <= 57 ∨ 65 <= r <= 90 ∨ 97 <= r <= 122 ∨ r = 43 ∨ r = 45 ∨ r = 46.
Definition GoodScalars (j : json) : Prop := ∀ t, RawIn t j → ∀ r, r ∈ t → ScalarChar r.

(** A space that is not written as an escape sequence. *)
Definition PlainSpaceIn (j : json) : Prop :=
  ∃ t r, StringIn t j ∧ r ∈ t ∧ SpaceChar r ∧ 32 <= r ∧ r ≠ 0x2028 ∧ r ≠ 0x2029.

(** A text of ASCII characters. *)
Definition codes (s : string) : text := map N_of_ascii (list_ascii_of_string s).
