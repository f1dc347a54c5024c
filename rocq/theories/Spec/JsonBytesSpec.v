(** Vocabulary for C138: JSON as bytes. *)
From Coq Require Import Ascii String ZArith NArith.
From stdpp Require Import prelude strings.
From Verif.Model Require Import Types Wire Proto JsonMsg HttpStream.
From Verif.Spec Require Import HttpSpec JsonTextSpec.
Local Open Scope N_scope.

(** Code points that UTF-8 can express: all but the surrogates. *)
Definition Rune (r : N) : Prop := r < 0xd800 ∨ 0xe000 <= r < 0x110000.

(** UTF-8 as the Unicode standard gives it (table 3-6): the bits of the code point are spread
    over the bytes. *)
Inductive RuneBytes : N → list N → Prop :=
| RB1 r : r < 128 → RuneBytes r [r]
| RB2 x y : 2 <= x < 32 → y < 64 → RuneBytes (x * 64 + y) [192 + x; 128 + y]
| RB3 x y z : x < 16 → y < 64 → z < 64 → 2048 <= (x * 64 + y) * 64 + z → Rune ((x * 64 + y) * 64 + z) →
    RuneBytes ((x * 64 + y) * 64 + z) [224 + x; 128 + y; 128 + z]
| RB4 x y z w : x < 8 → y < 64 → z < 64 → w < 64 → 65536 <= ((x * 64 + y) * 64 + z) * 64 + w < 0x110000 →
    RuneBytes (((x * 64 + y) * 64 + z) * 64 + w) [240 + x; 128 + y; 128 + z; 128 + w].
Definition byte_list (s : string) : list N := map N_of_ascii (list_ascii_of_string s).
Inductive Utf8 : text → list N → Prop :=
| Utf8_nil : Utf8 [] []
| Utf8_cons r t b bs : RuneBytes r b → Utf8 t bs → Utf8 (r :: t) (b ++ bs).

(** JSON as it can be written: numbers are numbers, texts are UTF-8. *)
Inductive Writable : jv → Prop :=
| WR_null : Writable JNull
| WR_bool b : Writable (JBool b)
| WR_num t : JsonNumber (codes t) → Writable (JNum t)
| WR_text s : utf8_valid s = true → Writable (JsonMsg.JText s)
| WR_list l : (∀ v, v ∈ l → Writable v) → Writable (JList l)
| WR_dict l : (∀ k v, (k, v) ∈ l → utf8_valid k = true ∧ Writable v) → Writable (JDict l).

(** What is assumed of the library: finite doubles are written as JSON numbers, times as
    UTF-8, and messages in extensions as JSON that can be written. *)
Definition WritesJson (c : codec) : Prop :=
  (∀ x z, f64_val x = FFin z → JsonNumber (codes (jc_dbl c x))) ∧
  (∀ t, ts_is_valid (Some t) = true → utf8_valid (jc_time c t) = true) ∧
  (∀ url e v l, jc_types c url = Some e → em_write e v = Some l → Writable (JDict l)).

(** The texts in a value, keys included; a text with a space that is not written as an
    escape sequence (C98). *)
Inductive TextIn (s : string) : jv → Prop :=
| TextIn_here : TextIn s (JsonMsg.JText s)
| TextIn_list v l : v ∈ l → TextIn s v → TextIn s (JList l)
| TextIn_key v l : (s, v) ∈ l → TextIn s (JDict l)
| TextIn_value k v l : (k, v) ∈ l → TextIn s v → TextIn s (JDict l).
Definition SpaceInText (s : string) : Prop :=
  ∃ t r, Utf8 t (byte_list s) ∧ r ∈ t ∧ SpaceChar r ∧ 32 <= r ∧ r ≠ 0x2028 ∧ r ≠ 0x2029.
Definition NoSpaces (v : jv) : Prop := ∀ s, TextIn s v → ¬ SpaceInText s.

(** Readers of messages take objects only. *)
Definition ObjectsOnly {M} (read : jv → option M) : Prop := ∀ v m, read v = Some m → ∃ l, v = JDict l.

(** The bytes begin with a JSON text that stands for [j]. *)
Definition BeginsWith (s : string) (j : json) : Prop :=
  ∃ t b rest, byte_list s = b ++ rest ∧ Utf8 t b ∧ JsonText t j.
