(** What UTF-8 text is, by its definition (RFC 3629, section 3), independently
    of the checks of the model. *)
From Coq Require Import Ascii String NArith.
From stdpp Require Import prelude strings.
Local Open Scope N_scope.

(** A Unicode scalar value: a code point that is not a surrogate. *)
Definition scalar (c : N) : Prop := c < 0xD800 ∨ 0xE000 ≤ c ≤ 0x10FFFF.

(** The bytes of one scalar value. *)
Definition char_bytes (c : N) : list N :=
  if c <? 0x80 then [c]
  else if c <? 0x800 then [0xC0 + c / 64; 0x80 + c mod 64]
  else if c <? 0x10000 then [0xE0 + c / 4096; 0x80 + (c / 64) mod 64; 0x80 + c mod 64]
  else [0xF0 + c / 262144; 0x80 + (c / 4096) mod 64; 0x80 + (c / 64) mod 64; 0x80 + c mod 64].

Fixpoint string_of_bytes (l : list N) : string :=
  match l with [] => EmptyString | b :: l' => String (ascii_of_N b) (string_of_bytes l') end.

(** [s] is the encoding of a sequence of scalar values. *)
Definition Utf8Text (s : string) : Prop :=
  ∃ cs, Forall scalar cs ∧ s = string_of_bytes (concat (map char_bytes cs)).
