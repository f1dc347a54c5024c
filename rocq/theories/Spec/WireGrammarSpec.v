(** Vocabulary for C161: the protobuf wire format as its documentation describes it. *)
From Coq Require Import Ascii String NArith.
From stdpp Require Import prelude strings.
From Verif.Model Require Import Wire.
Local Open Scope N_scope.

(** Numbers in groups of seven bits, the lowest first; all bytes but the last have the eighth bit. At most [k] bytes. *)
Inductive Varint : nat → string → N → Prop :=
| vi_last k c : N_of_ascii c < 128 → Varint (S k) (String c "") (N_of_ascii c)
| vi_more k c s n : 128 <= N_of_ascii c → Varint k s n → Varint (S k) (String c s) (N_of_ascii c - 128 + 128 * n).
Definition IsVarint (s : string) (n : N) : Prop := Varint 10 s n ∧ n < 2 ^ 64.

(** Numbers with all their bytes, the lowest first. *)
Inductive Little : string → N → Prop :=
| li_nil : Little "" 0
| li_cons c s n : Little s n → Little (String c s) (N_of_ascii c + 256 * n).

(** The kinds of values by number, and how they are written. *)
Inductive IsValue : N → string → wval → Prop :=
| iv_var s n : IsVarint s n → IsValue 0 s (WVar n)
| iv_64 s n : Little s n → String.length s = 8%nat → IsValue 1 s (WF64 n)
| iv_len l s : IsVarint l (N.of_nat (String.length s)) → IsValue 2 (l +:+ s) (WLen s)
| iv_32 s n : Little s n → String.length s = 4%nat → IsValue 5 s (WF32 n).

(** A field: a key with its number and kind, then the value; a message: fields. *)
Inductive IsField : string → field → Prop :=
| if_field key num kind s v : IsVarint key (num * 8 + kind) → 1 <= num < 2 ^ 29 → IsValue kind s v → IsField (key +:+ s) (num, v).
Inductive IsMessage : string → list field → Prop :=
| im_nil : IsMessage "" []
| im_cons s f r l : IsField s f → IsMessage r l → IsMessage (s +:+ r) (f :: l).
