(** The protobuf wire format as implemented by google.golang.org/protobuf
    v1.33.0 (encoding/protowire and internal/impl), which core/main.go:182 and
    :743 (proto.Marshal), :417 and :430 (proto.Size) and
    core/internal/statestore/cache/replicatedticketcache.go:190 and :215
    (proto.Unmarshal) rely on.

    Simplifications: groups (wire types 3 and 4), which no message here uses,
    are decoding errors; unknown fields are dropped instead of being retained. *)
From Coq Require Import Ascii String ZArith NArith.
From stdpp Require Import prelude strings gmap.
Local Open Scope string_scope.

(** ** Varints *)

(** protowire.AppendVarint. *)
Fixpoint enc_varint_f (fuel : nat) (n : N) : string :=
  match fuel with
  | O => ""
  | S f =>
      if (n <? 128)%N then String (ascii_of_N n) ""
      else String (ascii_of_N (n mod 128 + 128)) (enc_varint_f f (n / 128)%N)
  end.
Definition enc_varint (n : N) : string := enc_varint_f 10 n.

(** protowire.ConsumeVarint: at most ten bytes, the tenth at most 1. *)
Fixpoint dec_varint_f (fuel : nat) (s : string) : option (N * string) :=
  match fuel, s with
  | O, _ => None
  | _, "" => None
  | S f, String c s' =>
      let b := N_of_ascii c in
      if (b <? 128)%N then
        if (match f with O => (1 <? b)%N | _ => false end) then None else Some (b, s')
      else match dec_varint_f f s' with
           | Some (v, r) => Some (b - 128 + 128 * v, r)%N
           | None => None
           end
  end.
Definition dec_varint (s : string) : option (N * string) := dec_varint_f 10 s.

(** ** Fixed-width integers, little endian *)
Fixpoint enc_fixed (k : nat) (n : N) : string :=
  match k with
  | O => ""
  | S k => String (ascii_of_N (n mod 256)) (enc_fixed k (n / 256)%N)
  end.

Fixpoint dec_fixed (k : nat) (s : string) : option (N * string) :=
  match k with
  | O => Some (0%N, s)
  | S k =>
      match s with
      | "" => None
      | String c s' =>
          match dec_fixed k s' with
          | Some (v, r) => Some (N_of_ascii c + 256 * v, r)%N
          | None => None
          end
      end
  end.

(** ** Fields *)

Inductive wval :=
| WVar (n : N)        (* wire type 0 *)
| WF64 (n : N)        (* wire type 1 *)
| WLen (s : string)   (* wire type 2 *)
| WF32 (n : N).       (* wire type 5 *)

Definition wire_type (v : wval) : N :=
  match v with WVar _ => 0 | WF64 _ => 1 | WLen _ => 2 | WF32 _ => 5 end.

Definition field := (N * wval)%type.

Definition slen (s : string) : N := N.of_nat (String.length s).

Definition enc_field (f : field) : string :=
  enc_varint (f.1 * 8 + wire_type f.2) +:+
  match f.2 with
  | WVar n => enc_varint n
  | WF64 n => enc_fixed 8 n
  | WF32 n => enc_fixed 4 n
  | WLen s => enc_varint (slen s) +:+ s
  end.

Fixpoint enc_fields (fs : list field) : string :=
  match fs with [] => "" | f :: fs' => enc_field f +:+ enc_fields fs' end.

(** First [n] bytes and the rest, if there are that many. *)
Fixpoint split_at (n : nat) (s : string) : option (string * string) :=
  match n with
  | O => Some ("", s)
  | S n =>
      match s with
      | "" => None
      | String c s' =>
          match split_at n s' with
          | Some (a, b) => Some (String c a, b)
          | None => None
          end
      end
  end.

(** protowire.ConsumeField, with the field number check of
    internal/impl/decode.go. *)
Definition dec_field (s : string) : option (field * string) :=
  match dec_varint s with
  | None => None
  | Some (tag, r) =>
      let num := (tag / 8)%N in
      let wt := (tag mod 8)%N in
      if ((num <? 1) || (2 ^ 29 <=? num))%N then None
      else if (wt =? 0)%N then
        match dec_varint r with Some (v, r') => Some ((num, WVar v), r') | None => None end
      else if (wt =? 1)%N then
        match dec_fixed 8 r with Some (v, r') => Some ((num, WF64 v), r') | None => None end
      else if (wt =? 2)%N then
        match dec_varint r with
        | Some (l, r') =>
            if (slen r' <? l)%N then None
            else match split_at (N.to_nat l) r' with
                 | Some (a, b) => Some ((num, WLen a), b)
                 | None => None
                 end
        | None => None
        end
      else if (wt =? 5)%N then
        match dec_fixed 4 r with Some (v, r') => Some ((num, WF32 v), r') | None => None end
      else None
  end.

Fixpoint dec_fields_f (fuel : nat) (s : string) : option (list field) :=
  match s with
  | "" => Some []
  | _ =>
      match fuel with
      | O => None
      | S f =>
          match dec_field s with
          | None => None
          | Some (fv, r) =>
              match dec_fields_f f r with Some l => Some (fv :: l) | None => None end
          end
      end
  end.
Definition dec_fields (s : string) : option (list field) := dec_fields_f (String.length s) s.

(** Applies the fields of a message one after the other (internal/impl
    unmarshalPointer); stops at the first error. *)
Fixpoint fold_fields {A} (step : A → field → option A) (a : A) (fs : list field) : option A :=
  match fs with
  | [] => Some a
  | f :: fs' =>
      match step a f with Some a' => fold_fields step a' fs' | None => None end
  end.

Definition unmarshal {A} (step : A → field → option A) (a : A) (s : string) : option A :=
  match dec_fields s with Some fs => fold_fields step a fs | None => None end.

(** What a decoder leaves behind when its error is ignored
    (replicatedticketcache.go:190 and :215): the fields before the first
    malformed one, ... *)
Fixpoint dec_prefix_f (fuel : nat) (s : string) : list field * bool :=
  match s with
  | "" => ([], true)
  | _ =>
      match fuel with
      | O => ([], false)
      | S f =>
          match dec_field s with
          | None => ([], false)
          | Some (fv, r) => let '(l, ok) := dec_prefix_f f r in (fv :: l, ok)
          end
      end
  end.
Definition dec_prefix (s : string) : list field * bool := dec_prefix_f (String.length s) s.

(** ... applied one after the other up to the first that is refused; the flag
    tells whether all of them were applied. *)
Fixpoint fold_part {A} (step : A → field → A * bool) (a : A) (fs : list field) : A * bool :=
  match fs with
  | [] => (a, true)
  | f :: fs' =>
      match step a f with
      | (a', true) => fold_part step a' fs'
      | (a', false) => (a', false)
      end
  end.

Definition unmarshal_part {A} (step : A → field → A * bool) (a : A) (s : string) : A * bool :=
  let '(fs, ok) := dec_prefix s in
  let '(a', ok') := fold_part step a fs in
  (a', ok' && ok).

(** A field that is refused leaves the message as it was. *)
Definition or_keep {A} (step : A → field → option A) (a : A) (f : field) : A * bool :=
  match step a f with Some a' => (a', true) | None => (a, false) end.

(** ** Scalars *)

(** int64/int32/enum to varint: sign-extended to 64 bits. *)
Definition int_to_u64 (z : Z) : N := Z.to_N (z mod 2 ^ 64).

(** varint to int64 / int32 (truncating). *)
Definition u64_to_i64 (n : N) : Z :=
  let z := (Z.of_N n mod 2 ^ 64)%Z in if (z <? 2 ^ 63)%Z then z else (z - 2 ^ 64)%Z.
Definition u64_to_i32 (n : N) : Z :=
  let z := (Z.of_N n mod 2 ^ 32)%Z in if (z <? 2 ^ 31)%Z then z else (z - 2 ^ 32)%Z.

(** unicode/utf8.ValidString, which proto3 string fields are checked with when
    encoding and decoding. *)
Definition in_range (lo hi : N) (c : ascii) : bool :=
  let n := N_of_ascii c in ((lo <=? n) && (n <=? hi))%N.
Definition cont_byte : ascii → bool := in_range 128 191.

Fixpoint utf8_valid (s : string) : bool :=
  match s with
  | "" => true
  | String c s1 =>
      if in_range 0 127 c then utf8_valid s1
      else match s1 with
      | "" => false
      | String c1 s2 =>
          if in_range 194 223 c then cont_byte c1 && utf8_valid s2
          else match s2 with
          | "" => false
          | String c2 s3 =>
              if in_range 224 239 c then
                (if in_range 224 224 c then in_range 160 191 c1
                 else if in_range 237 237 c then in_range 128 159 c1
                 else cont_byte c1) && cont_byte c2 && utf8_valid s3
              else match s3 with
              | "" => false
              | String c3 s4 =>
                  if in_range 240 244 c then
                    (if in_range 240 240 c then in_range 144 191 c1
                     else if in_range 244 244 c then in_range 128 143 c1
                     else cont_byte c1) && cont_byte c2 && cont_byte c3 && utf8_valid s4
                  else false
              end
          end
      end
  end.
