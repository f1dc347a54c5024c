(** What pool membership is supposed to mean (proto/v2/messages.proto:87-138),
    stated without reference to the model of the filtering code. *)
From Coq Require Import Ascii String ZArith NArith QArith.
From stdpp Require Import prelude strings gmap.
From Verif.Model Require Import Types.
Local Open Scope Z_scope.

(** ** Doubles as extended rationals, following the IEEE-754 definition *)
Inductive xreal := XNaN | XInf (neg : bool) | XQ (q : Q).

Definition two_to (z : Z) : Q := Qpower (2 # 1) z.

Definition ieee (b : N) : xreal :=
  let sign := if N.testbit b 63 then (-1 # 1)%Q else 1%Q in
  let e := Z.of_N ((b / 2 ^ 52) mod 2 ^ 11) in
  let m := inject_Z (Z.of_N (b mod 2 ^ 52)) in
  if (e =? 2047) then
    if (b mod 2 ^ 52 =? 0)%N then XInf (N.testbit b 63) else XNaN
  else if (e =? 0) then
    (* subnormal: (-1)^s * 2^-1022 * 0.m *)
    XQ (sign * two_to (-1022) * (m * two_to (-52)))
  else
    (* normal: (-1)^s * 2^(e-1023) * 1.m *)
    XQ (sign * two_to (e - 1023) * (1 + m * two_to (-52))).

Definition XLt (a b : xreal) : Prop :=
  match a, b with
  | XQ x, XQ y => (x < y)%Q
  | XInf true, XQ _ | XInf true, XInf false | XQ _, XInf false => True
  | _, _ => False
  end.

Definition XLe (a b : xreal) : Prop :=
  match a, b with
  | XQ x, XQ y => (x <= y)%Q
  | XInf true, XQ _ | XInf true, XInf _ | XQ _, XInf false | XInf false, XInf false => True
  | _, _ => False
  end.

(** ** Bounds *)

(** The bounds values messages.proto declares. *)
Definition DeclaredBounds (b : Z) : Prop := b = 0 ∨ b = 1 ∨ b = 2 ∨ b = 3.

(** [v] lies in the interval from [lo] to [hi] as the bounds value says
    (messages.proto:95-107). *)
Definition InsideDouble (b : Z) (lo hi v : f64) : Prop :=
  (if bool_decide (b = 1 ∨ b = 3) then XLt (ieee lo) (ieee v) else XLe (ieee lo) (ieee v)) ∧
  (if bool_decide (b = 2 ∨ b = 3) then XLt (ieee v) (ieee hi) else XLe (ieee v) (ieee hi)).

Definition InsideTime (b : Z) (lo hi v : instant) : Prop :=
  (if bool_decide (b = 1 ∨ b = 3) then lo < v else lo <= v) ∧
  (if bool_decide (b = 2 ∨ b = 3) then v < hi else v <= hi).

(** ** Pool membership, attribute filters only *)
Definition AttrMember (p : pool) (a : filterable) : Prop :=
  (∀ f, f ∈ po_double_filters p →
     ∃ v, fd_doubles a !! df_arg f = Some v ∧ InsideDouble (df_bounds f) (df_min f) (df_max f) v) ∧
  (∀ k v, (k, v) ∈ po_string_filters p → fd_strings a !! k = Some v) ∧
  (∀ t, t ∈ po_tag_filters p → t ∈ fd_tags a).

(** A valid protobuf timestamp: 0001-01-01T00:00:00Z .. 9999-12-31T23:59:59.999999999Z. *)
Definition ValidTs (t : timestamp) : Prop :=
  -62135596800 <= ts_seconds t <= 253402300799 ∧ 0 <= ts_nanos t <= 999999999.
