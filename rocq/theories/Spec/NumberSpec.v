(** Vocabulary for C143 and C144: numbers in JSON (RFC 8259, section 6) and the doubles of
    IEEE 754. *)
From Coq Require Import Ascii String ZArith NArith.
From stdpp Require Import prelude strings.
From Verif.Model Require Import Types.
From Verif.Spec Require Import CalendarSpec HttpSpec JsonSpec JsonTextSpec JsonBytesSpec.
Local Open Scope string_scope.
Local Open Scope Z_scope.

(** ** Texts *)

Inductive SignText : string → bool → Prop :=
| SG_plus : SignText "" false
| SG_minus : SignText "-" true.
Definition IntText (ip : string) : Prop :=
  ip = "0" ∨ (∃ w n, Num (S w) n ip) ∧ ∀ r, ip ≠ String "0" r.
Inductive FracPart : string → string → Prop :=
| FP_none : FracPart "" ""
| FP_some w n ds : Num (S w) n ds → FracPart (String "." ds) ds.
Definition ExpChar (c : ascii) : Prop := c = "e"%char ∨ c = "E"%char.
Inductive ExpText : string → Z → Prop :=
| ET_none : ExpText "" 0
| ET_plus c sg w n ds : ExpChar c → sg = "" ∨ sg = "+" → Num (S w) n ds → ExpText (String c (sg +:+ ds)) n
| ET_minus c w n ds : ExpChar c → Num (S w) n ds → ExpText (String c ("-" +:+ ds)) (- n).

(** A number: sign, digits before and after the point, exponent. *)
Inductive NumberText : string → bool → string → string → Z → Prop :=
| NT sg neg ip fp ds ep x : SignText sg neg → IntText ip → FracPart fp ds → ExpText ep x →
    NumberText (sg +:+ ip +:+ fp +:+ ep) neg ip ds x.
(** What it stands for: m * 10^k, with the sign. *)
Definition Mantissa (ip ds : string) (m : Z) : Prop := ∃ w, Num w m (ip +:+ ds).
Definition Places (ds : string) (x : Z) : Z := x - Z.of_nat (String.length ds).
Definition WithSign (neg : bool) (z : Z) : Z := if neg then - z else z.
(** z = m * 10^k. *)
Definition IsDecimal (z m k : Z) : Prop := z * 10 ^ Z.max 0 (- k) = m * 10 ^ Z.max 0 k.

(** A text in which a number is followed by something that cannot go on a word. *)
Definition WordChar (c : ascii) : Prop :=
  let n := N_of_ascii c in
  (65 <= n <= 90 ∨ 97 <= n <= 122 ∨ 48 <= n <= 57)%N ∨ c = "-"%char ∨ c = "+"%char ∨ c = "."%char ∨ c = "_"%char.
Definition NoWord (s : string) : Prop := ∀ c r, s = String c r → ¬ WordChar c.
Definition EndsInSpace (s : string) : Prop := ∃ t r, Utf8 (t ++ [r])%list (byte_list s) ∧ SpaceChar r.
Definition NumberFirst (s t : string) : Prop :=
  ∃ rest neg ip ds x, s = t +:+ rest ∧ NumberText t neg ip ds x ∧ NoWord rest.
(** ... or by a lonely e before that. *)
Definition LonelyE (s t : string) : Prop :=
  ∃ sg neg ip fp ds c rest, SignText sg neg ∧ IntText ip ∧ FracPart fp ds ∧ t = sg +:+ ip +:+ fp ∧
    ExpChar c ∧ rest ≠ "" ∧ NoWord rest ∧ s = t +:+ String c rest.

(** ** Doubles *)

(** [x] is the finite double with this sign that is nearest to p / q units of 2^-1074; of
    two that are equally near, the even one. *)
Definition NearestDouble (neg : bool) (p q : Z) (x : f64) : Prop :=
  (x < 2 ^ 64)%N ∧ f64_sign x = neg ∧ ∃ z, f64_val x = FFin z ∧
  ∀ y z', f64_val y = FFin z' →
    Z.abs (z * q - p) <= Z.abs (z' * q - p) ∧ (Z.abs (z * q - p) = Z.abs (z' * q - p) → z' = z ∨ N.even x = true).
(** m * 10^k, in those units, as a fraction. *)
Definition Above (m k : Z) : Z := m * 10 ^ Z.max 0 k * 2 ^ 1074.
Definition Below (k : Z) : Z := 10 ^ Z.max 0 (- k).
(** Beyond the greatest double by at least half of the last place. *)
Definition TooBig (p q : Z) : Prop := (2 ^ 54 - 1) * 2 ^ 2044 * q <= Z.abs p.

(** m * 10^k is read as [x]; and how far it is from it (over [Below k]). *)
Definition StandsFor (neg : bool) (m k : Z) (x : f64) : Prop :=
  NearestDouble neg (WithSign neg (Above m k)) (Below k) x ∧ ¬ TooBig (Above m k) (Below k).
Definition Off (x : f64) (m k : Z) : Z :=
  match f64_val x with FFin z => Z.abs (Above m k - Z.abs z * Below k) | _ => 0 end.

(** The digits of [m] (in m * 10^k) are as few as a decimal number that is read as [x] can
    have, and no other with as few is nearer to [x]. *)
Definition Shortest (x : f64) (m k : Z) : Prop :=
  0 < m ∧ StandsFor (f64_sign x) m k x ∧
  ∀ m' k', 0 <= m' → StandsFor (f64_sign x) m' k' x →
    (∀ n, m' < 10 ^ n → m < 10 ^ n) ∧
    ((∀ n, m < 10 ^ n → m' < 10 ^ n) → Off x m k * Below k' <= Off x m' k' * Below k).
(** Neither below 10^-6 nor from 10^21. *)
Definition Ordinary (x : f64) : Prop :=
  ∀ z lo zl hi zh, f64_val x = FFin z → StandsFor false 1 (-6) lo → f64_val lo = FFin zl →
    StandsFor false 1 21 hi → f64_val hi = FFin zh → zl <= Z.abs z < zh.
(** The text of a double: without exponent if it is ordinary, with one digit before the point
    otherwise; no zeros at the end of the fraction nor at the front of the exponent. *)
Definition DoubleText (t : string) (x : f64) : Prop :=
  ∃ ip fr ex m k j, NumberText t (f64_sign x) ip fr ex ∧ Shortest x m k ∧
    0 <= j ∧ Mantissa ip fr (m * 10 ^ j) ∧ Places fr ex = k - j ∧ (∀ r, fr ≠ r +:+ "0") ∧
    (Ordinary x → ex = 0) ∧
    (¬ Ordinary x → String.length ip = 1%nat ∧ j = 0 ∧
       ∃ a es, t = a +:+ "e" +:+ (if ex <? 0 then "-" else "+") +:+ es ∧ ∀ r, es ≠ String "0" r).
