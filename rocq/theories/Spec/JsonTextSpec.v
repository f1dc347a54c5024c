(** The syntax of JSON (RFC 8259) on code points, with the value each text stands for. *)
From Coq Require Import ZArith NArith.
From stdpp Require Import prelude strings.
From Verif.Model Require Import HttpStream.
From Verif.Spec Require Import HttpSpec.
Local Open Scope N_scope.

(** White space between tokens. *)
Definition Ws (w : text) : Prop := Forall (λ c, c = 32 ∨ c = 9 ∨ c = 10 ∨ c = 13) w.

(** Strings. *)
Definition HexDigit (c v : N) : Prop :=
  48 <= c <= 57 ∧ v = c - 48 ∨ 97 <= c <= 102 ∧ v = c - 97 + 10 ∨ 65 <= c <= 70 ∧ v = c - 65 + 10.
Definition Hex4 (h : text) (v : N) : Prop :=
  ∃ a b c d x y z w, h = [a; b; c; d] ∧ HexDigit a x ∧ HexDigit b y ∧ HexDigit c z ∧ HexDigit d w ∧
    v = ((x * 16 + y) * 16 + z) * 16 + w.
Definition short_escapes : list (N * N) :=
  [(34, 34); (92, 92); (47, 47); (98, 8); (102, 12); (110, 10); (114, 13); (116, 9)].
Inductive StringBody : text → text → Prop :=
| SB_nil : StringBody [] []
| SB_plain r b t : 32 <= r → r ≠ 34 → r ≠ 92 → StringBody b t → StringBody (r :: b) (r :: t)
| SB_escape e r b t : (e, r) ∈ short_escapes → StringBody b t → StringBody (92 :: e :: b) (r :: t)
| SB_unicode h v b t : Hex4 h v → ¬ 0xd800 <= v <= 0xdfff → StringBody b t → StringBody (92 :: 117 :: h ++ b) (v :: t)
| SB_pair h v h' v' b t : Hex4 h v → 0xd800 <= v <= 0xdbff → Hex4 h' v' → 0xdc00 <= v' <= 0xdfff → StringBody b t →
    StringBody (92 :: 117 :: h ++ 92 :: 117 :: h' ++ b) (0x10000 + (v - 0xd800) * 1024 + (v' - 0xdc00) :: t).

(** Numbers and literals. *)
Definition Digits (ds : text) : Prop := ds ≠ [] ∧ Forall (λ c, 48 <= c <= 57) ds.
Definition JsonNumber (t : text) : Prop := ∃ sg ip fp ep, t = sg ++ ip ++ fp ++ ep ∧
  (sg = [] ∨ sg = [45]) ∧
  (ip = [48] ∨ Digits ip ∧ ∀ r, ip ≠ 48 :: r) ∧
  (fp = [] ∨ ∃ ds, Digits ds ∧ fp = 46 :: ds) ∧
  (ep = [] ∨ ∃ e s ds, (e = 101 ∨ e = 69) ∧ (s = [] ∨ s = [43] ∨ s = [45]) ∧ Digits ds ∧ ep = e :: s ++ ds).
Definition JsonScalar (t : text) : Prop :=
  t = codes "null"%string ∨ t = codes "true"%string ∨ t = codes "false"%string ∨ JsonNumber t.

(** Values, without white space around them; the items of an array and the members of an
    object, without the brackets. *)
Inductive JsonValue : text → json → Prop :=
| JV_scalar t : JsonScalar t → JsonValue t (JRaw t)
| JV_string b t : StringBody b t → JsonValue (34 :: b ++ [34]) (JStr t)
| JV_empty_array w : Ws w → JsonValue (91 :: w ++ [93]) (JArr [])
| JV_array i l : JsonItems i l → JsonValue (91 :: i ++ [93]) (JArr l)
| JV_empty_object w : Ws w → JsonValue (123 :: w ++ [125]) (JObj [])
| JV_object m l : JsonMembers m l → JsonValue (123 :: m ++ [125]) (JObj l)
with JsonItems : text → list json → Prop :=
| JI_one w1 v w2 j : Ws w1 → JsonValue v j → Ws w2 → JsonItems (w1 ++ v ++ w2) [j]
| JI_cons w1 v w2 i j l : Ws w1 → JsonValue v j → Ws w2 → JsonItems i l → JsonItems (w1 ++ v ++ w2 ++ 44 :: i) (j :: l)
with JsonMembers : text → list (text * json) → Prop :=
| JM_one w1 b k w2 w3 v w4 j : Ws w1 → StringBody b k → Ws w2 → Ws w3 → JsonValue v j → Ws w4 →
    JsonMembers (w1 ++ 34 :: b ++ 34 :: w2 ++ 58 :: w3 ++ v ++ w4) [(k, j)]
| JM_cons w1 b k w2 w3 v w4 j m l : Ws w1 → StringBody b k → Ws w2 → Ws w3 → JsonValue v j → Ws w4 → JsonMembers m l →
    JsonMembers (w1 ++ 34 :: b ++ 34 :: w2 ++ 58 :: w3 ++ v ++ w4 ++ 44 :: m) ((k, j) :: l).
Definition JsonText (t : text) (j : json) : Prop := ∃ w1 v w2, t = w1 ++ v ++ w2 ∧ Ws w1 ∧ JsonValue v j ∧ Ws w2.

(** The scalars of a value are numbers, true, false or null. *)
Definition RealScalars (j : json) : Prop := ∀ t, RawIn t j → JsonScalar t.
(** Objects, arrays and strings, whose texts say where they end. *)
Definition Closed (j : json) : Prop := ∀ t, j ≠ JRaw t.
(** What may follow a number or a literal. *)
Definition Delimited (rest : text) : Prop := ∀ c r, rest = c :: r →
  ¬ (48 <= c <= 57 ∨ 65 <= c <= 90 ∨ 97 <= c <= 122 ∨ c = 43 ∨ c = 45 ∨ c = 46 ∨ c = 95).
