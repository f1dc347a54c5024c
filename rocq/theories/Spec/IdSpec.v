(** Ids as pairs of a time and an index, and orders on them. *)
From Coq Require Import Ascii String ZArith Sorting.
From stdpp Require Import prelude strings.
From Verif.Model Require Import GoStrings Types.
Local Open Scope string_scope.
Local Open Scope Z_scope.

(** The textual form "<t>-<k>". *)
Definition id_text (p : Z * Z) : string := format_Z p.1 +:+ "-" +:+ format_Z p.2.

Definition LexLt (a b : Z * Z) : Prop := a.1 < b.1 ∨ (a.1 = b.1 ∧ a.2 < b.2).

(** A list of ids is strictly increasing. *)
Definition IncreasingIds (ids : list string) : Prop :=
  ∃ ps, ids = map id_text ps ∧ StronglySorted LexLt ps ∧ Forall (λ p, 0 <= p.1 ∧ 0 <= p.2) ps.

(** Successive clock readings never go back. *)
Definition Monotone (t0 : instant) (clks : list (instant * instant)) : Prop :=
  Sorted Z.le (t0 :: mbind (λ c : instant * instant, [c.1; c.2]) clks).

(** Successive clock readings never go back to an earlier second (small steps
    back within one second are allowed). *)
Definition MonotoneSecs (t0 : instant) (clks : list (instant * instant)) : Prop :=
  Sorted Z.le (map unix_secs (t0 :: mbind (λ c : instant * instant, [c.1; c.2]) clks)).
