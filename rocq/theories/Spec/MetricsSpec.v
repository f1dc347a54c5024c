(** Vocabulary for C95-C97. *)
From Coq Require Import Ascii String ZArith NArith.
From stdpp Require Import prelude strings.
From Verif.Model Require Import GoStrings Types Metrics.
Local Open Scope string_scope.
Local Open Scope Z_scope.

Fixpoint NoSlash (s : string) : Prop :=
  match s with "" => True | String c s' => c ≠ "/"%char ∧ NoSlash s' end.

Fixpoint OnlySlashes (s : string) : Prop :=
  match s with "" => True | String c s' => c = "/"%char ∧ OnlySlashes s' end.

(** [m] is the last element of the path [t]; slashes at the end do not count. An empty
    path counts as ".", and one of slashes only as "/". *)
Definition LastElement (t m : string) : Prop :=
  (t = "" ∧ m = ".") ∨ (t ≠ "" ∧ OnlySlashes t ∧ m = "/") ∨
  (m ≠ "" ∧ NoSlash m ∧ ∃ pre post, t = pre +:+ m +:+ post ∧ OnlySlashes post ∧ (pre = "" ∨ ∃ q, pre = q +:+ "/")).

(** The name in the context of a call ends in the method [m]; a context without a name
    counts as the name "". *)
Definition CallOf (tag : option string) (m : string) : Prop :=
  match tag with Some t => LastElement t m | None => m = "" end.

(** The whole microseconds between two instants. *)
Definition WholeMicros (b e d : Z) : Prop := b + d * 1000 <= e < b + (d + 1) * 1000.

(** One duration for every ended call, under its method, and one error for every
    ended call that failed, under its method and with its text, in order. *)
Inductive Measured : list (option string * rpc_stat) → list (string * Z) → list (string * string) → Prop :=
| Measured_nil : Measured [] [] []
| Measured_other tag evs ds es : Measured evs ds es → Measured ((tag, StatOther) :: evs) ds es
| Measured_ok tag m b e d evs ds es :
    CallOf tag m → WholeMicros b e d → Measured evs ds es →
    Measured ((tag, StatEnd b e None) :: evs) ((m, d) :: ds) es
| Measured_failed tag m b e x d evs ds es :
    CallOf tag m → WholeMicros b e d → Measured evs ds es →
    Measured ((tag, StatEnd b e (Some x)) :: evs) ((m, d) :: ds) ((m, x) :: es).

(** Ended calls do not end before they begin. *)
Definition GoodStat (ev : option string * rpc_stat) : Prop :=
  match ev.2 with StatOther => True | StatEnd b e _ => b <= e end.

Definition succeeded (rs : list response) : Z := Z.of_nat (length (filter (λ r, r_err r = None) rs)).
