(** Data races as the Go memory model defines them (go.dev/ref/mem), for the actions
    of Model/Race.v. *)
From Coq Require Import String.
From stdpp Require Import prelude strings list relations.
From Verif.Model Require Import Race.

(** One action is ordered before a later one directly: by being of the same
    goroutine; because a go statement comes before what the goroutine it starts does;
    because tdwg.Done comes before the return of the tdwg.Wait it lets through. *)
Definition OrderedDirectly (tr : trace) (i j : nat) : Prop :=
  i < j ∧ ∃ gi ai gj aj, tr !! i = Some (gi, ai) ∧ tr !! j = Some (gj, aj) ∧
  (gi = gj ∨ (∃ k, ai = AGo k ∧ gj = Mg k) ∨ (ai = ADone ∧ aj = AWait)).

Definition HappensBefore (tr : trace) : nat → nat → Prop := tc (OrderedDirectly tr).

Definition IsWrite (a : act) : Prop := ∃ v, a = AWr v.
Definition IsAccess (a : act) : Prop := ∃ v, a = AWr v ∨ a = ARd v.

(** Two uses of the variable by different goroutines, one of them an assignment, that
    nothing orders. *)
Definition RaceBetween (tr : trace) (i j : nat) : Prop :=
  ∃ gi ai gj aj, tr !! i = Some (gi, ai) ∧ tr !! j = Some (gj, aj) ∧ gi ≠ gj ∧
  IsWrite ai ∧ IsAccess aj ∧ ¬ HappensBefore tr i j ∧ ¬ HappensBefore tr j i.

Definition HasRace (tr : trace) : Prop := ∃ i j, RaceBetween tr i j.

(** No deactivation failed in this execution. *)
Definition AllDeactivated (tr : trace) : Prop :=
  ∀ i g errs, tr !! i = Some (g, ADeact errs) → errs = [].

(** The log message of the (k+1)-th match about deactivations that failed, at
    position [i], mentions [v]. *)
Definition Logged (tr : trace) (i k : nat) (v : goerr) : Prop := tr !! i = Some (Mg k, ARd v).
