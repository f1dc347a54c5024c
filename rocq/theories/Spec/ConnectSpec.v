(** Vocabulary for C147. *)
From Coq Require Import ZArith.
From stdpp Require Import prelude.
From Verif.Model Require Import Types Connect.
Local Open Scope Z_scope.

(** Addresses answer after, not before. *)
Definition Sane (a : address) : Prop := match a with Accepts d | Refuses d => 0 <= d | Silent => True end.
Definition SaneDns (start : instant) (n : dns) : Prop :=
  start <= dn_at n ∧ Forall Sane (dn_first n) ∧ Forall Sane (dn_other n).
Fixpoint Total (ds : list Z) : Z := match ds with [] => 0 | d :: ds' => d + Total ds' end.
Definition Ends (e : call_end) (t : instant) : Prop := e = Open t ∨ e = NotOpen t.
(** There are [q] nanoseconds, and no less than two seconds, for each of the addresses [l] in
    the time from [now] to [dl]. *)
Definition Enough (dl now : instant) (l : list address) (q : Z) : Prop :=
  2 * 1000000000 <= q ∧ q * Z.of_nat (length l) <= dl - now.
