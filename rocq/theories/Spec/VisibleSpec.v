(** Vocabulary for C152. *)
From Coq Require Import ZArith.
From stdpp Require Import prelude strings gmap relations.
From Verif.Model Require Import GoStrings Types Cache MemRepl Queues Timing Visible.
Local Open Scope Z_scope.

(** There is a waiting time, and applying an update takes less than 500 ms; the channel is
    buffered. *)
Definition SaneVisible (p : iparams) (cap : nat) : Prop :=
  0 < ip_wait p ∧ 0 <= ip_apply p < 500 * 1000000 ∧ 0 <= ip_cycle p ∧ (0 < cap)%nat.
(** The latest moment at which an update is applied: one waiting time until GetUpdates returns;
    then a round (waiting, an expiration cycle, a look at the empty channel), and one more for
    each [cap] updates ahead; and the time it takes to apply those ahead and itself. *)
Definition visible_by (p : iparams) (cap : nat) (x : vitem) : instant :=
  v_at x + ip_wait p +
  (Z.of_nat (v_ahead x / cap) + 1) * (ip_wait p + ip_cycle p + ip_apply p) +
  (Z.of_nat (v_ahead x) + 1) * ip_apply p.
Definition on_the_way (s : vstate) : list vitem := vs_chan s ++ r_items (vs_reader s).
