(** The last line of om-core's log, core/main.go:133 (logger.Infof), with syncMapDump (:932-939)
    and setDifference (:947-959). The replication goroutines may still be at work, so each of
    the five reads of the cache sees its own state.

    Simplification: one Range sees one state (Snapshot.v has Ranges in detail). *)
From Coq Require Import Ascii String ZArith.
From stdpp Require Import prelude strings gmap.
From Verif.Model Require Import GoStrings Types Cache.
Local Open Scope string_scope.

Record counts := Counts { n_tickets : nat; n_active : nat; n_inactive : nat; n_assigned : nat }.

(** :947-959; first the inactive set is read, then the tickets. *)
Definition set_difference (inactive : gset string) (tickets : gmap string ticket) : list ticket :=
  snd <$> filter (λ kt, kt.1 ∉ inactive) (map_to_list tickets).

(** The arguments are evaluated from left to right. *)
Definition final_counts (c1 c2 c3 c4 c5 : cache) : counts :=
  Counts (size (c_tickets c1)) (length (set_difference (c_inactive c2) (c_tickets c3))) (size (c_inactive c4)) (size (c_assign c5)).

Definition dec (n : nat) : string := format_Z (Z.of_nat n).
Definition final_text (n : counts) : string :=
  "Final state of local cache: " +:+ dec (n_tickets n) +:+ " tickets, " +:+ dec (n_active n) +:+ " active, " +:+
  dec (n_inactive n) +:+ " inactive, " +:+ dec (n_assigned n) +:+ " assignments".
Definition final_line (c1 c2 c3 c4 c5 : cache) : string := final_text (final_counts c1 c2 c3 c4 c5).
