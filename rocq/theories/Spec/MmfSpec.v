(** What the sample matchmaking functions should produce. *)
From Coq Require Import Ascii String ZArith NArith.
From stdpp Require Import prelude strings gmap.
From Verif.Model Require Import GoStrings Types.
Local Open Scope string_scope.

(** The tickets of a pool and of all pools in the order given. *)
Definition PoolTickets (q : pool) : list ticket :=
  match po_participants q with Some r => ro_tickets r | None => [] end.
Definition AllTickets (ps : list (string * pool)) : list ticket := concat (map (λ kv, PoolTickets kv.2) ps).
Definition NamedTickets (pools : gmap string pool) (n : string) : list ticket :=
  match pools !! n with Some q => PoolTickets q | None => [] end.

(** The match has exactly one roster, with these tickets. *)
Definition SingleRoster (m : match_) (l : list ticket) : Prop :=
  ∃ n, ma_rosters m = {[n := Roster n None l ∅]}.

(** The matches partition the first tickets into groups of [k]. *)
Definition FirstGroups (k : nat) (ts : list ticket) (ms : list match_) : Prop :=
  ∃ ls, Forall2 SingleRoster ms ls ∧ Forall (λ l, length l = k) ls ∧ length ls = length ts `div` k ∧
        concat ls = take (k * (length ts `div` k)) ts.

(** Team number [j] of the run: the j-th tank, the j-th healer and the next three
    damage dealers, all of them present. *)
Definition TeamNumber (tanks healers dps : list ticket) (j : nat) (l : list ticket) : Prop :=
  map Some l = [tanks !! j; healers !! j; dps !! (3 * j); dps !! (3 * j + 1); dps !! (3 * j + 2)].
Definition TeamMatch (tanks healers dps : list ticket) (k : nat) (m : match_) : Prop :=
  ∃ l1 l2, ma_rosters m = {["team01" := Roster "team01" None l1 ∅; "team02" := Roster "team02" None l2 ∅]} ∧
    TeamNumber tanks healers dps (2 * k) l1 ∧ TeamNumber tanks healers dps (2 * k + 1) l2.
