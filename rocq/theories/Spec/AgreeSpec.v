(** When two instances should agree about an id. *)
From Coq Require Import String ZArith.
From stdpp Require Import prelude strings gmap.
From Verif.Model Require Import GoStrings Types Cache Replica System.
From Verif.Spec Require Import CacheSpec SystemSpec.

(** They have applied the same updates for [k], in the same order. *)
Definition SameFor {S S'} (k : string) (x : inst S) (y : inst S') : Prop :=
  filter (λ u, u_key u = k) (applied x) = filter (λ u, u_key u = k) (applied y).

(** An expiration cycle of [x] came to something for which [k] was too old ... *)
Definition MetOld {S} (limit : Z) (k : string) (x : inst S) : Prop :=
  ∃ v, v ∈ hev_visits (in_events x) ∧ OlderThan limit v.2 k.
(** ... or at a time at which the ticket [t] had expired. *)
Definition MetExpired {S} (t : ticket) (x : inst S) : Prop :=
  ∃ v, v ∈ hev_visits (in_events x) ∧ ExpiredAt v.2 t.
