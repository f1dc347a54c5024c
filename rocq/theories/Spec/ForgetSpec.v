(** What "the cache forgets what is old" means. *)
From Coq Require Import Ascii String ZArith NArith.
From stdpp Require Import prelude strings gmap.
From Verif.Model Require Import GoStrings Types Cache Replica.
From Verif.Spec Require Import CacheSpec.
Local Open Scope Z_scope.

(** A cycle that runs, from its first clock reading on, more than both
    retention times after [T]. *)
Definition LongAfter (cfg : config) (T : instant) (o : cycle_orders) : Prop :=
  ∀ v, v ∈ cycle_visits o → T + (cfg_ticket_ttl cfg + cfg_assign_ttl cfg + 1) * giga <= v.2.

(** The tickets announced under [k] expire in time. *)
Definition InTime (cfg : config) (us : list update) (k : string) : Prop :=
  ∀ v, v ∈ tickets_for k us → ExpiresInTime (cfg_ticket_ttl cfg) k (stored_ticket k v).

(** The number in an id is not later than [T]: true of every id the store
    issued up to [T]. *)
Definition IssuedBy (T : instant) (k : string) : Prop := id_time k <= unix_secs T.

(** Nothing is left of [k]. *)
Definition Forgotten (c : cache) (k : string) : Prop :=
  k ∉ c_inactive c ∧ c_tickets c !! k = None ∧ c_assign c !! k = None.
