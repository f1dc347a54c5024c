(** Taking the snapshot of active tickets, core/main.go:391 with setDifference
    (:947-959) and syncMapDump (:932-939), while the replication goroutine
    (Model/Cache.v) keeps changing the maps.

    sync.Map.Range guarantees only that no key is visited more than once and that
    what it sees of a key is the mapping of that key at some point during the
    call. So a traversal is given by, for each key, the point at which that key
    is looked at; points are positions in the sequence of map operations. *)
From Coq Require Import Ascii String ZArith NArith.
From stdpp Require Import prelude strings gmap.
From Verif.Model Require Import GoStrings Types Proto Cache.

(** The cache after the first [i] operations. *)
Definition cache_at (c0 : cache) (ops : list mapop) (i : nat) : cache := apply_ops c0 (take i ops).

(** One call of setDifference: it begins before operation [sn_begin], has read the
    inactive set by [sn_mid] and ends by [sn_end]; the points at which each key of
    the two maps is looked at; the order in which the ticket ids are visited. *)
Record snapshot := Snapshot {
  sn_begin : nat; sn_mid : nat; sn_end : nat;
  sn_at_inactive : string → nat;
  sn_at_ticket : string → nat;
  sn_order : list string
}.

(** :948 syncMapDump: is the key in the dump of the inactive set? *)
Definition dumped (c0 : cache) (ops : list mapop) (s : snapshot) (k : string) : bool :=
  bool_decide (k ∈ c_inactive (cache_at c0 ops (sn_at_inactive s k))).

(** What the Range over the tickets sees under a key. *)
Definition seen_ticket (c0 : cache) (ops : list mapop) (s : snapshot) (k : string) : option ticket :=
  c_tickets (cache_at c0 ops (sn_at_ticket s k)) !! k.

(** The traversal respects the contract of Range. *)
Definition snapshot_ok (c0 : cache) (ops : list mapop) (s : snapshot) : Prop :=
  sn_begin s <= sn_mid s <= sn_end s ∧ sn_end s <= length ops ∧
  (∀ k, sn_begin s <= sn_at_inactive s k <= sn_mid s) ∧
  (∀ k, sn_mid s <= sn_at_ticket s k <= sn_end s) ∧
  NoDup (sn_order s) ∧
  (∀ k, k ∈ sn_order s ↔ is_Some (seen_ticket c0 ops s k)).

(** :950-957: the (key, ticket) pairs appended, in order. *)
Definition taken (c0 : cache) (ops : list mapop) (s : snapshot) : list (string * ticket) :=
  omap (λ k, if dumped c0 ops s k then None
             else match seen_ticket c0 ops s k with Some t => Some (k, t) | None => None end)
       (sn_order s).

(** The result: the tickets only. *)
Definition active_tickets (c0 : cache) (ops : list mapop) (s : snapshot) : list ticket :=
  (taken c0 ops s).*2.
