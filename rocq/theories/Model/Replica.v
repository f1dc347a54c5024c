(** The life of one cache: the goroutine of IncomingReplicationQueue,
    core/internal/statestore/cache/replicatedticketcache.go:157-348, alternates
    between applying updates and running expiration cycles. How many updates are
    applied between two cycles depends on timing, so any interleaving is allowed. *)
From Coq Require Import Ascii String ZArith NArith.
From stdpp Require Import prelude strings gmap.
From Verif.Model Require Import GoStrings Types Proto Cache.

Inductive hev := HUpd (u : update) | HCycle (o : cycle_orders).

(** The updates among the events, in order. *)
Fixpoint hev_updates (es : list hev) : list update :=
  match es with
  | [] => []
  | HUpd u :: es' => u :: hev_updates es'
  | HCycle _ :: es' => hev_updates es'
  end.

Definition hev_step (cfg : config) (c : cache) (e : hev) : cache :=
  match e with HUpd u => apply_update c u | HCycle o => cycle cfg o c end.

Definition hev_run (cfg : config) (c : cache) (es : list hev) : cache := foldl (hev_step cfg) c es.

(** The Ranges of every cycle visit exactly what is in the maps at that time. *)
Fixpoint hev_fits (cfg : config) (c : cache) (es : list hev) : Prop :=
  match es with
  | [] => True
  | e :: es' =>
      match e with HUpd _ => True | HCycle o => orders_fit cfg o c end ∧
      hev_fits cfg (hev_step cfg c e) es'
  end.

(** All clock readings of a cycle. *)
Definition cycle_visits (o : cycle_orders) : list visit := v_inactive o ++ v_tickets o ++ v_assign o.

(** All clock readings of a run. *)
Fixpoint hev_visits (es : list hev) : list visit :=
  match es with
  | [] => []
  | HUpd _ :: es' => hev_visits es'
  | HCycle o :: es' => cycle_visits o ++ hev_visits es'
  end.

(** The single map operations of a run, in order (what concurrent readers can
    observe). *)
Fixpoint hev_ops (cfg : config) (c : cache) (es : list hev) : list mapop :=
  match es with
  | [] => []
  | e :: es' =>
      match e with HUpd u => update_ops u | HCycle o => cycle_ops cfg o c end ++
      hev_ops cfg (hev_step cfg c e) es'
  end.
