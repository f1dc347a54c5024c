(** The way of an update from the in-memory store into the cache, with its times:
    memoryReplicator.GetUpdates (core/internal/statestore/memory/main.go:48-70), the goroutine that
    calls it (core/internal/statestore/cache/replicatedticketcache.go:144-155) and the loop
    that applies updates (:158-348, [istep] of Timing.v).

    GetUpdates takes updates until its timer fires, and returns them only then. Time passes in the
    reading goroutine only while it waits for an update or for room in the channel. *)
From Coq Require Import ZArith.
From stdpp Require Import prelude strings gmap relations.
From Verif.Model Require Import GoStrings Types Cache MemRepl Queues Timing.
Local Open Scope Z_scope.

(** An update on its way; for the statement of properties, with the moment at which SendUpdates
    has handed it over (memory/main.go:88) and the number of those that are before it. *)
Record vitem := VItem { v_upd : update; v_at : instant; v_ahead : nat }.

(** In GetUpdates since [since], with what was taken; or putting updates into replStream
    (:150-152). *)
Inductive rphase := RPoll (since : instant) (out : list vitem) | RPut (out : list vitem).
Definition r_items (r : rphase) : list vitem := match r with RPoll _ out | RPut out => out end.

(** [vs_chan]: the updates in replStream, those of [is_chan vs_loop]. For the statement of
    properties: those applied, with the moment, and all that were handed over. *)
Record vstate := VState {
  vs_loop : istate;
  vs_reader : rphase;
  vs_chan : list vitem;
  vs_done : list (vitem * instant);
  vs_all : list vitem
}.
Definition v_init (t : instant) : vstate := VState (i_init t) (RPoll t []) [] [] [].

(** Until when, and with how many updates in the channel, the reading goroutine waits; the channel
    has room for [cap] updates (:144, OM_CACHE_IN_MAX_UPDATES_PER_POLL). *)
Definition r_waits (p : iparams) (cap : nat) (r : rphase) (i' : istate) : Prop :=
  match r with
  | RPoll since _ => is_now i' <= since + ip_wait p
  | RPut [] => False
  | RPut (_ :: _) => (cap <= length (is_chan i'))%nat
  end.

Inductive vstep (cfg : config) (p : iparams) (cap : nat) : vstate → vstate → Prop :=
(** memory/main.go:62-63 *)
| VTake u i since out ch dn al :
    let x := VItem u (is_now i) (length ch + length out) in
    vstep cfg p cap (VState i (RPoll since out) ch dn al) (VState i (RPoll since (out ++ [x])) ch dn (al ++ [x]))
(** memory/main.go:64-65 *)
| VFire i since out ch dn al :
    since + ip_wait p <= is_now i →
    vstep cfg p cap (VState i (RPoll since out) ch dn al) (VState i (RPut out) ch dn al)
(** :151 *)
| VPut i i' x out ch dn al :
    (length ch < cap)%nat → istep cfg p i i' → is_chan i' = is_chan i ++ [v_upd x] → is_now i' = is_now i →
    vstep cfg p cap (VState i (RPut (x :: out)) ch dn al) (VState i' (RPut out) (ch ++ [x]) dn al)
(** :149 *)
| VNext i ch dn al :
    vstep cfg p cap (VState i (RPut []) ch dn al) (VState i (RPoll (is_now i) []) ch dn al)
(** A step of the loop that applies an update, *)
| VApply i i' r x ch dn al :
    istep cfg p i i' → is_chan i = v_upd x :: is_chan i' →
    vstep cfg p cap (VState i r (x :: ch) dn al) (VState i' r ch (dn ++ [(x, is_now i')]) al)
(** or does not. *)
| VLoop i i' r ch dn al :
    istep cfg p i i' → is_chan i' = is_chan i → (is_now i < is_now i' → r_waits p cap r i') →
    vstep cfg p cap (VState i r ch dn al) (VState i' r ch dn al).
