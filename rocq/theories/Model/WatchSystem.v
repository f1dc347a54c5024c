(** A WatchAssignments call (Model/Watch.v) while the server it was made to runs
    (Model/System.v, Model/RedisSystem.v): the assignments that its goroutines
    poll (core/main.go:824) are those that the replication goroutine of the
    server stores and deletes.

    The expiration cycle is one step of the server but deletes assignments one by
    one (replicatedticketcache.go:325-338), so that a watch may find any part of the
    assignments of the moment ([AL_part]). *)
From Coq Require Import Ascii String ZArith NArith.
From stdpp Require Import prelude strings gmap.
From Verif.Model Require Import GoStrings Types Cache Watch.

(** The watch finds these assignments. *)
Definition sees (asg : gmap string assignment) (w : wstate) : wstate :=
  WState (w_clock w) asg (w_handler w) (w_pollers w) (w_sent w) (w_gauge w) (w_panic w).

Section alongside.
Context {St : Type} (step : St → St → Prop) (assignments : St → gmap string assignment).
Context (ttl : Z) (ids : list string).

Inductive along : St * wstate → St * wstate → Prop :=
| AL_server s s' w :
    w_panic w = false → step s s' → along (s, w) (s', sees (assignments s') w)
| AL_part s asg w :
    w_panic w = false → asg ⊆ assignments s → along (s, w) (s, sees asg w)
| AL_watch s w w' :
    w_step ttl ids w w' → w_assignments w' = w_assignments w → along (s, w) (s, w').
End alongside.
