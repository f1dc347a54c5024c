(** The gauges of the cache: how the values of an expiration cycle reach a scrape of
    the metrics (replicatedticketcache.go:341-343; cache/metrics.go:94-106).

    The goroutine of the incoming queue assigns its tallies to three global variables,
    one after the other. A scrape calls the callback, which reads them one after the
    other, InactiveCount twice. Nothing orders the two (no lock, no atomics).

    Scrapes do not overlap: the SDK (otel v1.24.0, pipeline.produce) holds a lock. Reads
    and writes of the 64-bit variables are taken to be atomic and seen in the order in
    which they were done; Go promises this only without data races. *)
From Coq Require Import ZArith NArith.
From stdpp Require Import prelude.
Local Open Scope Z_scope.

(** The tallies of a cycle: numTickets, numInactive, numAssignments. *)
Record counts := Counts { n_tickets : Z; n_inactive : Z; n_assignments : Z }.

(** What a scrape reports: metrics.go:98-100. *)
Record report := Report { rp_active : Z; rp_inactive : Z; rp_assignments : Z }.

Inductive writer :=
| WIdle                  (* before :341 *)
| WTickets (c : counts)  (* before :342 *)
| WInactive (c : counts) (* before :343 *).
Inductive reader :=
| RIdle
| RTickets (t : Z)           (* TicketCount read, :98 *)
| RActive (t i : Z)          (* InactiveCount read, :98 *)
| RInactive (t i i' : Z).    (* InactiveCount read, :99 *)

Record gauges := Gauges {
  g_tickets : Z; g_inactive : Z; g_assignments : Z;
  g_w : writer; g_r : reader;
  g_cycles : list counts;    (* history: the tallies of the cycles *)
  g_reports : list report    (* what scrapes have reported *)
}.
Definition gauges0 : gauges := Gauges 0 0 0 WIdle RIdle [] [].

Inductive gstep : gauges → gauges → Prop :=
(* replicatedticketcache.go:341 *)
| G_assignments t i a r cs rs c :
    gstep (Gauges t i a WIdle r cs rs) (Gauges t i (n_assignments c) (WTickets c) r (cs ++ [c]) rs)
(* :342 *)
| G_tickets t i a r cs rs c :
    gstep (Gauges t i a (WTickets c) r cs rs) (Gauges (n_tickets c) i a (WInactive c) r cs rs)
(* :343 *)
| G_inactive t i a r cs rs c :
    gstep (Gauges t i a (WInactive c) r cs rs) (Gauges t (n_inactive c) a WIdle r cs rs)
(* metrics.go:98 *)
| G_read_tickets t i a w cs rs :
    gstep (Gauges t i a w RIdle cs rs) (Gauges t i a w (RTickets t) cs rs)
| G_read_inactive t i a w cs rs x :
    gstep (Gauges t i a w (RTickets x) cs rs) (Gauges t i a w (RActive x i) cs rs)
(* :99 *)
| G_read_inactive2 t i a w cs rs x y :
    gstep (Gauges t i a w (RActive x y) cs rs) (Gauges t i a w (RInactive x y i) cs rs)
(* :100 *)
| G_read_assignments t i a w cs rs x y z :
    gstep (Gauges t i a w (RInactive x y z) cs rs) (Gauges t i a w RIdle cs (rs ++ [Report (x - y) z a])).

Definition greach : gauges → Prop := rtc gstep gauges0.
