(** What a scrape of the gauges should report. *)
From Coq Require Import ZArith NArith.
From stdpp Require Import prelude.
From Verif.Model Require Import Scrape.
Local Open Scope Z_scope.

(** The tallies of the k-th cycle; before the first they are 0. *)
Definition cycle (cs : list counts) (k : nat) : counts := nth k (Counts 0 0 0 :: cs) (Counts 0 0 0).

(** The report of one cycle. *)
Definition ReportOf (c : counts) : report := Report (n_tickets c - n_inactive c) (n_inactive c) (n_assignments c).

(** The full claims: a scrape reports one cycle; it never reports a negative number of
    tickets, if no cycle has seen more inactive ids than tickets; and nobody reads a
    variable that somebody else is about to write. *)
Definition ReportsOneCycle : Prop := ∀ s o, greach s → o ∈ g_reports s →
  ∃ k, (k ≤ length (g_cycles s))%nat ∧ o = ReportOf (cycle (g_cycles s) k).
Definition ReportsNotNegative : Prop := ∀ s o, greach s → o ∈ g_reports s →
  (∀ c, c ∈ g_cycles s → 0 <= n_inactive c <= n_tickets c) → 0 <= rp_active o.

Inductive gvar := VTickets | VInactive | VAssignments.
Definition AboutToWrite (s : gauges) : gvar :=
  match g_w s with WIdle => VAssignments | WTickets _ => VTickets | WInactive _ => VInactive end.
Definition AboutToRead (s : gauges) : gvar :=
  match g_r s with RIdle => VTickets | RTickets _ => VInactive | RActive _ _ => VInactive | RInactive _ _ _ => VAssignments end.
Definition NoRace : Prop := ∀ s, greach s → AboutToWrite s ≠ AboutToRead s.

(** The report [o] mixes cycles that are at most one apart where the later variable is
    behind, and any number apart where the cycles went on during the scrape. *)
Definition Mixed (cs : list counts) (o : report) : Prop := ∃ a b b' c : nat,
  (a ≤ S b ∧ b ≤ b' ∧ b' ≤ c ∧ a ≤ c ∧ c ≤ length cs)%nat ∧
  o = Report (n_tickets (cycle cs a) - n_inactive (cycle cs b)) (n_inactive (cycle cs b')) (n_assignments (cycle cs c)).
