(** What a matchmaking function should receive. *)
From Coq Require Import Ascii String ZArith NArith.
From stdpp Require Import prelude strings gmap.
From Verif.Model Require Import GoStrings Types Filter Chunk.
Local Open Scope Z_scope.

(** The ticket belongs into the pool with this name: the profile has such a pool,
    its filters are valid, and the ticket passes them (see C01-C04 for what
    [pool_valid] and [filter_in] mean). *)
Definition Eligible (p : profile) (n : string) (t : ticket) : Prop :=
  ∃ q, pr_pools p !! n = Some q ∧ pool_valid q = true ∧ filter_in (Some q) (tk_attrs t) = Done true.

Global Instance outcome_dec {A} `{EqDecision A} : EqDecision (outcome A).
Proof. solve_decision. Defined.
Global Instance Eligible_dec p n t : Decision (Eligible p n t).
Proof.
  unfold Eligible. destruct (pr_pools p !! n) as [q|]; [|right; by intros (q & ? & _)].
  destruct (decide (pool_valid q = true ∧ filter_in (Some q) (tk_attrs t) = Done true)) as [[H1 H2]|H].
  - left. by exists q.
  - right. intros (q' & [= <-] & H1 & H2). by apply H.
Defined.

Global Instance received_dec : EqDecision received.
Proof. solve_decision. Defined.

(** The names of the pools with valid filters. *)
Definition ValidName (p : profile) (n : string) : Prop :=
  ∃ q, pr_pools p !! n = Some q ∧ pool_valid q = true.

(** For every ticket the names that the code takes for those of valid pools are
    visited in some order. (That these are the names with [ValidName] is part of
    what is proved.) *)
Definition NamesFit (p : profile) (ts : list (ticket * list string)) : Prop :=
  ∀ t ns, (t, ns) ∈ ts → pool_order p ns.

(** No ticket makes the filters of a valid pool panic (C05). *)
Definition NoFilterPanic (p : profile) (ts : list ticket) : Prop :=
  ∀ t n q, t ∈ ts → pr_pools p !! n = Some q → pool_valid q = true → filter_in (Some q) (tk_attrs t) ≠ Panic.

(** Sum over all tickets of all rosters. *)
Definition weight (f : ticket → Z) (r : rosters) : Z :=
  map_fold (λ _ ts acc, foldr (λ t a, f t + a) 0 ts + acc) 0 r.
(** Number of ticket entries. *)
Definition entries : rosters → Z := weight (λ _, 1).

(** Extra bytes a request needs beyond the empty profile and its tickets: at most
    five bytes per ticket, and for each pool the name twice plus fixed costs. *)
Definition names_cost {A} (m : gmap string A) : Z :=
  map_fold (λ n _ acc, 2 * Z.of_nat (String.length n) + 62 + acc) 0 m.
Definition overhead (r : rosters) : Z := 9 + 5 * entries r + names_cost r.

(** gRPC's default maximum message size. *)
Definition grpc_max : Z := 4 * 1024 * 1024.
