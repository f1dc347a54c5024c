(** Infinite executions and fair scheduling of the goroutines of an instance. *)
From Coq Require Import Ascii String ZArith NArith.
From stdpp Require Import prelude strings gmap.
From Verif.Model Require Import GoStrings Types Cache Replica Handlers System RedisRepl RedisSystem.
From Verif.Spec Require Import SystemSpec.
Local Open Scope nat_scope.

Definition Execution {St} (step : St → St → Prop) (f : nat → St) : Prop := ∀ n, step (f n) (f (S n)).

(** The steps in [A] are treated fairly: they are taken again and again, or there
    comes a time after which they are never possible. *)
Definition FairTo {St} (step : St → St → Prop) (f : nat → St) (A : St → St → Prop) : Prop :=
  ∀ n, (∃ m, n <= m ∧ A (f m) (f (S m))) ∨ (∃ k, ∀ m s, k <= m → step (f m) s → ¬ A (f m) s).

(** The kinds of steps that an instance is to take again and again as long as they
    are possible again and again. *)
Inductive kind :=
| QueueMoves        (* the goroutine of OutgoingReplicationQueue does something *)
| PollerMoves       (* the goroutine that calls GetUpdates does something *)
| PollEnds          (* a call of GetUpdates ends *)
| UpdateApplied     (* an update is taken from replStream and applied *)
| CycleEnds         (* an expiration cycle ends *)
| CallMoves (i : nat). (* the handler of call [i] sends an update or receives a result *)

Definition Moves {S} (k : kind) (x x' : inst S) : Prop :=
  match k with
  | QueueMoves => in_out x' ≠ in_out x
  | PollerMoves => in_poll x' ≠ in_poll x
  | PollEnds => (∃ l, in_poll x = PGet l) ∧ ∃ l, in_poll x' = PPush l
  | UpdateApplied => applied x' ≠ applied x
  | CycleEnds => in_expiring x = true ∧ in_expiring x' = false
  | CallMoves i => ∃ c c', in_calls x !! i = Some c ∧ in_calls x' !! i = Some c' ∧
                     (cl_sent c' ≠ cl_sent c ∨ cl_got c' ≠ cl_got c)
  end.

(** One instance with the in-memory store. *)
Definition FairMem (cfg : config) (f : nat → msys) : Prop :=
  ∀ k, FairTo (mstep cfg) f (λ s s', Moves k (ms_inst s) (ms_inst s')).

(** Instance [n] of several on one Redis stream. *)
Definition InstMoves (n : nat) (k : kind) (s s' : rsys) : Prop :=
  ∃ x x', ry_insts s !! n = Some x ∧ ry_insts s' !! n = Some x' ∧ Moves k (rx_inst x) (rx_inst x').

(** A poll of instance [n] is answered by Redis. *)
Definition PollAnswered (cfg : config) (n : nat) (s s' : rsys) : Prop :=
  ∃ x, ry_insts s !! n = Some x ∧ in_poll (rx_inst x) = PGet [] ∧
       ry_insts s' !! n = Some (poll_redis cfg (ry_stream s) true x).

Definition FairInst (cfg : config) (n : nat) (f : nat → rsys) : Prop :=
  ∀ k, FairTo (ystep cfg) f (InstMoves n k).
