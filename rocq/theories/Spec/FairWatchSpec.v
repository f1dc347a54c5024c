(** Fair scheduling of the goroutines of a watch alongside its server. *)
From Coq Require Import String ZArith.
From stdpp Require Import prelude strings gmap.
From Verif.Model Require Import Types Replica System RedisSystem Watch WatchSystem.
From Verif.Spec Require Import RedisSpec SystemSpec AssignSpec AgreeSpec FairSpec.
Local Open Scope nat_scope.

Inductive watch_kind :=
| WatchGoesOn          (* the handler goes on *)
| PollerGoesOn (j : nat). (* polling goroutine [j] finds an assignment, or hands one over *)

Definition WatchMoves (k : watch_kind) (w w' : wstate) : Prop :=
  match k with
  | WatchGoesOn => w_handler w' ≠ w_handler w
  | PollerGoesOn j => ∃ p p', w_pollers w !! j = Some p ∧ w_pollers w' !! j = Some p' ∧ p' ≠ p
  end.

Section watch.
Context {St : Type} (step : St * wstate → St * wstate → Prop) (f : nat → St * wstate).

Definition FairWatch : Prop := ∀ k, FairTo step f (λ z z', WatchMoves k z.2 z'.2).

(** The clock passes every instant. *)
Definition TimePasses : Prop := ∀ t, ∃ n, ∀ m, n <= m → (t <= w_clock (f m).2)%Z.
End watch.

(** The server, as in [FairMem] and [FairInst]. *)
Definition FairBesideMem (step : msys * wstate → msys * wstate → Prop) (f : nat → msys * wstate) : Prop :=
  ∀ k, FairTo step f (λ z z', Moves k (ms_inst z.1) (ms_inst z'.1)).
Definition FairBesideInst (cfg : config) (n : nat) (step : rsys * wstate → rsys * wstate → Prop) (f : nat → rsys * wstate) : Prop :=
  (∀ k, FairTo step f (λ z z', InstMoves n k z.1 z'.1)) ∧ FairTo step f (λ z z', PollAnswered cfg n z.1 z'.1).

(** A call that gives an assignment to [k] was made to instance [n] and told that
    everything went well. *)
Definition ToldAssigned (s : rsys) (n : nat) (k : string) : Prop :=
  ∃ x i c a, ry_insts s !! n = Some x ∧ AllSendable x ∧ in_calls (rx_inst x) !! i = Some c ∧ AssignCall c a k ∧ AllGood c.

(** An expiration cycle of the server has found [k] old enough to delete its assignment. *)
Definition MemForgot (cfg : config) (k : string) (s : msys) : Prop :=
  MetOld (cfg_ticket_ttl cfg + cfg_assign_ttl cfg) k (ms_inst s).
Definition RedForgot (cfg : config) (n : nat) (k : string) (s : rsys) : Prop :=
  ∃ x, ry_insts s !! n = Some x ∧ MetOld (cfg_ticket_ttl cfg + cfg_assign_ttl cfg) k (rx_inst x).
