(** Vocabulary for C140: the mock frontend of the example. *)
From Coq Require Import Ascii String ZArith NArith.
From stdpp Require Import prelude strings gmap.
From Verif.Model Require Import GoStrings Types Matchmaker MockRun.
From Verif.Spec Require Import FairSpec.
Local Open Scope Z_scope.

Definition fe_reach (t0 : instant) (dur tps : Z) (s : frontend) : Prop := rtc (fe_step tps) (fe_init t0 dur) s.

(** The tickets to be made: [tps] in each of [dur] seconds; none if one of them is negative. *)
Definition Wanted (dur tps : Z) : Z := Z.max 0 dur * Z.max 0 tps.

(** The times at which players were started. *)
Definition starts (s : frontend) : list instant := (fe_players s).*1.

(** The creation times of the tickets in calls under way. *)
Definition creating (s : frontend) : list instant :=
  omap (λ p : instant * player,
    match p.2 with PCreating x => Some (as_time (tk_attrs x ≫= fd_ctime)) | _ => None end) (fe_players s).

(** How many of these times are in the [len] nanoseconds from [t] on. *)
Definition Within (t len : Z) (l : list instant) : nat := length (filter (λ x, t ≤ x < t + len) l).

(** The ids the players have put in the channel. *)
Definition queued_ids (s : frontend) : list string :=
  omap (λ p : instant * player, match p.2 with PQueued id => Some id | _ => None end) (fe_players s).

(** All activation calls, in the order in which they were made. *)
Definition calls_made (s : frontend) : list (list string * call_state) := (fe_old s ++ a_calls (fe_act s))%list.
(** The ids sent for activation. *)
Definition activated_ids (s : frontend) : list string := concat (calls_made s).*1.

(** Everything has been done. *)
Definition AllDone (dur tps : Z) (s : frontend) : Prop :=
  Z.of_nat (length (fe_players s)) = Wanted dur tps ∧
  Forall (λ p : instant * player, ∃ id, p.2 = PQueued id) (fe_players s) ∧
  activated_ids s ≡ₚ queued_ids s ∧
  Forall (λ c : list string * call_state, c.2 = CallDone) (calls_made s).

(** ** Fair executions *)
Inductive fe_kind :=
| ClockMoves                 (* a second passes *)
| GeneratorMoves             (* the goroutine of :599-615 does something *)
| PlayerMoves (k : nat)      (* player [k] does something, or its call is answered *)
| ActivatorMoves             (* the goroutine of :618-624 does something *)
| CallMoves (n : nat).       (* the [n]th activation call begins or ends *)

Definition FeMoves (x : fe_kind) (s s' : frontend) : Prop :=
  match x with
  | ClockMoves => fe_now s + giga ≤ fe_now s'
  | GeneratorMoves => (fe_left s', fe_made s', fe_sleeps s') ≠ (fe_left s, fe_made s, fe_sleeps s)
  | PlayerMoves k => ∃ p p', fe_players s !! k = Some p ∧ fe_players s' !! k = Some p' ∧ p' ≠ p
  | ActivatorMoves => (a_phase_of (fe_act s'), a_cur (fe_act s'), fe_rests s') ≠ (a_phase_of (fe_act s), a_cur (fe_act s), fe_rests s)
  | CallMoves n => ∃ c c', calls_made s !! n = Some c ∧ calls_made s' !! n = Some c' ∧ c' ≠ c
  end.

Definition FairFrontend (tps : Z) (f : nat → frontend) : Prop := ∀ x, FairTo (fe_step tps) f (FeMoves x).
