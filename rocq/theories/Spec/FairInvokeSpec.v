(** Fair scheduling of the goroutines of an invocation alongside its server. *)
From Coq Require Import String.
From stdpp Require Import prelude strings gmap.
From Verif.Model Require Import Types System RedisSystem Invoke InvokeSystem.
From Verif.Spec Require Import InvokeSpec SystemSpec FairSpec.
Local Open Scope nat_scope.

Inductive inv_kind :=
| HandlerMoves        (* the handler goes on *)
| FnGoesOn (k : nat)  (* function [k] is connected to or not, its stream ends (at the latest by its
                         timeout), the wait for its matches ends *)
| MatchMoves (n : nat) (* the goroutine of match [n] goes on, or crashes the process *)
| FanMoves.           (* the fan-in goroutine goes on *)

Definition InvMoves (k : inv_kind) (v v' : istate) : Prop :=
  match k with
  | HandlerMoves => v_main v' ≠ v_main v
  | FnGoesOn k => ∃ x x', v_fns v !! k = Some x ∧ v_fns v' !! k = Some x' ∧ x'.2 ≠ x.2 ∧ ∀ i, x'.2 = FnStreaming i → x.2 = FnNew
  | MatchMoves n => ∃ g g', v_gors v !! n = Some g ∧ v_gors v' !! n = Some g' ∧
                      (g_phase_of g' ≠ g_phase_of g ∨ v_panic v' = true)
  | FanMoves => v_fan v' ≠ v_fan v
  end.

Definition FairInvocation {St} (step : isys St → isys St → Prop) (f : nat → isys St) : Prop :=
  ∀ k, FairTo step f (λ z z', InvMoves k (is_inv z) (is_inv z')).

(** The server it runs in, as in [FairMem] and [FairInst]. *)
Definition FairServerMem (cfg : config) (wait : bool) (f : nat → isys msys) : Prop :=
  ∀ k, FairTo (im_step cfg wait) f (λ z z', Moves k (ms_inst (is_server z)) (ms_inst (is_server z'))).
Definition FairServerRedis (cfg : config) (w : nat) (wait : bool) (f : nat → isys rsys) : Prop :=
  ∀ k, FairTo (ir_step cfg w wait) f (λ z z', InstMoves w k (is_server z) (is_server z')).

(** Nothing of the invocation is left: the handler has returned, and so have all the
    goroutines it started. *)
Definition Over (v : istate) : Prop :=
  v_returned v ∧ v_fan v = FanClosed ∧
  (∀ k x, v_fns v !! k = Some x → ∃ ok, x.2 = FnDone ok) ∧
  (∀ n g, v_gors v !! n = Some g → g_phase_of g = GDone).
