(** Notions for invocations of matchmaking functions. *)
From Coq Require Import Ascii String ZArith NArith.
From stdpp Require Import prelude strings gmap.
From Verif.Model Require Import GoStrings Types Invoke.
Local Open Scope Z_scope.

Definition v_later (wait : bool) (s1 s2 : istate) : Prop := rtc (v_step wait) s1 s2.

(** The [n]-th match received in this invocation: it came from function [k]. *)
Definition ReceivedAs (s : istate) (n k : nat) (m : option match_) : Prop :=
  ∃ g, v_gors s !! n = Some g ∧ g_fn g = k ∧ g_match g = m.

(** A ticket with this id is in some roster of the match. *)
Definition TicketIn (m : option match_) (id : string) : Prop :=
  ∃ m' rn r t, m = Some m' ∧ ma_rosters m' !! rn = Some r ∧ t ∈ ro_tickets r ∧ tk_id t = id.

Definition v_returned (s : istate) : Prop := ∃ e, v_main s = InvReturned e.

(** Function [k] returned normally or failed. *)
Definition FnFinished (s : istate) (k : nat) : Prop := ∃ ty, v_fns s !! k = Some (ty, FnDone true).
Definition FnFailed (s : istate) (k : nat) : Prop := ∃ ty, v_fns s !! k = Some (ty, FnDone false).
Definition AllFinished (s : istate) : Prop := ∀ k, (k < length (v_fns s))%nat → FnFinished s k.

(** The function has ended its stream normally. *)
Definition ended (s : istate) (k : nat) : bool :=
  match v_fns s !! k with Some (_, FnWaiting) | Some (_, FnDone true) => true | _ => false end.
