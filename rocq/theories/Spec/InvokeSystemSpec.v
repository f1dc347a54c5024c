(** Notions for invocations alongside the server they run in. *)
From Coq Require Import String.
From stdpp Require Import prelude strings gmap.
From Verif.Model Require Import Types System RedisSystem Invoke InvokeSystem.
From Verif.Spec Require Import InvokeSpec SystemSpec.

(** Between [z1] and [z2] a function returned a match with this ticket, and the
    match was sent on to the caller. *)
Definition HandedOut {St} (z1 z2 : isys St) (id : string) : Prop :=
  ∃ n k m, length (v_gors (is_inv z1)) <= n ∧ ReceivedAs (is_inv z2) n k m ∧ n ∈ v_streamed (is_inv z2) ∧ TicketIn m id.

(** The deactivations of this invocation (at instance [w]) have been stored, as far
    as they were answered. *)
Definition DeactivationsStored (w : nat) (z : isys rsys) : Prop :=
  ∀ n j c r, is_calls z !! n = Some j → red_calls w (is_server z) !! j = Some c → r ∈ cl_got c → Good r.
