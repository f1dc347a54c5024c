(** Notions for WaitGroups. *)
From Coq Require Import Ascii String ZArith NArith.
From stdpp Require Import prelude strings relations.
From Verif.Model Require Import GoStrings Types Matchmaker WaitGroup.
From Verif.Spec Require Import MatchmakerSpec.

Definition c_later (s1 s2 : cstate) : Prop := rtc c_step s1 s2.
Definition b_later (s1 s2 : bstate) : Prop := rtc b_step s1 s2.

(** What of a state of activateTickets can be seen without looking into the
    WaitGroup. *)
Definition call_of (g : g_pc) : call_state :=
  match g with GNew => CallNew | GBusy => CallRunning | _ => CallDone end.
Definition outside (s : bstate) : astate :=
  AState (b_phase s) (b_queue s) (b_cur s) (map (λ c, (c.1, call_of c.2)) (b_calls s)) (b_arrived s).
