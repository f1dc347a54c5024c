(** The mock frontend of the example, as a transition system: Run
    (matchmaker-example/main.go:589-625) with its two goroutines, the goroutines of the
    players, the channel of ids between them, and the calls of activateTickets.

    Simplifications: clock readings and the durations of sleeps are exact, and everything
    else takes the time that passes between two steps; a call of CreateTicket that is made
    may be answered in any way at any later time; the random class of a player and
    float64(time) are arguments; log entries are left out. *)
From Coq Require Import Ascii String ZArith NArith.
From stdpp Require Import prelude strings gmap.
From Verif.Model Require Import GoStrings Types Matchmaker MockFrontend.
Local Open Scope Z_scope.

(** The goroutine of a player, :605-608: started; in CreateTicket with this ticket; with
    the id to be put in the channel; at the end. *)
Inductive player := PNew | PCreating (t : ticket) | PQueueing (id : string) | PQueued (id : string).

Record frontend := Frontend {
  fe_now : instant;
  fe_left : Z;                                  (* j, :600 *)
  fe_made : Z;                                  (* i, :601 *)
  fe_sleeps : option instant;                   (* :613, the end of the sleep *)
  fe_players : list (instant * player);         (* with the time at which they were started *)
  fe_act : astate;                              (* the current activateTickets, and the channel *)
  fe_rests : option instant;                    (* :622, the end of the sleep *)
  fe_old : list (list string * call_state)      (* the calls of earlier activateTickets *)
}.

(** newMockMatchmakerFrontend, :581-588, and :591-594, at time [t0]. *)
Definition fe_init (t0 : instant) (duration : Z) : frontend :=
  Frontend t0 duration 0 None [] (a_init []) None [].

Inductive fe_step (tps : Z) : frontend → frontend → Prop :=
| F_time d s : 0 ≤ d →
    fe_step tps s (Frontend (fe_now s + d) (fe_left s) (fe_made s) (fe_sleeps s) (fe_players s) (fe_act s) (fe_rests s) (fe_old s))
(* :600-608 *)
| F_start s : 0 < fe_left s → fe_sleeps s = None → fe_made s < tps →
    fe_step tps s (Frontend (fe_now s) (fe_left s) (fe_made s + 1) None (fe_players s ++ [(fe_now s, PNew)]) (fe_act s) (fe_rests s) (fe_old s))
(* :613 *)
| F_sleep s : 0 < fe_left s → fe_sleeps s = None → tps ≤ fe_made s →
    fe_step tps s (Frontend (fe_now s) (fe_left s) (fe_made s) (Some (fe_now s + giga)) (fe_players s) (fe_act s) (fe_rests s) (fe_old s))
| F_wake s w : fe_sleeps s = Some w → w ≤ fe_now s →
    fe_step tps s (Frontend (fe_now s) (fe_left s - 1) 0 None (fe_players s) (fe_act s) (fe_rests s) (fe_old s))
(* :607, generateMockClientRequest, then the call *)
| F_create s k t d r : fe_players s !! k = Some (t, PNew) → 0 ≤ r < 5 →
    fe_step tps s (Frontend (fe_now s) (fe_left s) (fe_made s) (fe_sleeps s)
      (<[k := (t, PCreating (mock_ticket (fe_now s) d r))]> (fe_players s)) (fe_act s) (fe_rests s) (fe_old s))
| F_answer s k t x reply : fe_players s !! k = Some (t, PCreating x) →
    fe_step tps s (Frontend (fe_now s) (fe_left s) (fe_made s) (fe_sleeps s)
      (<[k := (t, PQueueing (proxy_create reply))]> (fe_players s)) (fe_act s) (fe_rests s) (fe_old s))
(* :607, the send; it waits for room *)
| F_queue s k t id p q cur calls arr : fe_players s !! k = Some (t, PQueueing id) →
    fe_act s = AState p q cur calls arr → Z.of_nat (length q) < queue_cap →
    fe_step tps s (Frontend (fe_now s) (fe_left s) (fe_made s) (fe_sleeps s)
      (<[k := (t, PQueued id)]> (fe_players s)) (AState p (q ++ [id]) cur calls (arr ++ [id])) (fe_rests s) (fe_old s))
(* :621, a step inside activateTickets *)
| F_activate s a : a_step (fe_act s) a → a_arrived a = a_arrived (fe_act s) →
    fe_step tps s (Frontend (fe_now s) (fe_left s) (fe_made s) (fe_sleeps s) (fe_players s) a (fe_rests s) (fe_old s))
(* :622 *)
| F_rest s : a_phase_of (fe_act s) = AReturned → fe_rests s = None →
    fe_step tps s (Frontend (fe_now s) (fe_left s) (fe_made s) (fe_sleeps s) (fe_players s) (fe_act s) (Some (fe_now s + giga)) (fe_old s))
| F_again s w p q cur calls arr : fe_rests s = Some w → w ≤ fe_now s → fe_act s = AState p q cur calls arr →
    fe_step tps s (Frontend (fe_now s) (fe_left s) (fe_made s) (fe_sleeps s) (fe_players s) (AState ACollect q [] [] arr) None (fe_old s ++ calls))
(* calls that went on after their activateTickets had returned *)
| F_old_start s n b : fe_old s !! n = Some (b, CallNew) →
    fe_step tps s (Frontend (fe_now s) (fe_left s) (fe_made s) (fe_sleeps s) (fe_players s) (fe_act s) (fe_rests s) (<[n := (b, CallRunning)]> (fe_old s)))
| F_old_finish s n b : fe_old s !! n = Some (b, CallRunning) →
    fe_step tps s (Frontend (fe_now s) (fe_left s) (fe_made s) (fe_sleeps s) (fe_players s) (fe_act s) (fe_rests s) (<[n := (b, CallDone)]> (fe_old s))).
