(** WatchAssignments, core/main.go:805-872, as a transition system: the handler,
    one polling goroutine per requested id, and the rest of the server changing
    the assignments.

    Simplifications: a poll that finds nothing changes nothing and is left out;
    the wall clock and the monotonic clock of the timer are the same; sending on
    the response stream always returns (its error is ignored at :864). *)
From Coq Require Import Ascii String ZArith NArith.
From stdpp Require Import prelude strings gmap.
From Verif.Model Require Import GoStrings Types ParseBase0.
Local Open Scope Z_scope.

(** time.Unix(x, 0) for an arbitrary int64: seconds since year 1 wrap around. *)
Definition unix_to_internal : Z := 62135596800.
Definition unix_time (x : Z) : instant := (wrap64 (x + unix_to_internal) - unix_to_internal) * giga.

(** time.Until at [now]: the difference clamped to a Duration. (Time.Add at :858
    clamps too, but only where the difference is clamped anyway.) *)
Definition max_duration : Z := 2 ^ 63 - 1.
Definition until (t now : instant) : Z := Z.max (- 2 ^ 63) (Z.min max_duration (t - now)).

(** :848-850 *)
Definition newer (newest t : instant) : instant := if newest <? t then t else newest.

(** A polling goroutine, :822-838: looking for an assignment, blocked in the send
    on updateChan, or finished. *)
Inductive poller := Polling | Sending (a : assignment) | Finished.

(** The handler: in the first loop with the ids still to start and the newest
    creation time, in the second loop with the number of answers received and the
    instant when the timer fires, or returned (the deferred close has run; [true]
    if because of the timer). *)
Inductive handler :=
| Launching (rest : list string) (newest : instant)
| Receiving (i : nat) (deadline : instant)
| Returned (timed_out : bool).

Record wstate := WState {
  w_clock : instant;
  w_assignments : gmap string assignment;   (* tc.Assignments *)
  w_handler : handler;
  w_pollers : list (string * poller);
  w_sent : list (string * assignment);      (* responses given to stream.Send *)
  w_gauge : Z;                              (* AssignmentWatches *)
  w_panic : bool                            (* the process has crashed *)
}.

(** The call begins at [now]; the gauge counts other watches too. *)
Definition w_init (ids : list string) (now : instant) (asg : gmap string assignment) (g : Z) : wstate :=
  WState now asg (Launching ids now) [] [] g false.

Inductive w_step (ttl : Z) (ids : list string) : wstate → wstate → Prop :=
| W_tick d s :
    w_panic s = false → 0 <= d →
    w_step ttl ids s
      (WState (w_clock s + d) (w_assignments s) (w_handler s) (w_pollers s) (w_sent s) (w_gauge s) false)
(* the replication goroutine stores and deletes assignments *)
| W_env asg s :
    w_panic s = false →
    w_step ttl ids s (WState (w_clock s) asg (w_handler s) (w_pollers s) (w_sent s) (w_gauge s) false)
(* :818-851, one id *)
| W_launch id rest newest s :
    w_panic s = false → w_handler s = Launching (id :: rest) newest →
    w_step ttl ids s
      (WState (w_clock s) (w_assignments s) (Launching rest (newer newest (unix_time (id_time0 id))))
         (w_pollers s ++ [(id, Polling)]) (w_sent s) (w_gauge s) false)
(* :852-859 *)
| W_begin newest s :
    w_panic s = false → w_handler s = Launching [] newest →
    w_step ttl ids s
      (WState (w_clock s) (w_assignments s)
         (Receiving 0 (w_clock s + Z.max 0 (until (newest + dur_secs ttl) (w_clock s))))
         (w_pollers s) (w_sent s) (w_gauge s + Z.of_nat (length ids)) false)
(* :824-825 *)
| W_load j id a s :
    w_panic s = false → w_pollers s !! j = Some (id, Polling) → w_assignments s !! id = Some a →
    w_step ttl ids s
      (WState (w_clock s) (w_assignments s) (w_handler s) (<[j := (id, Sending a)]> (w_pollers s))
         (w_sent s) (w_gauge s) false)
(* :828-832 meets :862-864 *)
| W_recv i dl j id a s :
    w_panic s = false → w_handler s = Receiving i dl → (i < length ids)%nat →
    w_pollers s !! j = Some (id, Sending a) →
    w_step ttl ids s
      (WState (w_clock s) (w_assignments s) (Receiving (S i) dl) (<[j := (id, Finished)]> (w_pollers s))
         (w_sent s ++ [(id, a)]) (w_gauge s - 1) false)
(* :871 *)
| W_return i dl s :
    w_panic s = false → w_handler s = Receiving i dl → (length ids <= i)%nat →
    w_step ttl ids s
      (WState (w_clock s) (w_assignments s) (Returned false) (w_pollers s) (w_sent s) (w_gauge s) false)
(* :865-867 *)
| W_timeout i dl s :
    w_panic s = false → w_handler s = Receiving i dl → (i < length ids)%nat → dl <= w_clock s →
    w_step ttl ids s
      (WState (w_clock s) (w_assignments s) (Returned true) (w_pollers s) (w_sent s)
         (w_gauge s + Z.of_nat (length ids - i)) false)
(* sending on the closed channel *)
| W_panics b j id a s :
    w_panic s = false → w_handler s = Returned b → w_pollers s !! j = Some (id, Sending a) →
    w_step ttl ids s
      (WState (w_clock s) (w_assignments s) (w_handler s) (w_pollers s) (w_sent s) (w_gauge s) true).
