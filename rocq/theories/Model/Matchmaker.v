(** The example matchmaker, matchmaker-example/main.go: activateTickets (:385-481) as
    a transition system, the control of the matchmaking loop (:187-377), the
    re-queueing of rejected tickets (:360-370), and the reading of HTTP responses
    (:288-334).

    Not modelled: the calls to om-core themselves, flags, logging, metrics, sleeps,
    the mock frontend (:525-707, see MockFrontend and MockRun): other goroutines may put
    ids in the queue at any time. *)
From Coq Require Import Ascii String ZArith NArith.
From stdpp Require Import prelude strings gmap.
From Verif.Model Require Import GoStrings Types Invoke.
Local Open Scope Z_scope.

(** maxActivationsPerCall, :100. *)
Definition max_activations : Z := 500.
(** The capacity of the queue, :189, :593. *)
Definition queue_cap : Z := 10000.

(** ** activateTickets *)

(** [ACollect]: in the inner loop, :396-408; [ASend]: at :411; [AWaiting]: in
    activationWg.Wait; [AReturned]. *)
Inductive a_phase := ACollect | ASend | AWaiting | AReturned.

(** The goroutine of a batch, :419-474. [CallNew]: before activationWg.Add;
    [CallRunning]: between Add and Done. *)
Inductive call_state := CallNew | CallRunning | CallDone.
Global Instance call_state_eq_dec : EqDecision call_state.
Proof. solve_decision. Defined.

Record astate := AState {
  a_phase_of : a_phase;
  a_queue : list string;                      (* ticketIdsToActivate *)
  a_cur : list string;                        (* ticketsAwaitingActivation *)
  a_calls : list (list string * call_state);  (* the calls made, in order *)
  a_arrived : list string                     (* all ids ever put in the queue *)
}.

Definition a_init (q : list string) : astate := AState ACollect q [] [] q.

Definition is_full (l : list string) : bool := Z.of_nat (length l) =? max_activations.

Inductive a_step : astate → astate → Prop :=
(* another goroutine puts an id in the queue *)
| A_arrive id p q cur calls arr :
    Z.of_nat (length q) < queue_cap →
    a_step (AState p q cur calls arr) (AState p (q ++ [id]) cur calls (arr ++ [id]))
(* :397-404; done becomes true when the batch is full *)
| A_recv id q cur calls arr :
    a_step (AState ACollect (id :: q) cur calls arr)
           (AState (if is_full (cur ++ [id]) then ASend else ACollect) q (cur ++ [id]) calls arr)
(* :405-406 *)
| A_default cur calls arr :
    a_step (AState ACollect [] cur calls arr) (AState ASend [] cur calls arr)
(* :411-475, then the loop condition :391 *)
| A_send q cur calls arr :
    cur ≠ [] →
    a_step (AState ASend q cur calls arr)
           (if is_full cur then AState ACollect q [] (calls ++ [(cur, CallNew)]) arr
            else AState AWaiting q cur (calls ++ [(cur, CallNew)]) arr)
| A_nothing q calls arr :
    a_step (AState ASend q [] calls arr) (AState AWaiting q [] calls arr)
(* :433 *)
| A_start n b p q cur calls arr :
    calls !! n = Some (b, CallNew) →
    a_step (AState p q cur calls arr) (AState p q cur (<[n := (b, CallRunning)]> calls) arr)
(* :434 *)
| A_finish n b p q cur calls arr :
    calls !! n = Some (b, CallRunning) →
    a_step (AState p q cur calls arr) (AState p q cur (<[n := (b, CallDone)]> calls) arr)
(* :479: the counter is the number of calls between Add and Done *)
| A_return q cur calls arr :
    Forall (λ c, c.2 ≠ CallRunning) calls →
    a_step (AState AWaiting q cur calls arr) (AState AReturned q cur calls arr).

(** ** The loop *)

(** :347-377 for the cycles from number [k] on, with [cycles] of them left
    (-cycles), [empty] the value of emptyCycles, [r i] the number of matches
    received in cycle [i]: the number of cycles executed. *)
Fixpoint mm_loop (ignore_empty : bool) (cycles : nat) (k : nat) (empty : nat) (r : nat → nat) : nat :=
  match cycles with
  | O => O
  | S c =>
      if (r k =? 0)%nat then
        if negb ignore_empty && (3 <=? empty)%nat then 1%nat
        else S (mm_loop ignore_empty c (S k) (S empty) r)
      else S (mm_loop ignore_empty c (S k) 0 r)
  end.

(** :360-370: the ids are put in the queue one after the other by the goroutine that
    will read it, and no other goroutine reads it. [None]: blocked for ever. *)
Fixpoint requeue (q : list string) (ids : list string) : option (list string) :=
  match ids with
  | [] => Some q
  | id :: ids => if Z.of_nat (length q) <? queue_cap then requeue (q ++ [id]) ids else None
  end.

(** ** HTTP responses *)

(** :312, msg[10:(len(msg) - 1)]; [None]: slice bounds out of range. *)
Definition trim_msg (msg : string) : option string :=
  if (String.length msg <? 11)%nat then None
  else Some (String.substring 10 (String.length msg - 11) msg).

(** :288-334: what is collected from the lines of a response (each a text that
    fmt.Fscanf has returned), where [parse] is
    protojson.Unmarshal into a StreamedMmfResponse (a failure is logged and leaves
    an empty message). [None]: panic. *)
Fixpoint http_matches (parse : string → option (option match_)) (lines : list string) : option (list (option match_)) :=
  match lines with
  | [] => Some []
  | l :: lines =>
      match trim_msg l with
      | None => None
      | Some t =>
          match http_matches parse lines with
          | None => None
          | Some ms => Some (match parse t with Some m => m | None => None end :: ms)
          end
      end
  end.
