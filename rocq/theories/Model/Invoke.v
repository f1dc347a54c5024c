(** InvokeMatchmakingFunctions, core/main.go:366-724, from the fan-in goroutine on
    (:474-723), as a transition system: the handler, the fan-in goroutine, one
    goroutine per function, one goroutine per match received, the state store that
    answers updates, and the replication goroutine that changes the inactive set.
    The first half of the handler is in Snapshot.v and Chunk.v.

    What a function does is up to the environment: it may refuse the connection,
    stream any matches, end its stream or fail at any point (timeouts included).

    Simplifications: sending the request chunks to a function always returns (its
    error is ignored at :577) and changes nothing here; updateTicketsActiveState
    goes on when all its updates have been answered, whatever the answers (errors
    are only logged, :640-642); time does not appear, so a sleep may last any
    time. *)
From Coq Require Import Ascii String ZArith NArith.
From stdpp Require Import prelude strings gmap.
From Verif.Model Require Import GoStrings Types.
Local Open Scope Z_scope.

(** ** Validation, :369-374 *)

(** [prof] and [mmfs] are req.GetProfile() and req.GetMmfs(); a list read off the
    wire is nil exactly if it is empty. *)
Definition invoke_rejects (prof : option profile) (mmfs : nat) : option code :=
  match prof with
  | None => Some InvalidArgument
  | Some _ => if (mmfs =? 0)%nat then Some InvalidArgument else None
  end.

(** ** Goroutines *)

(** MatchmakingFunctionSpec_Type. *)
Inductive fn_type := FnGrpc | FnRest.

(** The goroutine of a function, :521-714. [FnStreaming i]: in the receive loop with
    loop variable i; [FnWaiting]: in tdwg.Wait; [FnDone ok]: returned, with an error
    if not [ok]. *)
Inductive fn_state := FnNew | FnStreaming (i : Z) | FnWaiting | FnDone (ok : bool).

(** The goroutine of a match, :626-690. [GRequest rest]: in
    updateTicketsActiveState with the ids still to send; [GCheck]: in the check
    before sending the match; [GSend]: blocked in the send on matchChan;
    [GCheckAfter]: in the check after that; [GDone]: finished. *)
Inductive g_phase := GRequest (rest : list string) | GCheck | GSend | GCheckAfter | GDone.

(** [g_match] is the received match, nil if the response had none. *)
Record gor := Gor { g_fn : nat; g_match : option match_; g_ids : list string; g_phase_of : g_phase }.
Definition set_phase (g : gor) (p : g_phase) : gor := Gor (g_fn g) (g_match g) (g_ids g) p.

(** :630-635: the ids of all tickets, for some order of the rosters. *)
Definition ids_of_match (m : option match_) (ids : list string) : Prop :=
  match m with
  | None => ids = []
  | Some m => ∃ l, l ≡ₚ map_to_list (ma_rosters m) ∧ ids = concat (map (λ kv, map tk_id (ro_tickets kv.2)) l)
  end.

(** The fan-in goroutine, :485-500: in the select, in stream.Send, or returned with
    matchChan closed. *)
Inductive fan_state := FanIdle | FanSending (g : nat) | FanClosed.

(** The handler: starting the functions, in mmfwg.Wait, after close(waitChan), or
    returned. It returns nil (:723). *)
Inductive inv_main := InvLaunching (rest : list fn_type) | InvWaiting | InvClosed | InvReturned (err : option code).

Record istate := IState {
  v_main : inv_main;
  v_fan : fan_state;
  v_fns : list (fn_type * fn_state);
  v_gors : list gor;
  v_pending : list (nat * string);    (* deactivations sent and not answered: goroutine, id *)
  v_answered : list (nat * string);   (* deactivations answered *)
  v_streamed : list nat;              (* goroutines whose match was sent before the handler returned *)
  v_lost : list nat;                  (* the same, after the handler returned: not delivered *)
  v_inactive : gset string;           (* tc.InactiveSet *)
  v_counted : Z;                      (* what was added to the counter Matches *)
  v_panic : bool
}.

Definition v_init (fns : list fn_type) (ina : gset string) : istate :=
  IState (InvLaunching fns) FanIdle [] [] [] [] [] [] ina 0 false.

(** Updates of single fields. *)
Definition with_main (s : istate) x := IState x (v_fan s) (v_fns s) (v_gors s) (v_pending s) (v_answered s)
  (v_streamed s) (v_lost s) (v_inactive s) (v_counted s) (v_panic s).
Definition with_fan (s : istate) x := IState (v_main s) x (v_fns s) (v_gors s) (v_pending s) (v_answered s)
  (v_streamed s) (v_lost s) (v_inactive s) (v_counted s) (v_panic s).
Definition with_fns (s : istate) x := IState (v_main s) (v_fan s) x (v_gors s) (v_pending s) (v_answered s)
  (v_streamed s) (v_lost s) (v_inactive s) (v_counted s) (v_panic s).
Definition with_gors (s : istate) x := IState (v_main s) (v_fan s) (v_fns s) x (v_pending s) (v_answered s)
  (v_streamed s) (v_lost s) (v_inactive s) (v_counted s) (v_panic s).
Definition with_pending (s : istate) x := IState (v_main s) (v_fan s) (v_fns s) (v_gors s) x (v_answered s)
  (v_streamed s) (v_lost s) (v_inactive s) (v_counted s) (v_panic s).
Definition with_answered (s : istate) x := IState (v_main s) (v_fan s) (v_fns s) (v_gors s) (v_pending s) x
  (v_streamed s) (v_lost s) (v_inactive s) (v_counted s) (v_panic s).
Definition with_streamed (s : istate) x := IState (v_main s) (v_fan s) (v_fns s) (v_gors s) (v_pending s) (v_answered s)
  x (v_lost s) (v_inactive s) (v_counted s) (v_panic s).
Definition with_lost (s : istate) x := IState (v_main s) (v_fan s) (v_fns s) (v_gors s) (v_pending s) (v_answered s)
  (v_streamed s) x (v_inactive s) (v_counted s) (v_panic s).
Definition with_inactive (s : istate) x := IState (v_main s) (v_fan s) (v_fns s) (v_gors s) (v_pending s) (v_answered s)
  (v_streamed s) (v_lost s) x (v_counted s) (v_panic s).
Definition with_counted (s : istate) x := IState (v_main s) (v_fan s) (v_fns s) (v_gors s) (v_pending s) (v_answered s)
  (v_streamed s) (v_lost s) (v_inactive s) x (v_panic s).
Definition crash (s : istate) := IState (v_main s) (v_fan s) (v_fns s) (v_gors s) (v_pending s) (v_answered s)
  (v_streamed s) (v_lost s) (v_inactive s) (v_counted s) true.

Definition set_fn (s : istate) (k : nat) (ty : fn_type) (x : fn_state) : istate := with_fns s (<[k := (ty, x)]> (v_fns s)).
Definition set_gor (s : istate) (n : nat) (g : gor) (p : g_phase) : istate := with_gors s (<[n := set_phase g p]> (v_gors s)).

(** [wait] is OM_MATCH_TICKET_DEACTIVATION_WAIT. *)
Inductive v_step (wait : bool) : istate → istate → Prop :=
(* the replication goroutine *)
| V_env ina s : v_panic s = false → v_step wait s (with_inactive s ina)
(* :514-521 *)
| V_launch ty rest s :
    v_panic s = false → v_main s = InvLaunching (ty :: rest) →
    v_step wait s (with_main (with_fns s (v_fns s ++ [(ty, FnNew)])) (InvLaunching rest))
| V_launched s :
    v_panic s = false → v_main s = InvLaunching [] → v_step wait s (with_main s InvWaiting)
(* :532-536 and :709-713 *)
| V_rest k s :
    v_panic s = false → v_fns s !! k = Some (FnRest, FnNew) → v_step wait s (set_fn s k FnRest (FnDone false))
(* :547-551, :567-570 *)
| V_no_connection k s :
    v_panic s = false → v_fns s !! k = Some (FnGrpc, FnNew) → v_step wait s (set_fn s k FnGrpc (FnDone false))
| V_run k s :
    v_panic s = false → v_fns s !! k = Some (FnGrpc, FnNew) → v_step wait s (set_fn s k FnGrpc (FnStreaming 1))
(* :592-626: a match arrives *)
| V_recv k i m ids s :
    v_panic s = false → v_fns s !! k = Some (FnGrpc, FnStreaming i) → ids_of_match m ids →
    v_step wait s (with_gors (set_fn s k FnGrpc (FnStreaming (i + 1))) (v_gors s ++ [Gor k m ids (GRequest ids)]))
(* :600-603: the function fails *)
| V_fail k i s :
    v_panic s = false → v_fns s !! k = Some (FnGrpc, FnStreaming i) → v_step wait s (set_fn s k FnGrpc (FnDone false))
(* :596-599, :700: the function ends its stream *)
| V_eof k i s :
    v_panic s = false → v_fns s !! k = Some (FnGrpc, FnStreaming i) →
    v_step wait s (with_counted (set_fn s k FnGrpc FnWaiting) (v_counted s + i))
(* :703, :713 *)
| V_fn_done k s :
    v_panic s = false → v_fns s !! k = Some (FnGrpc, FnWaiting) →
    Forall (λ g, g_fn g = k → g_phase_of g = GDone) (v_gors s) →
    v_step wait s (set_fn s k FnGrpc (FnDone true))
(* :252-270: one deactivation is queued *)
| V_request n g id rest s :
    v_panic s = false → v_gors s !! n = Some g → g_phase_of g = GRequest (id :: rest) →
    v_step wait s (with_pending (set_gor s n g (GRequest rest)) (v_pending s ++ [(n, id)]))
(* the store answers any deactivation *)
| V_answer n id l1 l2 s :
    v_panic s = false → v_pending s = (l1 ++ (n, id) :: l2)%list →
    v_step wait s (with_answered (with_pending s (l1 ++ l2)%list) (v_answered s ++ [(n, id)]))
(* :273-283: all answers are in; :671 *)
| V_answered n g s :
    v_panic s = false → v_gors s !! n = Some g → g_phase_of g = GRequest [] →
    n ∉ (v_pending s).*1 →
    v_step wait s (set_gor s n g (if wait then GCheck else GSend))
(* :672, :686: index out of range, or one look at the inactive set, whose outcome is only logged *)
| V_check_panics n g s :
    v_panic s = false → v_gors s !! n = Some g → g_phase_of g = GCheck ∨ g_phase_of g = GCheckAfter → g_ids g = [] →
    v_step wait s (crash s)
| V_check n g s :
    v_panic s = false → v_gors s !! n = Some g → g_phase_of g = GCheck → g_ids g ≠ [] →
    v_step wait s (set_gor s n g GSend)
(* :681 meets :489 *)
| V_hand n g s :
    v_panic s = false → v_gors s !! n = Some g → g_phase_of g = GSend → v_fan s = FanIdle →
    v_step wait s (with_fan (set_gor s n g (if wait then GDone else GCheckAfter)) (FanSending n))
(* :681 after :496: send on a closed channel *)
| V_hand_panics n g s :
    v_panic s = false → v_gors s !! n = Some g → g_phase_of g = GSend → v_fan s = FanClosed →
    v_step wait s (crash s)
(* :685-688 *)
| V_check_after n g s :
    v_panic s = false → v_gors s !! n = Some g → g_phase_of g = GCheckAfter → g_ids g ≠ [] →
    v_step wait s (set_gor s n g GDone)
(* :493 *)
| V_stream n s :
    v_panic s = false → v_fan s = FanSending n → (∀ e, v_main s ≠ InvReturned e) →
    v_step wait s (with_streamed (with_fan s FanIdle) (v_streamed s ++ [n]))
| V_stream_late n e s :
    v_panic s = false → v_fan s = FanSending n → v_main s = InvReturned e →
    v_step wait s (with_lost (with_fan s FanIdle) (v_lost s ++ [n]))
(* :720-722 *)
| V_all_done s :
    v_panic s = false → v_main s = InvWaiting → Forall (λ f, ∃ ok, f.2 = FnDone ok) (v_fns s) →
    v_step wait s (with_main s InvClosed)
(* :494-497 *)
| V_fan_close s :
    v_panic s = false → v_fan s = FanIdle → v_main s = InvClosed ∨ (∃ e, v_main s = InvReturned e) →
    v_step wait s (with_fan s FanClosed)
(* :723 *)
| V_return s :
    v_panic s = false → v_main s = InvClosed → v_step wait s (with_main s (InvReturned None)).
