(** An invocation of matchmaking functions (Model/Invoke.v) while the server it was
    made to runs (Model/System.v, Model/RedisSystem.v): updateTicketsActiveState
    (core/main.go:230-284, called at :639) is one of the calls of the server, and
    the inactive set that the checks look at (:662) is the one that the replication
    goroutine of the server changes.

    Simplifications: a call begins when its match is received (:593-639; it sends
    its updates at any later time); requests and answers of a call are not seen one
    by one by the invocation, which goes on when the call has returned. *)
From Coq Require Import Ascii String ZArith NArith.
From stdpp Require Import prelude strings gmap.
From Verif.Model Require Import GoStrings Types Cache Handlers System RedisSystem Invoke.
Local Open Scope nat_scope.

(** The server, the invocation, and for each goroutine of a match the number of its
    call at the server. *)
Record isys (St : Type) := ISys { is_server : St; is_inv : istate; is_calls : list nat }.
Arguments ISys {St}.
Arguments is_server {St}.
Arguments is_inv {St}.
Arguments is_calls {St}.

(** main.go:639: the call of updateTicketsActiveState for the tickets of a match. *)
Definition match_call (ids : list string) : call :=
  Call (state_updates CmdDeactivate ids) (length ids) 0 [] [].

Section alongside.
Context {St : Type} (step : St → St → Prop).
Context (calls : St → list call) (inactive : St → gset string).
Context (wait : bool).

Inductive is_step : isys St → isys St → Prop :=
(* everything else in the server, other invocations included *)
| IS_server s s' v cs :
    v_panic v = false → step s s' →
    is_step (ISys s v cs) (ISys s' (with_inactive v (inactive s')) cs)
(* the handler, the functions, the fan-in goroutine, and the goroutines of matches
   outside of updateTicketsActiveState *)
| IS_own s v v' cs :
    v_step wait v v' → length (v_gors v') = length (v_gors v) →
    v_pending v' = v_pending v → v_answered v' = v_answered v → v_inactive v' = v_inactive v →
    is_step (ISys s v cs) (ISys s v' cs)
(* :593-639: a match arrives, and the deactivation of its tickets begins *)
| IS_recv s s' v k i m ids cs :
    v_panic v = false → v_fns v !! k = Some (FnGrpc, FnStreaming i) → ids_of_match m ids →
    step s s' → calls s' = calls s ++ [match_call ids] →
    is_step (ISys s v cs)
      (ISys s' (with_inactive (with_gors (set_fn v k FnGrpc (FnStreaming (i + 1)))
                                 (v_gors v ++ [Gor k m ids (GRequest ids)])) (inactive s'))
            (cs ++ [length (calls s)]))
(* :639 returns *)
| IS_answered s v cs n g rest j c :
    v_panic v = false → v_gors v !! n = Some g → g_phase_of g = GRequest rest →
    cs !! n = Some j → calls s !! j = Some c → returned c →
    is_step (ISys s v cs)
      (ISys s (with_answered (set_gor v n g (GRequest [])) (v_answered v ++ map (λ id, (n, id)) rest)) cs).

(** An invocation of these functions begins. *)
Definition is_init (fns : list fn_type) (s : St) : isys St := ISys s (v_init fns (inactive s)) [].
End alongside.

(** The two kinds of servers; for Redis, the instance [w] gets the call. *)
Definition mem_calls (s : msys) : list call := in_calls (ms_inst s).
Definition mem_inactive (s : msys) : gset string := c_inactive (in_cache (ms_inst s)).
Definition red_calls (w : nat) (s : rsys) : list call :=
  match ry_insts s !! w with Some x => in_calls (rx_inst x) | None => [] end.
Definition red_inactive (w : nat) (s : rsys) : gset string :=
  match ry_insts s !! w with Some x => c_inactive (in_cache (rx_inst x)) | None => ∅ end.

Definition im_step (cfg : config) (wait : bool) : isys msys → isys msys → Prop :=
  is_step (mstep cfg) mem_calls mem_inactive wait.
Definition ir_step (cfg : config) (w : nat) (wait : bool) : isys rsys → isys rsys → Prop :=
  is_step (ystep cfg) (red_calls w) (red_inactive w) wait.
