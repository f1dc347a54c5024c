(** What clients may expect when instances are stopped, killed and replaced. *)
From Coq Require Import Ascii String ZArith NArith.
From stdpp Require Import prelude strings gmap relations.
From Verif.Model Require Import GoStrings Types Cache Replica Handlers MemRepl Queues RedisRepl System RedisSystem Shutdown.
From Verif.Spec Require Import IdSpec RedisSpec CacheSpec SystemSpec AssignSpec.
Local Open Scope nat_scope.

(** The client of call [i] of instance [n] has been given the answers of [c]. *)
Definition Told (s : ssys) (n i : nat) (c : call) : Prop :=
  ∃ x, seen s n = Some x ∧ in_calls (rx_inst x) !! i = Some c ∧ returned c.

(** The client of call [i] of instance [n] was cut off: it gets no answer. *)
Definition CutOff (s : ssys) (n i : nat) : Prop :=
  is_Some (sd_life s !! n) ∧ ∃ x c, seen s n = Some x ∧ in_calls (rx_inst x) !! i = Some c ∧ ¬ returned c.

Definition HasEnded (s : ssys) (n : nat) : Prop := ∃ x, sd_life s !! n = Some (Ended x).
Definition IsServing (s : ssys) (n : nat) : Prop := sd_life s !! n = None ∧ is_Some (ry_insts (sd_sys s) !! n).

(** Every call that has been accepted gets its answer before the instance stops
    serving (a graceful stop). *)
Definition EveryCallAnswered : Prop := ∀ cfg s n i, sdreach cfg s → (∀ x, sd_life s !! n ≠ Some (Ended x)) → ¬ CutOff s n i.

(** A call that was cut off has changed nothing. *)
Definition CutOffNotDone : Prop := ∀ cfg s n i, sdreach cfg s → CutOff s n i → updates_logged (sd_sys s) n i = [].

(** With the in-memory store: a ticket whose id a client has been told is known to
    the process that is started next. *)
Definition KeptInMemory : Prop := ∀ cfg t0 s i c v r t s',
  (0 <= t0)%Z → mreach cfg t0 s → in_calls (ms_inst s) !! i = Some c → Creates c v → returned c → r ∈ cl_got c →
  (ms_clock s <= t)%Z → rtc (mstep cfg) (restarted t) s' → Quiescent (ms_inst s') →
  Update CmdTicket (r_result r) v ∈ map sn_upd (ms_hist s').

(** ... and no later ticket gets its id. *)
Definition IdsNotReusedInMemory : Prop := ∀ cfg t0 s i c v r t s' i' c' v' r',
  (0 <= t0)%Z → mreach cfg t0 s → in_calls (ms_inst s) !! i = Some c → Creates c v → r ∈ cl_got c →
  (ms_clock s <= t)%Z → rtc (mstep cfg) (restarted t) s' →
  in_calls (ms_inst s') !! i' = Some c' → Creates c' v' → r' ∈ cl_got c' → r_result r ≠ r_result r'.
