(** What a whole instance (or several) should do, in terms of the calls clients
    make, the answers they get, and the updates that reach the cache. *)
From Coq Require Import Ascii String ZArith NArith.
From stdpp Require Import prelude strings gmap.
From Verif.Model Require Import GoStrings Types Cache Replica Handlers System.
Local Open Scope string_scope.

(** The update [u] after it has been given replication id [id]: only a new ticket
    takes the id as its key. *)
Definition AsStored (u : update) (id : string) : update :=
  match u_cmd u with
  | CmdTicket => Update CmdTicket id (u_value u)
  | _ => u
  end.

(** A call that creates a ticket whose serialised form is [v]. *)
Definition Creates (c : call) (v : string) : Prop := cl_ups c = [Update CmdTicket "" v].

(** A call that asks for the activation of [k]. *)
Definition Activates (cfg : config) (c : call) (k : string) : Prop :=
  ∃ ids, k ∈ ids ∧ activate_start cfg ids = Send (cl_ups c).

(** The updates applied to the cache, and those read from the store but still on
    their way to it. *)
Definition applied {S} (x : inst S) : list update := hev_updates (in_events x).
Definition on_the_way {S} (x : inst S) : list update :=
  (in_stream x ++ match in_poll x with PGet l | PPush l => l | PCrash => [] end)%list.

(** Nothing is in progress: every call has returned and everything replicated has
    been applied. *)
Definition Quiescent {S} (x : inst S) : Prop :=
  Forall returned (in_calls x) ∧ in_out x = OCollect [] ∧ on_the_way x = [].

(** ** Several instances and one Redis stream *)
From Verif.Model Require Import Queues RedisRepl RedisSystem.
From Verif.Spec Require Import IdSpec RedisSpec.

(** All updates that the clients of an instance have asked for can be sent to
    Redis: no empty ids (in matches) and no empty assignments. *)
Definition AllSendable (x : rinst) : Prop :=
  ∀ cl, cl ∈ in_calls (rx_inst x) → Forall Sendable (cl_ups cl).

(** The common history: every entry ever appended to the stream, as instances
    are to apply it. *)
Definition history (s : rsys) : list update :=
  map (λ e, as_read (le_id e) (rq_update (le_req e))) (ry_log s).

(** No XTRIM ever had a threshold above the id of an entry of the stream. *)
Definition Untrimmed (s : rsys) : Prop :=
  ∀ t e, t ∈ ry_trims s → e ∈ ry_log s → (t <= (le_id e).1)%Z.

(** An instance has applied the common history completely. *)
Definition CaughtUp (s : rsys) (x : rinst) : Prop := applied (rx_inst x) = history s.

(** An answer that says the update has been stored, and under which id. *)
Definition Good (r : response) : Prop := r_err r = None ∧ r_result r ≠ "".

(** The updates of call [i] of instance [n] that are in the stream. *)
Definition updates_logged (s : rsys) (n i : nat) : list update :=
  map (λ e, rq_update (le_req e)) (filter (λ e, le_src e = n ∧ rq_chan (le_req e) = i) (ry_log s)).

(** Call [j] of instance [m] has not begun in [s]. *)
Definition NotYet (s : rsys) (m j : nat) : Prop :=
  ∀ y, ry_insts s !! m = Some y → (length (in_calls (rx_inst y)) <= j)%nat.
