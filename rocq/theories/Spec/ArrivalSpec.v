(** Vocabulary for C154. *)
From Coq Require Import ZArith.
From stdpp Require Import prelude strings gmap relations.
From Verif.Model Require Import GoStrings Types Cache MemRepl Queues Timing Visible Arrival.
From Verif.Spec Require Import VisibleSpec.
Local Open Scope Z_scope.

(** A step after which fewer than [cap] updates are on their way into the cache. *)
Definition light_step (cfg : config) (wait thr : Z) (p : iparams) (cap : nat) (s s' : mstate) : Prop :=
  mstep cfg wait thr p cap s s' ∧ (length (on_the_way (ms_in s')) < cap)%nat.

(** The latest moment at which the update of a request is applied, with [n] before it on the way: collecting the batch; one waiting time
    until GetUpdates returns; a round (waiting, an expiration cycle, a look at the empty channel); and the
    time it takes to apply those ahead and itself. *)
Definition in_cache_by (wait : Z) (p : iparams) (o : offered) (n : nat) : instant :=
  of_at o + wait + 2 * ip_wait p + ip_cycle p + (Z.of_nat n + 2) * ip_apply p.

(** What the in-memory store makes of a request's update: a new ticket gets an id made by the store
    (getReplId, C08). *)
Definition stored_as (u u' : update) : Prop :=
  u_cmd u' = u_cmd u ∧ u_value u' = u_value u ∧
  if bool_decide (u_cmd u = CmdTicket) then ∃ st clk, u_key u' = (get_repl_id st clk).1 else u_key u' = u_key u.
