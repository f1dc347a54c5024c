(** What the cache is supposed to contain, as a function of the history of
    updates. *)
From Coq Require Import Ascii String ZArith NArith.
From stdpp Require Import prelude strings gmap.
From Verif.Model Require Import GoStrings Types Cache.
Local Open Scope Z_scope.

(** The values of the new-ticket updates for id [k], in order. *)
Definition tickets_for (k : string) (us : list update) : list string :=
  omap (λ u, match u_cmd u with
             | CmdTicket => if decide (u_key u = k) then Some (u_value u) else None
             | _ => None
             end) us.

(** The commands for id [k] that change whether it is active, in order: [true]
    for an activation, [false] for a creation or deactivation. *)
Definition state_cmds_for (k : string) (us : list update) : list bool :=
  omap (λ u, if decide (u_key u = k) then
               match u_cmd u with
               | CmdTicket | CmdDeactivate => Some false
               | CmdActivate => Some true
               | _ => None
               end
             else None) us.

(** The values of the assign updates for id [k], in order. *)
Definition assigns_for (k : string) (us : list update) : list string :=
  omap (λ u, match u_cmd u with
             | CmdAssign => if decide (u_key u = k) then Some (u_value u) else None
             | _ => None
             end) us.

(** A ticket that can appear in pools. *)
Definition Active (c : cache) (k : string) : Prop :=
  is_Some (c_tickets c !! k) ∧ k ∉ c_inactive c.

(** [k] is more than [limit] seconds old at time [now]. *)
Definition OlderThan (limit : Z) (now : instant) (k : string) : Prop :=
  limit < unix_secs now - id_time k.

(** The ticket's expiration time is before [now]. *)
Definition ExpiredAt (now : instant) (t : ticket) : Prop := as_time (tk_exp t) < now.

(** The expiration time is no later than TTL seconds after the second in which
    the id was issued. *)
Definition ExpiresInTime (ttl : Z) (k : string) (t : ticket) : Prop :=
  as_time (tk_exp t) < (id_time k + ttl + 1) * giga.

(** ** Tickets that come from CreateTicket *)
From Verif.Model Require Import Wire Proto Handlers.
From Verif.Spec Require Import FilterSpec HandlerSpec.

(** [u] replicates client ticket [t], for which CreateTicket was called at
    [now] with the given TTL, under an id issued no earlier than that. *)
Definition CreatedFrom (ttl : Z) (now : instant) (t : ticket) (u : update) : Prop :=
  SaneTTL ttl ∧ SaneNow now ∧ ClientTicketOk t ∧
  (∃ o, orders_ok (prepare_ticket ttl now t) o ∧
        create_ticket ttl now o (Some t) = Send [Update CmdTicket ""%string (u_value u)]) ∧
  (slen (u_value u) < 2 ^ 64)%N ∧ unix_secs now <= id_time (u_key u).

(** The client does not claim a creation time in the future. *)
Definition NotFromTheFuture (now : instant) (t : ticket) : Prop :=
  ∀ c, client_ctime t = Some c → ValidTs c → as_time (Some c) <= now.
