(** Vocabulary for C156. *)
From Coq Require Import String ZArith.
From stdpp Require Import prelude strings gmap.
From Verif.Model Require Import GoStrings Types Proto Cache Replica.
From Verif.Spec Require Import CacheSpec.
Local Open Scope Z_scope.

(** What the clients expect of a cache [c] at [now], once update [u], before which there were the updates
    [before] and after which there were [after], has been replicated.
    An activated ticket: it is active, with the contents it was created with, unless it was deactivated later or is too old.
    A new or deactivated ticket: it is not active, unless it was activated later.
    An assigned ticket: it has this assignment, unless it was assigned again later or is too old. *)
Definition InEffect (cfg : config) (now : instant) (c : cache) (before : list update) (u : update) (after : list update) : Prop :=
  let k := u_key u in
  match u_cmd u with
  | CmdActivate => ∀ v, last (tickets_for k before) = Some v → tickets_for k after = [] → (∀ d, Update CmdDeactivate k d ∉ after) →
      ¬ OlderThan (cfg_ticket_ttl cfg) now k → ¬ ExpiredAt now (stored_ticket k v) →
      Active c k ∧ c_tickets c !! k = Some (stored_ticket k v)
  | CmdTicket | CmdDeactivate => (∀ w, Update CmdActivate k w ∉ after) → ¬ Active c k
  | CmdAssign => assigns_for k after = [] → ¬ OlderThan (cfg_ticket_ttl cfg + cfg_assign_ttl cfg) now k →
      c_assign c !! k = Some (unmarshal_assignment (u_value u))
  | _ => True
  end.

(** The cache [c] is what the updates [us] leave, with expiration cycles in between that look at
    everything that is there, and whose readings of the clock were between [t] and [now]. *)
Definition HistoryOf (cfg : config) (t now : instant) (c : cache) (us : list update) : Prop :=
  ∃ es, c = hev_run cfg empty_cache es ∧ hev_fits cfg empty_cache es ∧ hev_updates es = us ∧ ∀ v, v ∈ hev_visits es → t <= v.2 <= now.
