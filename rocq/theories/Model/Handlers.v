(** Model of the gRPC handlers in core/main.go that write state: CreateTicket
    (:144-223), updateTicketsActiveState (:230-284), ActivateTickets (:288-319),
    DeactivateTickets (:323-353), CreateAssignments (:733-795), validateTicketIds
    (:876-893) and addStateUpdateErrorDetails (:902-924).

    A handler is modelled by the updates it puts on the queue and by its result
    as a function of the responses it receives. *)
From Coq Require Import Ascii String ZArith NArith.
From stdpp Require Import prelude strings gmap.
From Verif.Model Require Import GoStrings Types Proto.
Local Open Scope string_scope.
Local Open Scope Z_scope.

(** First half of a handler: rejected with a status code, or the updates sent. *)
Inductive start := Reject (c : code) | Send (us : list update).

(** ** CreateTicket *)

(** main.go:159-191: timestamps are normalised and the message rebuilt. [now] is
    the reading of timestamppb.Now() at :165. *)
Definition prepare_ticket (ttl : Z) (now : instant) (t : ticket) : ticket :=
  let cr0 := tk_attrs t ≫= fd_ctime in
  let cr := match cr0 with
            | Some c => if ts_is_valid (Some c) then c else ts_new now
            | None => ts_new now
            end in
  let default_ex := as_time (Some cr) + dur_secs ttl in
  let ex := match tk_exp t with
            | Some e =>
                if negb (ts_is_valid (Some e)) || (default_ex <? as_time (Some e))
                then ts_new default_ex else e
            | None => ts_new default_ex
            end in
  Ticket "" (Some ex)
    (Some (Filterable (match tk_attrs t with Some a => fd_tags a | None => [] end)
                      (match tk_attrs t with Some a => fd_strings a | None => ∅ end)
                      (match tk_attrs t with Some a => fd_doubles a | None => ∅ end)
                      (Some cr)))
    (tk_ext t).

(** main.go:144-217. [o] gives the order in which Marshal visits the maps. *)
Definition create_ticket (ttl : Z) (now : instant) (o : ticket_orders) (req : option ticket)
    : start :=
  match req with
  | None => Reject InvalidArgument
  | Some t =>
      match marshal_ticket o (prepare_ticket ttl now t) with
      | None => Reject Unknown
      | Some v => Send [Update CmdTicket "" v]
      end
  end.

(** main.go:220-222: the id and error handed back to the client. *)
Definition create_ticket_reply (r : response) : string * option store_err :=
  (r_result r, r_err r).

(** ** Activation and deactivation *)

(** main.go:876-893; the invalid ids are discarded by both callers. *)
Definition valid_ids (ids : list string) : list string :=
  filter (λ id, valid_ticket_id id = true) ids.

(** main.go:252-270. *)
Definition state_updates (c : cmd) (ids : list string) : list update :=
  map (λ id, Update c id "") ids.

(** main.go:273-282: the error map; the i-th response received is reported with
    the i-th id in the text, under the response's result as key. *)
Fixpoint collect_errs (ids : list string) (rs : list response)
    : gmap string (string * store_err) :=
  match ids, rs with
  | id :: ids', r :: rs' => 
      (* later responses overwrite earlier ones with the same key *)
      collect_errs ids' rs' ∪
      match r_err r with Some e => {[ r_result r := (id, e) ]} | None => ∅ end
  | _, _ => ∅
  end.

(** A gRPC result: the code and the field violations in its details. *)
Record status := Status { s_code : code; s_violations : gmap string (string * store_err) }.

(** main.go:902-924. *)
Definition state_update_status (errs : gmap string (string * store_err)) : status :=
  if bool_decide (errs = ∅) then Status OK ∅ else Status InvalidArgument errs.

(** main.go:288-309 / :323-343. *)
Definition set_active_start (cfg : config) (c : cmd) (ids : list string) : start :=
  let n := Z.of_nat (length ids) in
  if n =? 0 then Reject InvalidArgument
  else if cfg_max_updates cfg <? n then Reject InvalidArgument
  else Send (state_updates c (valid_ids ids)).

(** main.go:309-318 / :343-352. *)
Definition set_active_finish (ids : list string) (rs : list response) : status :=
  state_update_status (collect_errs (valid_ids ids) rs).

Definition activate_start (cfg : config) (ids : list string) : start :=
  set_active_start cfg CmdActivate ids.
Definition deactivate_start (cfg : config) (ids : list string) : start :=
  set_active_start cfg CmdDeactivate ids.

(** ** CreateAssignments *)

(** main.go:739-775. A nil ticket in the roster can not come off the wire. *)
Definition assign_updates (v : string) (ts : list ticket) : list update :=
  map (λ t, Update CmdAssign (tk_id t) v) (filter (λ t, tk_id t ≠ "") ts).

Definition create_assignments_start (oe : list (string * any)) (req : option roster) : start :=
  match req with
  | None => Reject InvalidArgument
  | Some r =>
      match ro_assignment r with
      | None => Reject InvalidArgument
      | Some a =>
          match marshal_assignment oe a with
          | None => Reject Unknown
          | Some v => Send (assign_updates v (ro_tickets r))
          end
      end
  end.

(** main.go:777-794: errors are logged; the returned error is always nil. *)
Definition create_assignments_finish (rs : list response) : status := Status OK ∅.
