(** The time series that om-core's metrics keep: one for every combination of a
    metric and the values of its attributes that was ever recorded. Attributes are
    set by the stats handler (core/server.go:128, :140) and by the handler of
    invocations (core/main.go:700); the other metrics have none (core/main.go:316,
    :350, :792, :845-868, core/metrics.go:103-168). The SDK (OpenTelemetry v1.24.0,
    sdk/metric/internal/aggregate) keeps an entry for every attribute set and never
    drops one: no view and no limit is configured (core/metrics.go:92).

    The error texts are those of the handlers (core/main.go:144-223, :288-353,
    :366-374, :733-795) and that of grpc-go v1.62.1 for a message over the limit
    (rpc_util.go, parser.recvMsg); those for damaged messages are not modelled.
    Deadlines and cancellations do not reach the handlers and are left out. *)
From Coq Require Import Ascii String ZArith NArith.
From stdpp Require Import prelude strings gmap.
From Verif.Model Require Import GoStrings Types Proto Handlers Invoke Gateway Metrics.
Local Open Scope string_scope.
Local Open Scope Z_scope.

Inductive series :=
| SDuration (rpc : string)            (* rpc.duration *)
| SErrors (rpc err : string)          (* rpc.errors *)
| SActivations | SDeactivations | SAssignments | SWatches
| SMatches (fn : string).             (* match.received *)
Global Instance series_eq_dec : EqDecision series.
Proof. solve_decision. Defined.

(** ** Error texts *)

(** codes.Code.String. *)
Definition code_text (c : code) : string :=
  match c with OK => "OK" | InvalidArgument => "InvalidArgument" | Internal => "Internal" | Unknown => "Unknown" end.

(** The Error method of a status (google.golang.org/grpc/internal/status). *)
Definition status_text (code msg : string) : string := "rpc error: code = " +:+ code +:+ " desc = " +:+ msg.

(** What the texts of other packages are: of the errors of the store and of
    marshalling. *)
Record texts := Texts { tx_store : store_err → string; tx_marshal : string }.

(** CreateTicket: :152, :193-196 (an error that is no status becomes one with code
    Unknown), :222. [r]: the answer of the store, if an update was sent. *)
Definition create_error (tx : texts) (st : start) (r : response) : option string :=
  match st with
  | Reject InvalidArgument => Some (status_text "InvalidArgument" "ticket is required")
  | Reject _ => Some (status_text "Unknown" ("failed to marshal the ticket protobuf: " +:+ tx_marshal tx))
  | Send _ => (λ e, status_text "Unknown" (tx_store tx e)) <$> r_err r
  end.

(** ActivateTickets and DeactivateTickets: :292-301, :313, :902-924. The details of
    a status do not appear in its text. *)
Definition too_many_text (c : cmd) (max n : Z) : string :=
  "Too many ticket " +:+ (match c with CmdActivate => "activations" | _ => "deactivations" end) +:+
  " requested in a single call (configured maximum " +:+ format_Z max +:+ ", requested " +:+ format_Z n +:+ ")".

Definition set_active_error (cfg : config) (c : cmd) (ids : list string) (rs : list response) : option string :=
  match set_active_start cfg c ids with
  | Reject _ =>
      Some (status_text "InvalidArgument"
        (if Z.of_nat (length ids) =? 0 then "No Ticket IDs in update request"
         else too_many_text c (cfg_max_updates cfg) (Z.of_nat (length ids))))
  | Send _ =>
      match s_code (set_active_finish ids rs) with
      | OK => None
      | c => Some (status_text (code_text c) "One or more state update arguments were invalid")
      end
  end.

(** InvokeMatchmakingFunctions: :369-374; otherwise nil (:723). *)
Definition invoke_error (prof : option profile) (mmfs : nat) : option string :=
  match invoke_rejects prof mmfs with
  | None => None
  | Some c => Some (status_text (code_text c)
                (match prof with None => "profile is required" | Some _ => "list of mmfs to invoke is required" end))
  end.

(** CreateAssignments: :740-748; otherwise nil. *)
Definition assign_error (tx : texts) (st : start) : option string :=
  match st with
  | Reject InvalidArgument => Some (status_text "InvalidArgument" "roster with assignment is required")
  | Reject _ => Some (status_text "Unknown" ("failed to marshal the assignment protobuf: " +:+ tx_marshal tx))
  | Send _ => None
  end.

(** grpc-go: a message over the limit is refused by the length in its header. *)
Definition recv_limit : Z := 4 * 1024 * 1024.
Definition too_long_text (len : Z) : string :=
  status_text "ResourceExhausted"
    ("grpc: received message larger than max (" +:+ format_Z len +:+ " vs. " +:+ format_Z recv_limit +:+ ")").

(** ** Calls *)

(** A call as it reaches the server, with what happens during it: clock, map
    orders, answers of the store. Of an invocation: the functions by name, and
    whether the stream of each was ended by the function (:583-586). *)
Inductive call_in :=
| CiTooLong (r : rpc) (len : Z)
| CiCreate (t : option ticket) (now : instant) (o : ticket_orders) (r : response)
| CiActivate (ids : list string) (rs : list response)
| CiDeactivate (ids : list string) (rs : list response)
| CiInvoke (prof : option profile) (fns : list (string * bool))
| CiAssign (ro : option roster) (oe : list (string * any))
| CiWatch (ids : list string).

Definition rpc_of (c : call_in) : rpc :=
  match c with
  | CiTooLong r _ => r | CiCreate _ _ _ _ => CreateTicketRpc | CiActivate _ _ => ActivateTicketsRpc
  | CiDeactivate _ _ => DeactivateTicketsRpc | CiInvoke _ _ => InvokeRpc
  | CiAssign _ _ => CreateAssignmentsRpc | CiWatch _ => WatchAssignmentsRpc
  end.

Definition error_of (cfg : config) (tx : texts) (c : call_in) : option string :=
  match c with
  | CiTooLong _ len => Some (too_long_text len)
  | CiCreate t now o r => create_error tx (create_ticket (cfg_ticket_ttl cfg) now o t) r
  | CiActivate ids rs => set_active_error cfg CmdActivate ids rs
  | CiDeactivate ids rs => set_active_error cfg CmdDeactivate ids rs
  | CiInvoke prof fns => invoke_error prof (length fns)
  | CiAssign ro oe => assign_error tx (create_assignments_start oe ro)
  | CiWatch _ => None
  end.

(** What the handler itself records: :316, :350, :700 (unless the stream of the
    function failed, :588-603), :792, :845 and :860. *)
Definition handler_series (cfg : config) (c : call_in) : list series :=
  match c with
  | CiTooLong _ _ | CiCreate _ _ _ _ => []
  | CiActivate ids _ => match state_calls_recorded cfg CmdActivate ids with Some _ => [SActivations] | None => [] end
  | CiDeactivate ids _ => match state_calls_recorded cfg CmdDeactivate ids with Some _ => [SDeactivations] | None => [] end
  | CiInvoke prof fns =>
      match invoke_rejects prof (length fns) with
      | Some _ => []
      | None => map (λ f, SMatches f.1) (filter (λ f, f.2 = true) fns)
      end
  | CiAssign ro oe => match assignments_recorded oe ro with Some _ => [SAssignments] | None => [] end
  | CiWatch _ => [SWatches]
  end.

(** What the stats handler records at the end of the call. *)
Definition stats_series (m : rpc_metrics) : list series :=
  map (λ d, SDuration d.1) (m_durations m) ++ map (λ e, SErrors e.1 e.2) (m_errors m).

Definition call_series (cfg : config) (tx : texts) (c : call_in) : list series :=
  handler_series cfg c ++
  stats_series (handle_rpc (Some (full_method (rpc_of c))) (StatEnd 0 0 (error_of cfg tx c)) (RpcMetrics [] [])).

(** All series kept after some calls. *)
Definition kept (cfg : config) (tx : texts) (cs : list call_in) : list series :=
  remove_dups (cs ≫= call_series cfg tx).
