(** The time series om-core is meant to keep. *)
From Coq Require Import Ascii String ZArith NArith.
From stdpp Require Import prelude strings gmap.
From Verif.Model Require Import GoStrings Types Proto Wire Gateway Series.
Local Open Scope string_scope.
Local Open Scope Z_scope.

(** A call that a client can get to the server: a request for state updates fits
    into a message of 4 MiB; the length in the header of a message has 32 bits. *)
Definition IdsBytes (ids : list string) : string := enc_fields (map (λ id, (1%N, WLen id)) ids).
Definition IdsFit (ids : list string) : Prop :=
  Z.of_nat (String.length (IdsBytes ids)) <= 4194304 ∧ Forall (λ id, utf8_valid id = true) ids.
Definition CanArrive (c : call_in) : Prop :=
  match c with
  | CiTooLong _ len => 4194304 < len < 2 ^ 32
  | CiActivate ids _ | CiDeactivate ids _ | CiWatch ids => IdsFit ids
  | CiInvoke _ fns => Forall (λ f, utf8_valid f.1 = true ∧ Z.of_nat (String.length f.1) <= 4000000) fns
  | _ => True
  end.

(** The series that do not depend on what clients send. *)
Definition service_calls : list string :=
  ["CreateTicket"; "ActivateTickets"; "DeactivateTickets"; "InvokeMatchmakingFunctions"; "CreateAssignments"; "WatchAssignments"].
Definition invalid (s : string) : string := "rpc error: code = InvalidArgument desc = " +:+ s.
Definition unknown (s : string) : string := "rpc error: code = Unknown desc = " +:+ s.
Definition fixed_errors (tx : texts) : list (string * string) :=
  [("CreateTicket", invalid "ticket is required");
   ("CreateTicket", unknown ("failed to marshal the ticket protobuf: " +:+ tx_marshal tx));
   ("CreateTicket", unknown (tx_store tx ENoTicketData)); ("CreateTicket", unknown (tx_store tx EMissingKey));
   ("CreateTicket", unknown (tx_store tx EMissingAssignment)); ("CreateTicket", unknown (tx_store tx EInvalidInput));
   ("CreateTicket", unknown (tx_store tx EReply));
   ("ActivateTickets", invalid "No Ticket IDs in update request");
   ("ActivateTickets", invalid "One or more state update arguments were invalid");
   ("DeactivateTickets", invalid "No Ticket IDs in update request");
   ("DeactivateTickets", invalid "One or more state update arguments were invalid");
   ("InvokeMatchmakingFunctions", invalid "profile is required");
   ("InvokeMatchmakingFunctions", invalid "list of mmfs to invoke is required");
   ("CreateAssignments", invalid "roster with assignment is required");
   ("CreateAssignments", unknown ("failed to marshal the assignment protobuf: " +:+ tx_marshal tx))].
Definition fixed_series (tx : texts) : list series :=
  (map SDuration service_calls ++ map (λ e, SErrors e.1 e.2) (fixed_errors tx) ++
   [SActivations; SDeactivations; SAssignments; SWatches])%list.

(** The text for [n] ids where [max] are allowed. *)
Definition many_text (what : string) (max n : Z) : string :=
  invalid ("Too many ticket " +:+ what +:+ " requested in a single call (configured maximum " +:+
           format_Z max +:+ ", requested " +:+ format_Z n +:+ ")").
Definition long_text (len : Z) : string :=
  "rpc error: code = ResourceExhausted desc = grpc: received message larger than max (" +:+ format_Z len +:+ " vs. 4194304)".

(** The series a call brings about by its content. *)
Definition OwnSeries (max : Z) (c : call_in) (x : series) : Prop :=
  match c with
  | CiTooLong r len => ∃ n, n ∈ service_calls ∧ x = SErrors n (long_text len)
  | CiActivate ids _ =>
      max < Z.of_nat (length ids) ∧ x = SErrors "ActivateTickets" (many_text "activations" max (Z.of_nat (length ids)))
  | CiDeactivate ids _ =>
      max < Z.of_nat (length ids) ∧ x = SErrors "DeactivateTickets" (many_text "deactivations" max (Z.of_nat (length ids)))
  | CiInvoke _ fns => ∃ n, (n, true) ∈ fns ∧ x = SMatches n
  | _ => False
  end.

(** The series other than durations and errors that a call brings about. *)
Definition Records (max : Z) (c : call_in) (x : series) : Prop :=
  match c with
  | CiTooLong _ _ | CiCreate _ _ _ _ => False
  | CiActivate ids _ => x = SActivations ∧ 0 < Z.of_nat (length ids) <= max
  | CiDeactivate ids _ => x = SDeactivations ∧ 0 < Z.of_nat (length ids) <= max
  | CiInvoke prof fns => prof ≠ None ∧ ∃ n, (n, true) ∈ fns ∧ x = SMatches n
  | CiAssign ro oe => x = SAssignments ∧ ∃ r a, ro = Some r ∧ ro_assignment r = Some a ∧ is_Some (marshal_assignment oe a)
  | CiWatch _ => x = SWatches
  end.

(** The call of the service that a request is for. *)
Definition NameOf (c : call_in) (n : string) : Prop :=
  match c with
  | CiTooLong r _ =>
      match r with
      | CreateTicketRpc => n = "CreateTicket" | ActivateTicketsRpc => n = "ActivateTickets"
      | DeactivateTicketsRpc => n = "DeactivateTickets" | InvokeRpc => n = "InvokeMatchmakingFunctions"
      | CreateAssignmentsRpc => n = "CreateAssignments" | WatchAssignmentsRpc => n = "WatchAssignments"
      end
  | CiCreate _ _ _ _ => n = "CreateTicket" | CiActivate _ _ => n = "ActivateTickets"
  | CiDeactivate _ _ => n = "DeactivateTickets" | CiInvoke _ _ => n = "InvokeMatchmakingFunctions"
  | CiAssign _ _ => n = "CreateAssignments" | CiWatch _ => n = "WatchAssignments"
  end.
