(** The calls of the example matchmaker to om-core that activate and create tickets,
    with what it logs about them: matchmaker-example/main.go:418-474 (the goroutine of
    activateTickets), :483-512 (restfulGrpcPost), :635-693 (proxyCreateTicket); and how
    grpc-gateway v2.19.0 answers (runtime.ForwardResponseMessage, DefaultHTTPErrorHandler).

    Simplifications: of a JSON text only the tree is seen ([None]: it is none); of a log
    entry only which of the messages it is, without its fields; debug entries are left
    out; creating the HTTP request (:485-494) cannot fail, its URL being fixed. *)
From Coq Require Import Ascii String ZArith NArith.
From stdpp Require Import prelude strings gmap.
From Verif.Model Require Import GoStrings Types Handlers JsonMsg.
Local Open Scope string_scope.
Local Open Scope list_scope.

(** The messages logged at level error. *)
Inductive log_line :=
| LMarshal     (* :447-450, :665-667 *)
| LExecute     (* :500 *)
| LRead        (* :508 *)
| LUnmarshal   (* :460-463, :678-680 *)
| LFailed.     (* :469-471, :685 *)

(** What client.Do and io.ReadAll give, :498-511; the status is not looked at. *)
Inductive post_result := PNoAnswer | PUnreadable | PAnswer (status : Z) (body : option jv).

(** restfulGrpcPost: the body, or [None] for an error; and what it logs. *)
Definition restful_post (p : post_result) : option (option jv) * list log_line :=
  match p with
  | PNoAnswer => (None, [LExecute])
  | PUnreadable => (None, [LRead])
  | PAnswer _ b => (Some b, [])
  end.

(** ** protojson.Unmarshal, without DiscardUnknown *)

(** An unknown member is an error. *)
Definition r_empty (b : option jv) : bool :=
  match b with Some (JDict []) => true | _ => false end.

(** CreateTicketResponse: the id as far as it was read, and whether there was no error;
    a member given twice is an error, null leaves the field unset. *)
Fixpoint r_created (l : list (string * jv)) (seen : bool) (id : string) : string * bool :=
  match l with
  | [] => (id, true)
  | (k, v) :: l' =>
      if String.eqb k "ticketId" || String.eqb k "ticket_id" then
        if seen then (id, false)
        else match v with
             | JNull => r_created l' true id
             | JText t => r_created l' true t
             | _ => (id, false)
             end
      else (id, false)
  end.
Definition r_create_response (b : option jv) : string * bool :=
  match b with Some (JDict l) => r_created l false "" | _ => ("", false) end.

(** ** The calls *)

(** The call of one batch, :436-472. Over gRPC [ok] tells whether the call returned no
    error. Over HTTP the variable err of :468 is the one declared at :439: :445 declares
    another one, which :454 assigns to. *)
Definition activate_logs (grpc ok : bool) (ids : list string) (p : post_result) : list log_line :=
  if grpc then (if ok then [] else [LFailed])
  else
    let outer_err := false in
    (match j_ids false ids with Some _ => [] | None => [LMarshal] end) ++
    (restful_post p).2 ++
    (match (restful_post p).1 with Some b => if r_empty b then [] else [LUnmarshal] | None => [] end) ++
    (if outer_err then [LFailed] else []).

(** proxyCreateTicket, :652-692: the id it returns and what it logs. Over gRPC [reply] is
    the id in the response, [None] if the call returned an error; [marshalled] tells
    whether the request could be written as JSON. Here :663, :671 and :676 assign to the
    variable of :684. *)
Definition create_result (grpc : bool) (reply : option string) (marshalled : bool) (p : post_result) : string * list log_line :=
  if grpc then match reply with Some id => (id, []) | None => ("", [LFailed]) end
  else
    let lm := if marshalled then [] else [LMarshal] in
    match restful_post p with
    | (None, ls) => ("", lm ++ ls ++ [LFailed])
    | (Some b, ls) =>
        match r_create_response b with
        | (id, true) => (id, lm ++ ls)
        | (id, false) => (id, lm ++ ls ++ [LUnmarshal; LFailed])
        end
    end.

(** ** What the gateway answers *)

(** ErrorHandler, with the status as JSON with all its members (EmitUnpopulated), or
    the fallback if it cannot be written. *)
Definition error_body (num msg : string) (details : list jv) : jv :=
  JDict [("code", JNum num); ("message", JText msg); ("details", JList details)].
Definition fallback_body : jv := JDict [("code", JNum "13"); ("message", JText "failed to marshal error message")].

(** ForwardResponseMessage, for the two responses. *)
Definition activated_body : jv := JDict [].
Definition created_body (id : string) : jv := JDict [("ticketId", JText id)].
