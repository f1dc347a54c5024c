(** HTTP routing of the grpc-gateway: core/pkg/api/v2/api.pb.gw.go:187-294 and
    :478-488 with runtime.ServeMux.ServeHTTP and Pattern.MatchAndEscape of
    grpc-gateway v2 (core/server.go:53-66 uses the mux with default options). *)
From Coq Require Import Ascii String ZArith NArith.
From stdpp Require Import prelude strings.
From Verif.Model Require Import GoStrings.
Local Open Scope string_scope.

Inductive rpc :=
| CreateTicketRpc | DeactivateTicketsRpc | ActivateTicketsRpc
| InvokeRpc | CreateAssignmentsRpc | WatchAssignmentsRpc.
Global Instance rpc_eq_dec : EqDecision rpc.
Proof. solve_decision. Defined.

(** A pattern of literal components with an optional verb. *)
Record pattern := Pattern { pat_comps : list string; pat_verb : string }.

(** The registrations in order, api.pb.gw.go:187, :212, :237, :262, :269, :294. *)
Definition registrations : list (string * pattern * rpc) :=
  [("POST", Pattern ["v2"; "tickets"] "", CreateTicketRpc);
   ("DELETE", Pattern ["v2"; "tickets"] "deactivate", DeactivateTicketsRpc);
   ("POST", Pattern ["v2"; "tickets"] "activate", ActivateTicketsRpc);
   ("POST", Pattern ["v2"; "matches"] "fetch", InvokeRpc);
   ("POST", Pattern ["v2"; "assignments"] "create", CreateAssignmentsRpc);
   ("POST", Pattern ["v2"; "assignments"] "watch", WatchAssignmentsRpc)].

(** ServeMux.Handle puts each new handler in front. *)
Definition handlers (meth : string) : list (pattern * rpc) :=
  reverse (omap (λ e, if String.eqb e.1.1 meth then Some (e.1.2, e.2) else None) registrations).

(** strings.Split(s, "/"). *)
Fixpoint split_slash (s : string) : list string :=
  match s with
  | "" => [""]
  | String c s' =>
      if Ascii.eqb c "/" then "" :: split_slash s'
      else match split_slash s' with
           | w :: ws => String c w :: ws
           | [] => [String c ""]
           end
  end.

(** The part of [s] before the suffix [suf], if [s] ends with it. *)
Fixpoint strip_suffix (suf s : string) : option string :=
  if String.eqb s suf then Some ""
  else match s with
       | "" => None
       | String c s' => match strip_suffix suf s' with Some w => Some (String c w) | None => None end
       end.

Inductive outcome_http := Reaches (r : rpc) | NotFound | BadRequest.

(** The loop over the handlers of the method. When no handler matches, the other
    methods are scanned, but only to choose the error code: the fallback to GET
    needs a GET handler, and there is none. *)
Fixpoint try_handlers (hs : list (pattern * rpc)) (init : list string) (lst : string) : outcome_http :=
  match hs with
  | [] => NotFound
  | (pat, r) :: hs' =>
      let stripped := if String.eqb (pat_verb pat) "" then None else strip_suffix (":" +:+ pat_verb pat) lst in
      match stripped with
      | Some "" => NotFound
      | Some w =>
          if bool_decide ((init ++ [w])%list = pat_comps pat) then Reaches r else try_handlers hs' init lst
      | None =>
          if String.eqb (pat_verb pat) "" && bool_decide ((init ++ [lst])%list = pat_comps pat)
          then Reaches r else try_handlers hs' init lst
      end
  end.

(** ServeHTTP for the method and the (unescaped) path of the request. [meth] is
    the method after a possible override (see [effective_method]). *)
Definition serve (meth path : string) : outcome_http :=
  match path with
  | String "/" rest =>
      let comps := split_slash rest in
      try_handlers (handlers meth) (removelast comps) (List.last comps "")
  | _ => BadRequest
  end.

(** A POST with an HTML form content type may carry an X-HTTP-Method-Override
    header; its value in upper case then replaces the method. [upper] is
    strings.ToUpper. *)
Definition effective_method (upper : string → string) (meth content_type override : string) : string :=
  if negb (String.eqb override "") && String.eqb meth "POST" &&
     String.eqb content_type "application/x-www-form-urlencoded"
  then upper override else meth.

(** ServeHTTP for a whole request line and the two headers it looks at. *)
Definition serve_http (upper : string → string) (meth content_type override path : string) : outcome_http :=
  serve (effective_method upper meth content_type override) path.
