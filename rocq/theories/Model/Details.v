(** How failed activations and deactivations are reported
    (core/main.go:272-283, :895-924), with the texts of the errors.

    Model/Handlers.v has the same without texts; there the details of the status can
    always be made. *)
From Coq Require Import Ascii String ZArith NArith.
From stdpp Require Import prelude strings gmap.
From Verif.Model Require Import GoStrings Types Wire Handlers.
Local Open Scope string_scope.

(** A StateResponse with the text of its error. *)
Record tresp := TResp { tr_result : string; tr_err : option string }.

(** main.go:242-248. *)
Definition transition (c : cmd) : string :=
  match c with CmdDeactivate => "inactive" | CmdActivate => "active" | _ => "" end.

(** main.go:279. *)
Definition description (c : cmd) (id e : string) : string :=
  "Unable to update ticket " +:+ id +:+ " state to " +:+ transition c +:+ " : " +:+ e.

(** main.go:273-282. *)
Fixpoint collect_texts (c : cmd) (ids : list string) (rs : list tresp) : gmap string string :=
  match ids, rs with
  | id :: ids', r :: rs' =>
      (* later responses overwrite earlier ones with the same key *)
      collect_texts c ids' rs' ∪
      match tr_err r with Some e => {[ tr_result r := description c id e ]} | None => ∅ end
  | _, _ => ∅
  end.

(** main.go:909-913: the fields and descriptions of the violations. *)
Definition violations (errs : gmap string string) : list (string * string) :=
  map (λ kd, ("ticketId/" +:+ kd.1, kd.2)) (map_to_list errs).

(** status.WithDetails (grpc v1.62.1) marshals the details; a string that is not valid
    UTF-8 makes this fail. *)
Definition details_marshal (vs : list (string * string)) : bool :=
  forallb (λ v, utf8_valid v.1 && utf8_valid v.2) vs.

(** What the client gets: the code and the violations. *)
Record told := ToldStatus { td_code : code; td_violations : list (string * string) }.

(** main.go:902-924. If WithDetails fails it returns nil, which replaces st (:917-918);
    the Err of a nil Status is nil. *)
Definition error_details (errs : gmap string string) : told :=
  if bool_decide (errs = ∅) then ToldStatus OK []
  else if details_marshal (violations errs) then ToldStatus InvalidArgument (violations errs)
  else ToldStatus OK [].

(** main.go:309-318 / :343-352. *)
Definition set_active_told (c : cmd) (ids : list string) (rs : list tresp) : told :=
  error_details (collect_texts c (valid_ids ids) rs).
