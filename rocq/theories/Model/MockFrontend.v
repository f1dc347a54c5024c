(** The players, the profile and the decisions of the example matchmaker,
    matchmaker-example/main.go:79-225, :241-257, :325-369, :484-500, :525-693.

    Simplifications: the random numbers are arguments; so is the double float64(t) of
    the mock ticket; of a CreateTicket call only the id it returned is seen, if any
    (over HTTP an error response does not unmarshal and leaves an empty message). *)
From Coq Require Import Ascii String ZArith NArith.
From stdpp Require Import prelude strings gmap.
From Verif.Model Require Import GoStrings Types Invoke Samples.
Local Open Scope string_scope.
Local Open Scope Z_scope.

(** ** Players *)

(** :550-561; [r] is rand.Intn(5). *)
Definition mock_class (r : Z) : string :=
  if r + 1 =? 1 then "tank" else if r + 1 =? 2 then "healer" else "dps".

(** generateMockClientRequest, :533-565, at time [t]; [d] is float64(t). *)
Definition mock_ticket (t : instant) (d : f64) (r : Z) : ticket :=
  let s := format_Z (wrap64 t) in
  Ticket "" None (Some (Filterable [s] {["class" := mock_class r]} {[s := d]} (Some (ts_new t)))) ∅.

(** proxyCreateTicket, :637-693: the id in the response, or "". *)
Definition proxy_create (reply : option string) : string :=
  match reply with Some id => id | None => "" end.

(** ** The request of the example *)

(** :202-222. *)
Definition class_pool (n : string) : pool := Pool n [] [("class", n)] [] None None ∅.
Definition example_profile : profile :=
  Profile "example_profile"
    (<["tank" := class_pool "tank"]> (<["dps" := class_pool "dps"]> {["healer" := class_pool "healer"]})) ∅.

(** :152-156. *)
Definition example_functions : list sample := [Solo; Royale; Team].

(** ** Accepting matches *)

(** :251 and :330; [r] is rand.Intn(100). *)
Definition rejects (r : Z) : bool := r <=? 1.

(** :251-257: the matches accepted and the matches rejected, in the order they came. *)
Fixpoint sort_matches (ms : list (option match_ * Z)) (acc rej : list (option match_)) :
    list (option match_) * list (option match_) :=
  match ms with
  | [] => (acc, rej)
  | (m, r) :: ms => if rejects r then sort_matches ms acc (rej ++ [m])%list else sort_matches ms (acc ++ [m])%list rej
  end.

(** :361-368: the ids queued again, for some orders of the rosters. *)
Definition RequeuedIds (rej : list (option match_)) (ids : list string) : Prop :=
  ∃ idss, Forall2 ids_of_match rej idss ∧ ids = concat idss.

(** ** Where the calls go, :79-81, :158-165, :226, :268-273, :484-489 *)
Definition call_target (conn omhost : string) : string :=
  if String.eqb conn "grpc" then omhost else "localhost:58081".
