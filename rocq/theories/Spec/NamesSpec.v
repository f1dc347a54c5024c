(** Vocabulary for C158: the two names of the fields of a message. *)
From Coq Require Import Ascii String NArith ZArith.
From stdpp Require Import prelude strings.
From Verif.Model Require Import JsonMsg.
Local Open Scope string_scope.

(** The name of a field in messages.proto from its JSON name: a capital letter stands for an underscore and the letter. *)
Fixpoint snake (s : string) : string :=
  match s with
  | "" => ""
  | String c r =>
      let n := N_of_ascii c in
      if ((65 <=? n) && (n <=? 90))%N then String "_" (String (ascii_of_N (n + 32)) (snake r)) else String c (snake r)
  end.

(** What a value is: a message with its fields, a list, a map with values of a kind, or anything else. *)
Inductive shape := Leaf | Obj (fields : list (string * shape)) | Many (s : shape) | Dict (s : shape).

(** Two trees with the same values that name the fields of messages differently, at any depth. *)
Inductive same : shape → jv → jv → Prop :=
| same_self s j : same s j j
| same_obj fs l l' : Forall2 (λ x y, x = y ∨ ∃ name s, (name, s) ∈ fs ∧ (x.1 = name ∨ x.1 = snake name) ∧ (y.1 = name ∨ y.1 = snake name) ∧ same s x.2 y.2) l l' →
    same (Obj fs) (JDict l) (JDict l')
| same_many s l l' : Forall2 (same s) l l' → same (Many s) (JList l) (JList l')
| same_dict s l l' : Forall2 (λ x y, x.1 = y.1 ∧ same s x.2 y.2) l l' → same (Dict s) (JDict l) (JDict l').

(** messages.proto. (Extensions are left alone: how they are read is up to their types.) *)
Definition leaves (names : list string) : list (string * shape) := map (λ n, (n, Leaf)) names.
Definition filterable_shape : shape := Obj (leaves ["tags"; "stringArgs"; "doubleArgs"; "creationTime"]).
Definition ticket_shape : shape := Obj (("attributes", filterable_shape) :: leaves ["id"; "expirationTime"; "extensions"]).
Definition assignment_shape : shape := Obj (leaves ["connection"; "extensions"]).
Definition roster_shape : shape := Obj (("assignment", assignment_shape) :: ("tickets", Many ticket_shape) :: leaves ["name"; "extensions"]).
Definition pool_shape : shape :=
  Obj (("tagPresentFilters", Many (Obj (leaves ["tag"]))) :: ("stringEqualsFilters", Many (Obj (leaves ["stringArg"; "value"]))) ::
       ("doubleRangeFilters", Many (Obj (leaves ["doubleArg"; "minimum"; "maximum"; "bounds"]))) ::
       ("creationTimeRangeFilter", Obj (leaves ["start"; "end"; "bounds"])) :: ("participants", roster_shape) :: leaves ["name"; "extensions"]).
Definition profile_shape : shape := Obj (("pools", Dict pool_shape) :: leaves ["name"; "extensions"]).
Definition match_shape : shape := Obj (("rosters", Dict roster_shape) :: leaves ["id"; "extensions"]).
Definition spec_shape : shape := Obj (leaves ["name"; "host"; "port"; "type"]).
Definition request_shape : shape := Obj [("profile", profile_shape); ("mmfs", Many spec_shape)].
Definition result_shape : shape := Obj [("match", match_shape)].
Definition create_shape : shape := Obj [("ticket", ticket_shape)].
Definition ids_shape : shape := Obj (leaves ["ticketIds"]).
Definition assign_shape : shape := Obj [("assignmentRoster", roster_shape)].
Definition watch_shape : shape := Obj [("assignment", assignment_shape); ("id", Leaf)].
Definition created_shape : shape := Obj (leaves ["ticketId"]).

(** The names of values of enums: messages.proto:93-108 (allow_alias) and :179-182. *)
Definition bounds_table : list (string * Z) :=
  [("EXCLUDE_NONE", 0); ("INCLUDE_BOTH", 0); ("EXCLUDE_MIN", 1); ("EXCLUDE_START", 1); ("INCLUDE_MAX_ONLY", 1);
   ("EXCLUDE_MAX", 2); ("EXCLUDE_END", 2); ("INCLUDE_MIN_ONLY", 2); ("EXCLUDE_BOTH", 3); ("INCLUDE_NONE", 3)]%Z.
Definition type_table : list (string * Z) := [("REST", 0); ("GRPC", 1)]%Z.
(** A text stands for the value with that name; any other is a mistake, or 0 where mistakes are ignored. *)
Definition EnumText (table : list (string * Z)) (ignore : bool) (s : string) (r : option Z) : Prop :=
  (∃ z, (s, z) ∈ table ∧ r = Some z) ∨ (s ∉ table.*1 ∧ r = if ignore then Some 0%Z else None).

(** ** C159 *)

(** A member that is no field of the message. *)
Definition unknown (fs : list (string * shape)) (x : string * jv) : Prop := ∀ name s, (name, s) ∈ fs → x.1 ≠ name ∧ x.1 ≠ snake name.

(** Two trees that, at any depth, name fields differently, have the members of messages and of maps in different
    orders, or have different members that are no fields. *)
Inductive alike : shape → jv → jv → Prop :=
| alike_self s j : alike s j j
| alike_obj fs l l' u u' m m' : l ≡ₚ u ++ m → l' ≡ₚ u' ++ m' → Forall (unknown fs) u → Forall (unknown fs) u' →
    Forall2 (λ x y, ∃ name s, (name, s) ∈ fs ∧ (x.1 = name ∨ x.1 = snake name) ∧ (y.1 = name ∨ y.1 = snake name) ∧ alike s x.2 y.2) m m' →
    alike (Obj fs) (JDict l) (JDict l')
| alike_many s l l' : Forall2 (alike s) l l' → alike (Many s) (JList l) (JList l')
| alike_dict s l l' m : l ≡ₚ m → Forall2 (λ x y, x.1 = y.1 ∧ alike s x.2 y.2) m l' → alike (Dict s) (JDict l) (JDict l').
