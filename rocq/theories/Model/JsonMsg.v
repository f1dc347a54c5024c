(** The messages of the API as JSON: protobuf v1.33.0's encoding/protojson as used by
    grpc-gateway v2.19.0's JSONPb (core/server.go:53-62, core/pkg/api/v2/api.pb.gw.go:35-185)
    and by the example (matchmaker-example/main.go:265-313). Field and enum names are those of the
    generated descriptors (core/pkg/pb/v2/messages.pb.go, json= names; proto/v2/messages.proto).

    JSON is given as trees with UTF-8 strings; the syntax of JSON texts is not modelled here
    (HttpStream.v has the writer). Library functions that read and write numbers and
    times, and the registry of message types that the process was linked with, are
    parameters ([codec]). Decoding errors have no partial result: the gateway rejects the
    request and the example only logs. *)
From Coq Require Import Ascii String ZArith NArith.
From stdpp Require Import prelude strings gmap sorting.
From Verif.Model Require Import GoStrings Types Wire Proto ProtoMsg.
Local Open Scope string_scope.
Local Open Scope list_scope.

Inductive jv :=
| JNull | JBool (b : bool) | JNum (t : string) | JText (t : string)
| JList (l : list jv) | JDict (l : list (string * jv)).

(** A type in the registry: how the fields of a message given as bytes are written, and
    how bytes are made from members. *)
Record embedded := Embedded {
  em_write : string → option (list (string * jv));
  em_read : list (string * jv) → option string
}.

Record codec := Codec {
  jc_dbl : f64 → string;                      (* appendFloat, for finite doubles *)
  jc_dbl_read : string → option f64;          (* Token.Float *)
  jc_int_read : string → option Z;            (* Token.Int(32) *)
  jc_time : timestamp → string;               (* time.Format, well_known_types.go *)
  jc_time_read : string → option timestamp;   (* time.Parse and the range check *)
  jc_types : string → option embedded;        (* protoregistry.GlobalTypes.FindMessageByURL *)
  jc_skip_enum : bool                         (* unknown enum names are ignored *)
}.

(** ** Writing *)

(** A field of an object: [None] if it cannot be written, [Some None] if it is left out.
    [eu] is MarshalOptions.EmitUnpopulated. *)
Definition jfield := option (option jv).

Definition j_text (s : string) : option jv := if utf8_valid s then Some (JText s) else None.

Definition w_text (eu : bool) (s : string) : jfield :=
  if String.eqb s "" then Some (if eu then Some (JText "") else None)
  else Some <$> j_text s.
Definition w_int (eu : bool) (z : Z) : jfield :=
  if (z =? 0)%Z then Some (if eu then Some (JNum "0") else None) else Some (Some (JNum (format_Z z))).
Definition w_enum (eu : bool) (name : Z → option string) (z : Z) : jfield :=
  let j := match name z with Some n => JText n | None => JNum (format_Z z) end in
  if (z =? 0)%Z then Some (if eu then Some j else None) else Some (Some j).
Definition w_opt {A} (eu : bool) (w : A → option jv) (x : option A) : jfield :=
  match x with
  | None => Some (if eu then Some JNull else None)
  | Some a => Some <$> w a
  end.
Definition w_list {A} (eu : bool) (w : A → option jv) (l : list A) : jfield :=
  match l with
  | [] => Some (if eu then Some (JList []) else None)
  | _ => js ← mapM w l; Some (Some (JList js))
  end.

(** Map entries are sorted by key (order.GenericKeyOrder). *)
Definition key_le {A} (x y : string * A) : Prop := String.leb x.1 y.1 = true.
Global Instance key_le_dec {A} : RelDecision (@key_le A).
Proof. intros x y. unfold key_le. apply _. Defined.
Definition sorted_entries {A} (m : gmap string A) : list (string * A) := merge_sort key_le (map_to_list m).

Definition w_map {A} (eu : bool) (w : A → option jv) (m : gmap string A) : jfield :=
  match sorted_entries m with
  | [] => Some (if eu then Some (JDict []) else None)
  | l => js ← mapM (λ kv, if utf8_valid kv.1 then j ← w kv.2; Some (kv.1, j) else None) l; Some (Some (JDict js))
  end.

(** The members of an object from its fields. *)
Fixpoint build (fs : list (string * jfield)) : option (list (string * jv)) :=
  match fs with
  | [] => Some []
  | (n, f) :: fs' =>
      match f, build fs' with
      | Some None, Some l => Some l
      | Some (Some j), Some l => Some ((n, j) :: l)
      | _, _ => None
      end
  end.
Definition w_msg (fs : list (string * jfield)) : option jv := JDict <$> build fs.

(** Doubles: strings for the values JSON numbers cannot express. *)
Definition j_double (c : codec) (d : f64) : jv :=
  match f64_val d with
  | FNaN => JText "NaN"
  | FInf false => JText "Infinity"
  | FInf true => JText "-Infinity"
  | FFin _ => JNum (jc_dbl c d)
  end.
Definition w_double (c : codec) (eu : bool) (d : f64) : jfield :=
  if (d =? 0)%N then Some (if eu then Some (j_double c d) else None) else Some (Some (j_double c d)).

(** marshalTimestamp: an error if out of range. *)
Definition j_time (c : codec) (t : timestamp) : option jv :=
  if ts_is_valid (Some t) then Some (JText (jc_time c t)) else None.

(** marshalAny. The members of the embedded message never include "@type". *)
Definition j_any (c : codec) (a : any) : option jv :=
  if String.eqb (any_url a) "" then
    if String.eqb (any_value a) "" then Some (JDict []) else None
  else if utf8_valid (any_url a) then
    match jc_types c (any_url a) with
    | None => None
    | Some e => l ← em_write e (any_value a); Some (JDict (("@type", JText (any_url a)) :: l))
    end
  else None.

Definition w_ext (c : codec) (eu : bool) (m : extensions) : jfield := w_map eu (j_any c) m.

(** messages.proto:63-72, :50-77, :80-85, :164-171. *)
Definition j_filterable (c : codec) (eu : bool) (d : filterable) : option jv :=
  w_msg [("tags", w_list eu j_text (fd_tags d)); ("stringArgs", w_map eu j_text (fd_strings d));
         ("doubleArgs", w_map eu (λ x, Some (j_double c x)) (fd_doubles d));
         ("creationTime", w_opt eu (j_time c) (fd_ctime d))].
Definition j_ticket (c : codec) (eu : bool) (t : ticket) : option jv :=
  w_msg [("id", w_text eu (tk_id t)); ("expirationTime", w_opt eu (j_time c) (tk_exp t));
         ("attributes", w_opt eu (j_filterable c eu) (tk_attrs t)); ("extensions", w_ext c eu (tk_ext t))].
Definition j_assignment (c : codec) (eu : bool) (a : assignment) : option jv :=
  w_msg [("connection", w_text eu (as_conn a)); ("extensions", w_ext c eu (as_ext a))].
Definition j_roster (c : codec) (eu : bool) (r : roster) : option jv :=
  w_msg [("name", w_text eu (ro_name r)); ("assignment", w_opt eu (j_assignment c eu) (ro_assignment r));
         ("tickets", w_list eu (j_ticket c eu) (ro_tickets r)); ("extensions", w_ext c eu (ro_ext r))].

(** messages.proto:93-108 (the first name of each number), :118-145. *)
Definition bounds_name (z : Z) : option string :=
  match z with
  | 0 => Some "EXCLUDE_NONE" | 1 => Some "EXCLUDE_MIN" | 2 => Some "EXCLUDE_MAX" | 3 => Some "EXCLUDE_BOTH"
  | _ => None
  end%Z.
Definition j_tag_filter (eu : bool) (t : string) : option jv := w_msg [("tag", w_text eu t)].
Definition j_string_filter (eu : bool) (f : string * string) : option jv :=
  w_msg [("stringArg", w_text eu f.1); ("value", w_text eu f.2)].
Definition j_double_filter (c : codec) (eu : bool) (f : double_filter) : option jv :=
  w_msg [("doubleArg", w_text eu (df_arg f)); ("minimum", w_double c eu (df_min f));
         ("maximum", w_double c eu (df_max f)); ("bounds", w_enum eu bounds_name (df_bounds f))].
Definition j_time_filter (c : codec) (eu : bool) (f : time_filter) : option jv :=
  w_msg [("start", w_opt eu (j_time c) (tf_start f)); ("end", w_opt eu (j_time c) (tf_end f));
         ("bounds", w_enum eu bounds_name (tf_bounds f))].
Definition j_pool (c : codec) (eu : bool) (p : pool) : option jv :=
  w_msg [("name", w_text eu (po_name p)); ("tagPresentFilters", w_list eu (j_tag_filter eu) (po_tag_filters p));
         ("stringEqualsFilters", w_list eu (j_string_filter eu) (po_string_filters p));
         ("doubleRangeFilters", w_list eu (j_double_filter c eu) (po_double_filters p));
         ("creationTimeRangeFilter", w_opt eu (j_time_filter c eu) (po_time_filter p));
         ("participants", w_opt eu (j_roster c eu) (po_participants p)); ("extensions", w_ext c eu (po_ext p))].

(** messages.proto:147-161, :174-183, :200-228. *)
Definition j_profile (c : codec) (eu : bool) (p : profile) : option jv :=
  w_msg [("name", w_text eu (pr_name p)); ("pools", w_map eu (j_pool c eu) (pr_pools p));
         ("extensions", w_ext c eu (pr_ext p))].
Definition j_match (c : codec) (eu : bool) (m : match_) : option jv :=
  w_msg [("id", w_text eu (ma_id m)); ("rosters", w_map eu (j_roster c eu) (ma_rosters m));
         ("extensions", w_ext c eu (ma_ext m))].
Definition type_name (z : Z) : option string :=
  match z with 0 => Some "REST" | 1 => Some "GRPC" | _ => None end%Z.
Definition j_spec (eu : bool) (f : mmf_spec) : option jv :=
  w_msg [("name", w_text eu (mf_name f)); ("host", w_text eu (mf_host f)); ("port", w_int eu (mf_port f));
         ("type", w_enum eu type_name (type_to_Z (mf_type f)))].
Definition j_request (c : codec) (eu : bool) (r : request) : option jv :=
  w_msg [("profile", w_opt eu (j_profile c eu) (rq_profile r)); ("mmfs", w_list eu (j_spec eu) (rq_mmfs r))].
Definition j_result (c : codec) (eu : bool) (m : option match_) : option jv :=
  w_msg [("match", w_opt eu (j_match c eu) m)].
Definition j_create (c : codec) (eu : bool) (t : option ticket) : option jv :=
  w_msg [("ticket", w_opt eu (j_ticket c eu) t)].
Definition j_ids (eu : bool) (ids : list string) : option jv := w_msg [("ticketIds", w_list eu j_text ids)].
Definition j_assign (c : codec) (eu : bool) (r : option roster) : option jv :=
  w_msg [("assignmentRoster", w_opt eu (j_roster c eu) r)].
(** messages.proto:239: an assignment and the id of its ticket. *)
Definition j_watch (c : codec) (eu : bool) (w : option assignment * string) : option jv :=
  w_msg [("assignment", w_opt eu (j_assignment c eu) w.1); ("id", w_text eu w.2)].

(** ** Reading (DiscardUnknown is set in the gateway) *)

(** The members of an object in turn. [canon] finds the number of a field by its JSON
    or its proto name; unknown members are skipped, null means that the field is not
    set. *)
Fixpoint read_members {M} (canon : string → option N) (step : N → jv → M → option M)
    (l : list (string * jv)) (acc : M) : option M :=
  match l with
  | [] => Some acc
  | (k, v) :: l' =>
      match canon k with
      | None => read_members canon step l' acc
      | Some n =>
          match v with
          | JNull => read_members canon step l' acc
          | _ => acc' ← step n v acc; read_members canon step l' acc'
          end
      end
  end.
(** A field given twice is an error, under either name. *)
Definition read_object {M} (canon : string → option N) (step : N → jv → M → option M) (init : M) (j : jv) : option M :=
  match j with
  | JDict l => if bool_decide (NoDup (omap (λ kv, canon kv.1) l)) then read_members canon step l init else None
  | _ => None
  end.

(** The number of a field from a table of names. *)
Fixpoint field_no (tab : list (N * list string)) (k : string) : option N :=
  match tab with
  | [] => None
  | (n, ks) :: tab' => if existsb (String.eqb k) ks then Some n else field_no tab' k
  end.

Definition r_text (j : jv) : option string := match j with JText s => Some s | _ => None end.
Definition r_list {A} (r : jv → option A) (j : jv) : option (list A) :=
  match j with JList l => mapM r l | _ => None end.
(** A map; the same key twice is an error. *)
Definition r_map {A} (r : jv → option A) (j : jv) : option (gmap string A) :=
  match j with
  | JDict l =>
      if bool_decide (NoDup (map fst l)) then
        l' ← mapM (λ kv : string * jv, x ← r kv.2; Some (kv.1, x)) l; Some (list_to_map l')
      else None
  | _ => None
  end.
Definition go_nan : f64 := 0x7FF8000000000001%N.
Definition r_double (c : codec) (j : jv) : option f64 :=
  match j with
  | JNum t => jc_dbl_read c t
  | JText s =>
      if String.eqb s "NaN" then Some go_nan
      else if String.eqb s "Infinity" then Some 0x7FF0000000000000%N
      else if String.eqb s "-Infinity" then Some 0xFFF0000000000000%N
      else jc_dbl_read c s
  | _ => None
  end.
Definition r_int (c : codec) (j : jv) : option Z :=
  match j with JNum t | JText t => jc_int_read c t | _ => None end.
Definition r_enum (c : codec) (value : string → option Z) (j : jv) : option Z :=
  match j with
  | JNum t => jc_int_read c t
  | JText s => match value s with Some z => Some z | None => if jc_skip_enum c then Some 0%Z else None end
  | _ => None
  end.
Definition r_time (c : codec) (j : jv) : option timestamp :=
  match j with JText s => jc_time_read c s | _ => None end.

(** unmarshalAny: an object without "@type" is an empty Any. *)
Definition is_type (kv : string * jv) : bool := String.eqb kv.1 "@type".
Definition r_any (c : codec) (j : jv) : option any :=
  match j with
  | JDict l =>
      match List.filter is_type l with
      | [] => Some (Any "" "")
      | [(_, JText url)] =>
          if String.eqb url "" then None
          else match jc_types c url with
               | None => None
               | Some e => v ← em_read e (List.filter (λ kv, negb (is_type kv)) l); Some (Any url v)
               end
      | _ => None
      end
  | _ => None
  end.
Definition r_ext (c : codec) (j : jv) : option extensions := r_map (r_any c) j.

Definition filterable_names : list (N * list string) :=
  [(1%N, ["tags"]); (2%N, ["stringArgs"; "string_args"]); (3%N, ["doubleArgs"; "double_args"]);
   (4%N, ["creationTime"; "creation_time"])].
Definition r_filterable (c : codec) : jv → option filterable :=
  read_object (field_no filterable_names) (λ n v d,
    match n with
    | 1%N => x ← r_list r_text v; Some (Filterable x (fd_strings d) (fd_doubles d) (fd_ctime d))
    | 2%N => x ← r_map r_text v; Some (Filterable (fd_tags d) x (fd_doubles d) (fd_ctime d))
    | 3%N => x ← r_map (r_double c) v; Some (Filterable (fd_tags d) (fd_strings d) x (fd_ctime d))
    | _ => x ← r_time c v; Some (Filterable (fd_tags d) (fd_strings d) (fd_doubles d) (Some x))
    end) (Filterable [] ∅ ∅ None).

Definition ticket_names : list (N * list string) :=
  [(1%N, ["id"]); (2%N, ["expirationTime"; "expiration_time"]); (3%N, ["attributes"]); (4%N, ["extensions"])].
Definition r_ticket (c : codec) : jv → option ticket :=
  read_object (field_no ticket_names) (λ n v t,
    match n with
    | 1%N => x ← r_text v; Some (Ticket x (tk_exp t) (tk_attrs t) (tk_ext t))
    | 2%N => x ← r_time c v; Some (Ticket (tk_id t) (Some x) (tk_attrs t) (tk_ext t))
    | 3%N => x ← r_filterable c v; Some (Ticket (tk_id t) (tk_exp t) (Some x) (tk_ext t))
    | _ => x ← r_ext c v; Some (Ticket (tk_id t) (tk_exp t) (tk_attrs t) x)
    end) (Ticket "" None None ∅).

Definition assignment_names : list (N * list string) := [(1%N, ["connection"]); (2%N, ["extensions"])].
Definition r_assignment (c : codec) : jv → option assignment :=
  read_object (field_no assignment_names) (λ n v a,
    match n with
    | 1%N => x ← r_text v; Some (Assignment x (as_ext a))
    | _ => x ← r_ext c v; Some (Assignment (as_conn a) x)
    end) (Assignment "" ∅).

Definition roster_names : list (N * list string) :=
  [(1%N, ["name"]); (2%N, ["assignment"]); (3%N, ["tickets"]); (4%N, ["extensions"])].
Definition r_roster (c : codec) : jv → option roster :=
  read_object (field_no roster_names) (λ n v r,
    match n with
    | 1%N => x ← r_text v; Some (Roster x (ro_assignment r) (ro_tickets r) (ro_ext r))
    | 2%N => x ← r_assignment c v; Some (Roster (ro_name r) (Some x) (ro_tickets r) (ro_ext r))
    | 3%N => x ← r_list (r_ticket c) v; Some (Roster (ro_name r) (ro_assignment r) x (ro_ext r))
    | _ => x ← r_ext c v; Some (Roster (ro_name r) (ro_assignment r) (ro_tickets r) x)
    end) (Roster "" None [] ∅).

Definition bounds_value (s : string) : option Z :=
  if existsb (String.eqb s) ["EXCLUDE_NONE"; "INCLUDE_BOTH"] then Some 0%Z
  else if existsb (String.eqb s) ["EXCLUDE_MIN"; "EXCLUDE_START"; "INCLUDE_MAX_ONLY"] then Some 1%Z
  else if existsb (String.eqb s) ["EXCLUDE_MAX"; "EXCLUDE_END"; "INCLUDE_MIN_ONLY"] then Some 2%Z
  else if existsb (String.eqb s) ["EXCLUDE_BOTH"; "INCLUDE_NONE"] then Some 3%Z
  else None.
Definition r_tag_filter : jv → option string :=
  read_object (field_no [(1%N, ["tag"])]) (λ _ v _, r_text v) "".
Definition r_string_filter : jv → option (string * string) :=
  read_object (field_no [(1%N, ["stringArg"; "string_arg"]); (2%N, ["value"])]) (λ n v f,
    match n with
    | 1%N => x ← r_text v; Some (x, f.2)
    | _ => x ← r_text v; Some (f.1, x)
    end) ("", "").
Definition double_filter_names : list (N * list string) :=
  [(1%N, ["doubleArg"; "double_arg"]); (2%N, ["minimum"]); (3%N, ["maximum"]); (4%N, ["bounds"])].
Definition r_double_filter (c : codec) : jv → option double_filter :=
  read_object (field_no double_filter_names) (λ n v f,
    match n with
    | 1%N => x ← r_text v; Some (DoubleFilter x (df_min f) (df_max f) (df_bounds f))
    | 2%N => x ← r_double c v; Some (DoubleFilter (df_arg f) x (df_max f) (df_bounds f))
    | 3%N => x ← r_double c v; Some (DoubleFilter (df_arg f) (df_min f) x (df_bounds f))
    | _ => x ← r_enum c bounds_value v; Some (DoubleFilter (df_arg f) (df_min f) (df_max f) x)
    end) (DoubleFilter "" 0%N 0%N 0%Z).
Definition time_filter_names : list (N * list string) := [(6%N, ["start"]); (7%N, ["end"]); (4%N, ["bounds"])].
Definition r_time_filter (c : codec) : jv → option time_filter :=
  read_object (field_no time_filter_names) (λ n v f,
    match n with
    | 6%N => x ← r_time c v; Some (TimeFilter (Some x) (tf_end f) (tf_bounds f))
    | 7%N => x ← r_time c v; Some (TimeFilter (tf_start f) (Some x) (tf_bounds f))
    | _ => x ← r_enum c bounds_value v; Some (TimeFilter (tf_start f) (tf_end f) x)
    end) (TimeFilter None None 0%Z).
Definition pool_names : list (N * list string) :=
  [(1%N, ["name"]); (2%N, ["tagPresentFilters"; "tag_present_filters"]);
   (3%N, ["stringEqualsFilters"; "string_equals_filters"]); (4%N, ["doubleRangeFilters"; "double_range_filters"]);
   (5%N, ["creationTimeRangeFilter"; "creation_time_range_filter"]); (6%N, ["participants"]); (7%N, ["extensions"])].
Definition r_pool (c : codec) : jv → option pool :=
  read_object (field_no pool_names) (λ n v p,
    match p with Pool a b d e f g h =>
    match n with
    | 1%N => x ← r_text v; Some (Pool x b d e f g h)
    | 2%N => x ← r_list r_tag_filter v; Some (Pool a x d e f g h)
    | 3%N => x ← r_list r_string_filter v; Some (Pool a b x e f g h)
    | 4%N => x ← r_list (r_double_filter c) v; Some (Pool a b d x f g h)
    | 5%N => x ← r_time_filter c v; Some (Pool a b d e (Some x) g h)
    | 6%N => x ← r_roster c v; Some (Pool a b d e f (Some x) h)
    | _ => x ← r_ext c v; Some (Pool a b d e f g x)
    end end) (Pool "" [] [] [] None None ∅).

Definition profile_names : list (N * list string) := [(1%N, ["name"]); (2%N, ["pools"]); (3%N, ["extensions"])].
Definition r_profile (c : codec) : jv → option profile :=
  read_object (field_no profile_names) (λ n v p,
    match n with
    | 1%N => x ← r_text v; Some (Profile x (pr_pools p) (pr_ext p))
    | 2%N => x ← r_map (r_pool c) v; Some (Profile (pr_name p) x (pr_ext p))
    | _ => x ← r_ext c v; Some (Profile (pr_name p) (pr_pools p) x)
    end) (Profile "" ∅ ∅).
Definition match_names : list (N * list string) := [(1%N, ["id"]); (2%N, ["rosters"]); (3%N, ["extensions"])].
Definition r_match (c : codec) : jv → option match_ :=
  read_object (field_no match_names) (λ n v m,
    match n with
    | 1%N => x ← r_text v; Some (Match x (ma_rosters m) (ma_ext m))
    | 2%N => x ← r_map (r_roster c) v; Some (Match (ma_id m) x (ma_ext m))
    | _ => x ← r_ext c v; Some (Match (ma_id m) (ma_rosters m) x)
    end) (Match "" ∅ ∅).

Definition type_value (s : string) : option Z :=
  if String.eqb s "REST" then Some 0%Z else if String.eqb s "GRPC" then Some 1%Z else None.
Definition spec_names : list (N * list string) := [(1%N, ["name"]); (2%N, ["host"]); (3%N, ["port"]); (4%N, ["type"])].
Definition r_spec (c : codec) : jv → option mmf_spec :=
  read_object (field_no spec_names) (λ n v f,
    match n with
    | 1%N => x ← r_text v; Some (MmfSpec x (mf_host f) (mf_port f) (mf_type f))
    | 2%N => x ← r_text v; Some (MmfSpec (mf_name f) x (mf_port f) (mf_type f))
    | 3%N => x ← r_int c v; Some (MmfSpec (mf_name f) (mf_host f) x (mf_type f))
    | _ => x ← r_enum c type_value v; Some (MmfSpec (mf_name f) (mf_host f) (mf_port f) (type_of_Z x))
    end) (MmfSpec "" "" 0%Z MMF_REST).
Definition r_request (c : codec) : jv → option request :=
  read_object (field_no [(1%N, ["profile"]); (2%N, ["mmfs"])]) (λ n v r,
    match n with
    | 1%N => x ← r_profile c v; Some (Request (Some x) (rq_mmfs r))
    | _ => x ← r_list (r_spec c) v; Some (Request (rq_profile r) x)
    end) (Request None []).
Definition r_result (c : codec) : jv → option (option match_) :=
  read_object (field_no [(1%N, ["match"])]) (λ _ v _, x ← r_match c v; Some (Some x)) None.
Definition r_create (c : codec) : jv → option (option ticket) :=
  read_object (field_no [(1%N, ["ticket"])]) (λ _ v _, x ← r_ticket c v; Some (Some x)) None.
Definition r_ids : jv → option (list string) :=
  read_object (field_no [(1%N, ["ticketIds"; "ticket_ids"])]) (λ _ v _, r_list r_text v) [].
Definition r_assign (c : codec) : jv → option (option roster) :=
  read_object (field_no [(1%N, ["assignmentRoster"; "assignment_roster"])])
    (λ _ v _, x ← r_roster c v; Some (Some x)) None.
Definition r_watch (c : codec) : jv → option (option assignment * string) :=
  read_object (field_no [(1%N, ["assignment"]); (2%N, ["id"])]) (λ n v w,
    match n with
    | 1%N => x ← r_assignment c v; Some (Some x, w.2)
    | _ => x ← r_text v; Some (w.1, x)
    end) (None, "").

(** ** The gateway *)

(** Requests: what Decode makes of the body is handed to the gRPC client; an error is
    answered with InvalidArgument (HTTP 400). An empty body ([None], io.EOF) is an empty
    request. *)
Definition gateway_request {M} (read : jv → option M) (empty : M) (body : option jv) : option M :=
  match body with None => Some empty | Some j => read j end.

(** ForwardResponseStream: one line per message, up to the first that cannot be written
    ([write]; EmitUnpopulated is set); then an error line, and nothing more is read from
    om-core. *)
Inductive line := ResultLine (j : jv) | ErrorLine.
Fixpoint http_lines {M} (write : M → option jv) (ms : list M) : list line :=
  match ms with
  | [] => []
  | m :: ms' =>
      match write m with
      | Some j => ResultLine j :: http_lines write ms'
      | None => [ErrorLine]
      end
  end.
(** What a client that reads with [read] has received, and whether it was told of an error. *)
Fixpoint received {M} (read : jv → option M) (ls : list line) : list (option M) * bool :=
  match ls with
  | [] => ([], false)
  | ResultLine j :: ls' => let r := received read ls' in (read j :: r.1, r.2)
  | ErrorLine :: _ => ([], true)
  end.
