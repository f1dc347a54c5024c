(** Encoding and decoding of the protobuf messages of proto/v2/messages.proto
    (generated code core/pkg/pb/v2/messages.pb.go with the
    google.golang.org/protobuf v1.33.0 runtime).

    Fields are written in field-number order, fields with their default value
    are left out, map entries always carry key and value, and maps are visited
    in an arbitrary order which is an explicit argument here. *)
From Coq Require Import Ascii String ZArith NArith.
From stdpp Require Import prelude strings gmap.
From Verif.Model Require Import Types Wire.
Local Open Scope string_scope.

(** ** Field lists *)

Definition f_string (n : N) (s : string) : list field :=
  match s with "" => [] | _ => [(n, WLen s)] end.
Definition f_int (n : N) (z : Z) : list field :=
  if (z =? 0)%Z then [] else [(n, WVar (int_to_u64 z))].
(** A double is left out only if it is +0 (all bits zero). *)
Definition f_double (n : N) (d : f64) : list field :=
  if (d =? 0)%N then [] else [(n, WF64 d)].
Definition f_msg (n : N) (fs : list field) : field := (n, WLen (enc_fields fs)).
Definition f_opt {A} (n : N) (enc : A → list field) (x : option A) : list field :=
  match x with None => [] | Some a => [f_msg n (enc a)] end.

(** google.protobuf.Timestamp: int64 seconds = 1; int32 nanos = 2. *)
Definition fields_ts (t : timestamp) : list field :=
  f_int 1 (ts_seconds t) ++ f_int 2 (ts_nanos t).

(** google.protobuf.Any: string type_url = 1; bytes value = 2. *)
Definition fields_any (a : any) : list field :=
  f_string 1 (any_url a) ++ f_string 2 (any_value a).

Definition entry_string (kv : string * string) : list field :=
  [(1%N, WLen kv.1); (2%N, WLen kv.2)].
Definition entry_double (kv : string * f64) : list field :=
  [(1%N, WLen kv.1); (2%N, WF64 kv.2)].
Definition entry_any (kv : string * any) : list field :=
  [(1%N, WLen kv.1); f_msg 2 (fields_any kv.2)].

(** messages.proto:63-72; [os], [od] are the orders in which the two maps are
    visited. *)
Definition fields_filterable (os : list (string * string)) (od : list (string * f64))
    (a : filterable) : list field :=
  map (λ t, (1%N, WLen t)) (fd_tags a) ++
  map (λ kv, f_msg 2 (entry_string kv)) os ++
  map (λ kv, f_msg 3 (entry_double kv)) od ++
  f_opt 4 fields_ts (fd_ctime a).

(** Orders in which the maps of a ticket are visited. *)
Record ticket_orders := TicketOrders {
  o_strings : list (string * string);
  o_doubles : list (string * f64);
  o_ext : list (string * any)
}.

Definition fields_ext (n : N) (oe : list (string * any)) : list field :=
  map (λ kv, f_msg n (entry_any kv)) oe.

(** messages.proto:50-77. *)
Definition fields_ticket (o : ticket_orders) (t : ticket) : list field :=
  f_string 1 (tk_id t) ++
  f_opt 2 fields_ts (tk_exp t) ++
  f_opt 3 (fields_filterable (o_strings o) (o_doubles o)) (tk_attrs t) ++
  fields_ext 4 (o_ext o).

(** messages.proto:80-85. *)
Definition fields_assignment (oe : list (string * any)) (a : assignment) : list field :=
  f_string 1 (as_conn a) ++ fields_ext 2 oe.

(** One particular visiting order. The length of an encoding does not depend
    on it (Proofs/ProtoLemmas.v). *)
Definition strings_of (t : ticket) : list (string * string) :=
  match tk_attrs t with Some a => map_to_list (fd_strings a) | None => [] end.
Definition doubles_of (t : ticket) : list (string * f64) :=
  match tk_attrs t with Some a => map_to_list (fd_doubles a) | None => [] end.
Definition canon_orders (t : ticket) : ticket_orders :=
  TicketOrders (strings_of t) (doubles_of t) (map_to_list (tk_ext t)).

Definition orders_ok (t : ticket) (o : ticket_orders) : Prop :=
  o_strings o ≡ₚ strings_of t ∧ o_doubles o ≡ₚ doubles_of t ∧ o_ext o ≡ₚ map_to_list (tk_ext t).

Definition fields_ticket_c (t : ticket) : list field := fields_ticket (canon_orders t) t.
Definition fields_assignment_c (a : assignment) : list field :=
  fields_assignment (map_to_list (as_ext a)) a.

(** messages.proto:164-171. *)
Definition fields_roster (r : roster) : list field :=
  f_string 1 (ro_name r) ++
  f_opt 2 fields_assignment_c (ro_assignment r) ++
  map (λ t, f_msg 3 (fields_ticket_c t)) (ro_tickets r) ++
  fields_ext 4 (map_to_list (ro_ext r)).

(** messages.proto:113-138. *)
Definition fields_tag_filter (t : string) : list field := f_string 1 t.
Definition fields_string_filter (f : string * string) : list field :=
  f_string 1 f.1 ++ f_string 2 f.2.
Definition fields_double_filter (f : double_filter) : list field :=
  f_string 1 (df_arg f) ++ f_double 2 (df_min f) ++ f_double 3 (df_max f) ++
  f_int 4 (df_bounds f).
Definition fields_time_filter (f : time_filter) : list field :=
  f_int 4 (tf_bounds f) ++ f_opt 6 fields_ts (tf_start f) ++ f_opt 7 fields_ts (tf_end f).

(** messages.proto:89-145. *)
Definition fields_pool (p : pool) : list field :=
  f_string 1 (po_name p) ++
  map (λ t, f_msg 2 (fields_tag_filter t)) (po_tag_filters p) ++
  map (λ f, f_msg 3 (fields_string_filter f)) (po_string_filters p) ++
  map (λ f, f_msg 4 (fields_double_filter f)) (po_double_filters p) ++
  f_opt 5 fields_time_filter (po_time_filter p) ++
  f_opt 6 fields_roster (po_participants p) ++
  fields_ext 7 (map_to_list (po_ext p)).

(** messages.proto:147-153. *)
Definition entry_pool (kv : string * pool) : list field :=
  [(1%N, WLen kv.1); f_msg 2 (fields_pool kv.2)].
Definition fields_profile (p : profile) : list field :=
  f_string 1 (pr_name p) ++
  map (λ kv, f_msg 2 (entry_pool kv)) (map_to_list (pr_pools p)) ++
  fields_ext 3 (map_to_list (pr_ext p)).

(** messages.proto:192-197. *)
Definition fields_chunk (c : chunk) : list field :=
  [f_msg 1 (fields_profile (ch_profile c))] ++ f_int 2 (ch_num c).

(** proto.Size (core/main.go:417, :430). *)
Definition ticket_size (t : ticket) : Z := Z.of_nat (String.length (enc_fields (fields_ticket_c t))).
Definition chunk_size (c : chunk) : Z := Z.of_nat (String.length (enc_fields (fields_chunk c))).

(** ** UTF-8 checks made by Marshal *)
Definition utf8_any (a : any) : bool := utf8_valid (any_url a).
Definition utf8_ext (oe : list (string * any)) : bool :=
  forallb (λ kv, utf8_valid kv.1 && utf8_any kv.2) oe.
Definition utf8_filterable (os : list (string * string)) (od : list (string * f64))
    (a : filterable) : bool :=
  forallb utf8_valid (fd_tags a) &&
  forallb (λ kv, utf8_valid kv.1 && utf8_valid kv.2) os &&
  forallb (λ kv, utf8_valid kv.1) od.
Definition utf8_ticket (o : ticket_orders) (t : ticket) : bool :=
  utf8_valid (tk_id t) &&
  match tk_attrs t with
  | None => true
  | Some a => utf8_filterable (o_strings o) (o_doubles o) a
  end && utf8_ext (o_ext o).
Definition utf8_assignment (oe : list (string * any)) (a : assignment) : bool :=
  utf8_valid (as_conn a) && utf8_ext oe.

(** proto.Marshal of a ticket (core/main.go:182) and of an assignment
    (core/main.go:743); [None] is an error. *)
Definition marshal_ticket (o : ticket_orders) (t : ticket) : option string :=
  if utf8_ticket o t then Some (enc_fields (fields_ticket o t)) else None.
Definition marshal_assignment (oe : list (string * any)) (a : assignment) : option string :=
  if utf8_assignment oe a then Some (enc_fields (fields_assignment oe a)) else None.

(** ** Decoding *)

Definition ts_step (t : timestamp) (f : field) : option timestamp :=
  match f with
  | (1%N, WVar n) => Some (Timestamp (u64_to_i64 n) (ts_nanos t))
  | (2%N, WVar n) => Some (Timestamp (ts_seconds t) (u64_to_i32 n))
  | _ => Some t
  end.

Definition any_step (a : any) (f : field) : option any :=
  match f with
  | (1%N, WLen s) => if utf8_valid s then Some (Any s (any_value a)) else None
  | (2%N, WLen s) => Some (Any (any_url a) s)
  | _ => Some a
  end.

Definition entry_string_step (kv : string * string) (f : field) : option (string * string) :=
  match f with
  | (1%N, WLen s) => if utf8_valid s then Some (s, kv.2) else None
  | (2%N, WLen s) => if utf8_valid s then Some (kv.1, s) else None
  | _ => Some kv
  end.
Definition entry_double_step (kv : string * f64) (f : field) : option (string * f64) :=
  match f with
  | (1%N, WLen s) => if utf8_valid s then Some (s, kv.2) else None
  | (2%N, WF64 d) => Some (kv.1, d)
  | _ => Some kv
  end.
Definition entry_any_step (kv : string * any) (f : field) : option (string * any) :=
  match f with
  | (1%N, WLen s) => if utf8_valid s then Some (s, kv.2) else None
  | (2%N, WLen s) =>
      match unmarshal any_step kv.2 s with Some a => Some (kv.1, a) | None => None end
  | _ => Some kv
  end.

Definition dec_ext_entry (m : extensions) (s : string) : option extensions :=
  match unmarshal entry_any_step ("", Any "" "") s with
  | Some (k, a) => Some (<[k := a]> m)
  | None => None
  end.

Definition filterable_step (a : filterable) (f : field) : option filterable :=
  match f with
  | (1%N, WLen s) =>
      if utf8_valid s
      then Some (Filterable (fd_tags a ++ [s]) (fd_strings a) (fd_doubles a) (fd_ctime a))
      else None
  | (2%N, WLen s) =>
      match unmarshal entry_string_step ("", "") s with
      | Some (k, v) =>
          Some (Filterable (fd_tags a) (<[k := v]> (fd_strings a)) (fd_doubles a) (fd_ctime a))
      | None => None
      end
  | (3%N, WLen s) =>
      match unmarshal entry_double_step ("", 0%N) s with
      | Some (k, v) =>
          Some (Filterable (fd_tags a) (fd_strings a) (<[k := v]> (fd_doubles a)) (fd_ctime a))
      | None => None
      end
  | (4%N, WLen s) =>
      match unmarshal ts_step (default (Timestamp 0 0) (fd_ctime a)) s with
      | Some t => Some (Filterable (fd_tags a) (fd_strings a) (fd_doubles a) (Some t))
      | None => None
      end
  | _ => Some a
  end.

Definition empty_filterable : filterable := Filterable [] ∅ ∅ None.
Definition empty_ticket : ticket := Ticket "" None None ∅.
Definition empty_assignment : assignment := Assignment "" ∅.

Definition ticket_step (t : ticket) (f : field) : option ticket :=
  match f with
  | (1%N, WLen s) =>
      if utf8_valid s then Some (Ticket s (tk_exp t) (tk_attrs t) (tk_ext t)) else None
  | (2%N, WLen s) =>
      match unmarshal ts_step (default (Timestamp 0 0) (tk_exp t)) s with
      | Some x => Some (Ticket (tk_id t) (Some x) (tk_attrs t) (tk_ext t))
      | None => None
      end
  | (3%N, WLen s) =>
      match unmarshal filterable_step (default empty_filterable (tk_attrs t)) s with
      | Some x => Some (Ticket (tk_id t) (tk_exp t) (Some x) (tk_ext t))
      | None => None
      end
  | (4%N, WLen s) =>
      match dec_ext_entry (tk_ext t) s with
      | Some x => Some (Ticket (tk_id t) (tk_exp t) (tk_attrs t) x)
      | None => None
      end
  | _ => Some t
  end.

Definition assignment_step (a : assignment) (f : field) : option assignment :=
  match f with
  | (1%N, WLen s) => if utf8_valid s then Some (Assignment s (as_ext a)) else None
  | (2%N, WLen s) =>
      match dec_ext_entry (as_ext a) s with
      | Some x => Some (Assignment (as_conn a) x)
      | None => None
      end
  | _ => Some a
  end.

(** The same with the error ignored. A message held by a pointer is allocated
    before it is decoded and keeps what was decoded of it (internal/impl
    codec_field.go, consumeMessageInfo); a map entry is stored only when it is
    complete (codec_map.go, consumeMap). *)
Definition filterable_part (a : filterable) (f : field) : filterable * bool :=
  match f with
  | (4%N, WLen s) =>
      let '(t, ok) := unmarshal_part (or_keep ts_step) (default (Timestamp 0 0) (fd_ctime a)) s in
      (Filterable (fd_tags a) (fd_strings a) (fd_doubles a) (Some t), ok)
  | _ => or_keep filterable_step a f
  end.

Definition ticket_part (t : ticket) (f : field) : ticket * bool :=
  match f with
  | (2%N, WLen s) =>
      let '(x, ok) := unmarshal_part (or_keep ts_step) (default (Timestamp 0 0) (tk_exp t)) s in
      (Ticket (tk_id t) (Some x) (tk_attrs t) (tk_ext t), ok)
  | (3%N, WLen s) =>
      let '(x, ok) := unmarshal_part filterable_part (default empty_filterable (tk_attrs t)) s in
      (Ticket (tk_id t) (tk_exp t) (Some x) (tk_ext t), ok)
  | _ => or_keep ticket_step t f
  end.

(** proto.Unmarshal(bytes, &pb.Ticket{}) / (bytes, &pb.Assignment{}). The
    callers (replicatedticketcache.go:190 and :215) ignore the error, so the
    message holds whatever was decoded before it. *)
Definition unmarshal_ticket (s : string) : ticket :=
  (unmarshal_part ticket_part empty_ticket s).1.
Definition unmarshal_assignment (s : string) : assignment :=
  (unmarshal_part (or_keep assignment_step) empty_assignment s).1.
