(** The messages exchanged between matchmaker, om-core and matchmaking
    functions on the wire: MmfRequest, ChunkedMmfRunRequest and
    StreamedMmfResponse (proto/v2/messages.proto:89-219; generated code
    core/pkg/pb/v2/messages.pb.go with the google.golang.org/protobuf v1.33.0
    runtime). They are written by SendMsg and read by RecvMsg of grpc v1.62.1,
    whose codec is proto.Marshal and proto.Unmarshal (core/main.go:493
    stream.Send, :577 mmfStream.Send, :592-593 mmfStream.Recv).

    Go writes the entries of every map in an arbitrary order, so what is
    written is a relation here: [chunk_fields c fs] says that [fs] are fields
    Go may write for [c]. The functions [fields_roster], [fields_pool],
    [fields_profile], [fields_chunk] of Proto.v are the instance with one
    particular order.

    Simplifications: as in Proto.v (messages inside maps and lists are never
    nil; a decoding error has no partial result). *)
From Coq Require Import Ascii String ZArith NArith.
From stdpp Require Import prelude strings gmap.
From Verif.Model Require Import Types Wire Proto.
Local Open Scope string_scope.
Local Open Scope list_scope.

(** ** What is written *)

(** An optional message field. *)
Definition opt_fields {A} (n : N) (enc : A → list field → Prop) (x : option A)
    (fs : list field) : Prop :=
  match x with
  | None => fs = []
  | Some a => ∃ gs, enc a gs ∧ fs = [f_msg n gs]
  end.

(** A repeated message field. *)
Definition list_fields {A} (n : N) (enc : A → list field → Prop) (l : list A)
    (fs : list field) : Prop :=
  Forall2 (λ a f, ∃ gs, enc a gs ∧ f = f_msg n gs) l fs.

(** The extensions of a message, field [n]. *)
Definition ext_fields (n : N) (m : extensions) (fs : list field) : Prop :=
  ∃ oe, oe ≡ₚ map_to_list m ∧ fs = fields_ext n oe.

Definition ticket_fields (t : ticket) (fs : list field) : Prop :=
  ∃ o, orders_ok t o ∧ fs = fields_ticket o t.
Definition assignment_fields (a : assignment) (fs : list field) : Prop :=
  ∃ oe, oe ≡ₚ map_to_list (as_ext a) ∧ fs = fields_assignment oe a.

(** messages.proto:164-171. *)
Definition roster_fields (r : roster) (fs : list field) : Prop :=
  ∃ f2 f3 f4,
    opt_fields 2 assignment_fields (ro_assignment r) f2 ∧
    list_fields 3 ticket_fields (ro_tickets r) f3 ∧
    ext_fields 4 (ro_ext r) f4 ∧
    fs = f_string 1 (ro_name r) ++ f2 ++ f3 ++ f4.

(** messages.proto:89-145. *)
Definition pool_fields (p : pool) (fs : list field) : Prop :=
  ∃ f6 f7,
    opt_fields 6 roster_fields (po_participants p) f6 ∧
    ext_fields 7 (po_ext p) f7 ∧
    fs = f_string 1 (po_name p) ++
         map (λ t, f_msg 2 (fields_tag_filter t)) (po_tag_filters p) ++
         map (λ f, f_msg 3 (fields_string_filter f)) (po_string_filters p) ++
         map (λ f, f_msg 4 (fields_double_filter f)) (po_double_filters p) ++
         f_opt 5 fields_time_filter (po_time_filter p) ++ f6 ++ f7.

(** An entry of a map from strings to messages. *)
Definition entry_fields {A} (enc : A → list field → Prop) (kv : string * A)
    (fs : list field) : Prop :=
  ∃ gs, enc kv.2 gs ∧ fs = [(1%N, WLen kv.1); f_msg 2 gs].
Definition map_fields {A} (n : N) (enc : A → list field → Prop) (m : gmap string A)
    (fs : list field) : Prop :=
  ∃ l, l ≡ₚ map_to_list m ∧ list_fields n (entry_fields enc) l fs.

(** messages.proto:147-153. *)
Definition profile_fields (p : profile) (fs : list field) : Prop :=
  ∃ f2 f3,
    map_fields 2 pool_fields (pr_pools p) f2 ∧ ext_fields 3 (pr_ext p) f3 ∧
    fs = f_string 1 (pr_name p) ++ f2 ++ f3.

(** messages.proto:155-161. *)
Definition match_fields (m : match_) (fs : list field) : Prop :=
  ∃ f2 f3,
    map_fields 2 roster_fields (ma_rosters m) f2 ∧ ext_fields 3 (ma_ext m) f3 ∧
    fs = f_string 1 (ma_id m) ++ f2 ++ f3.

(** messages.proto:192-197. *)
Definition chunk_fields (c : chunk) (fs : list field) : Prop :=
  ∃ f1, opt_fields 1 profile_fields (Some (ch_profile c)) f1 ∧ fs = f1 ++ f_int 2 (ch_num c).

(** messages.proto:174-183. *)
Definition type_to_Z (t : mmf_type) : Z :=
  match t with MMF_REST => 0 | MMF_GRPC => 1 | MMF_OTHER n => n end.
Definition type_of_Z (z : Z) : mmf_type :=
  if (z =? 0)%Z then MMF_REST else if (z =? 1)%Z then MMF_GRPC else MMF_OTHER z.
Definition fields_spec (f : mmf_spec) : list field :=
  f_string 1 (mf_name f) ++ f_string 2 (mf_host f) ++ f_int 3 (mf_port f) ++
  f_int 4 (type_to_Z (mf_type f)).

(** messages.proto:213-218: MmfRequest; profile and functions. *)
Record request := Request { rq_profile : option profile; rq_mmfs : list mmf_spec }.
Definition request_fields (r : request) (fs : list field) : Prop :=
  ∃ f1, opt_fields 1 profile_fields (rq_profile r) f1 ∧
        fs = f1 ++ map (λ f, f_msg 2 (fields_spec f)) (rq_mmfs r).

(** messages.proto:228: StreamedMmfResponse is its match. *)
Definition result_fields (m : option match_) (fs : list field) : Prop :=
  opt_fields 1 match_fields m fs.

(** ** UTF-8 checks made by Marshal *)

Definition utf8_assignment_c (a : assignment) : bool :=
  utf8_assignment (map_to_list (as_ext a)) a.
Definition utf8_ticket_c (t : ticket) : bool := utf8_ticket (canon_orders t) t.
Definition utf8_opt {A} (f : A → bool) (x : option A) : bool :=
  match x with Some a => f a | None => true end.
Definition utf8_roster (r : roster) : bool :=
  utf8_valid (ro_name r) && utf8_opt utf8_assignment_c (ro_assignment r) &&
  forallb utf8_ticket_c (ro_tickets r) && utf8_ext (map_to_list (ro_ext r)).
Definition utf8_pool (p : pool) : bool :=
  utf8_valid (po_name p) && forallb utf8_valid (po_tag_filters p) &&
  forallb (λ f, utf8_valid f.1 && utf8_valid f.2) (po_string_filters p) &&
  forallb (λ f, utf8_valid (df_arg f)) (po_double_filters p) &&
  utf8_opt utf8_roster (po_participants p) && utf8_ext (map_to_list (po_ext p)).
Definition utf8_map {A} (f : A → bool) (m : gmap string A) : bool :=
  forallb (λ kv, utf8_valid kv.1 && f kv.2) (map_to_list m).
Definition utf8_profile (p : profile) : bool :=
  utf8_valid (pr_name p) && utf8_map utf8_pool (pr_pools p) && utf8_ext (map_to_list (pr_ext p)).
Definition utf8_match (m : match_) : bool :=
  utf8_valid (ma_id m) && utf8_map utf8_roster (ma_rosters m) && utf8_ext (map_to_list (ma_ext m)).
Definition utf8_spec (f : mmf_spec) : bool := utf8_valid (mf_name f) && utf8_valid (mf_host f).
Definition utf8_request (r : request) : bool :=
  utf8_opt utf8_profile (rq_profile r) && forallb utf8_spec (rq_mmfs r).

(** proto.Marshal can give these bytes. *)
Definition marshals_chunk (c : chunk) (s : string) : Prop :=
  utf8_profile (ch_profile c) = true ∧ ∃ fs, chunk_fields c fs ∧ s = enc_fields fs.
Definition marshals_request (r : request) (s : string) : Prop :=
  utf8_request r = true ∧ ∃ fs, request_fields r fs ∧ s = enc_fields fs.
Definition marshals_result (m : option match_) (s : string) : Prop :=
  utf8_opt utf8_match m = true ∧ ∃ fs, result_fields m fs ∧ s = enc_fields fs.

(** ** Decoding *)

Definition empty_roster : roster := Roster "" None [] ∅.
Definition roster_step (r : roster) (f : field) : option roster :=
  match f with
  | (1%N, WLen s) =>
      if utf8_valid s then Some (Roster s (ro_assignment r) (ro_tickets r) (ro_ext r)) else None
  | (2%N, WLen s) =>
      match unmarshal assignment_step (default empty_assignment (ro_assignment r)) s with
      | Some a => Some (Roster (ro_name r) (Some a) (ro_tickets r) (ro_ext r))
      | None => None
      end
  | (3%N, WLen s) =>
      match unmarshal ticket_step empty_ticket s with
      | Some t => Some (Roster (ro_name r) (ro_assignment r) (ro_tickets r ++ [t]) (ro_ext r))
      | None => None
      end
  | (4%N, WLen s) =>
      match dec_ext_entry (ro_ext r) s with
      | Some x => Some (Roster (ro_name r) (ro_assignment r) (ro_tickets r) x)
      | None => None
      end
  | _ => Some r
  end.

Definition tag_filter_step (t : string) (f : field) : option string :=
  match f with
  | (1%N, WLen s) => if utf8_valid s then Some s else None
  | _ => Some t
  end.
(** The same shape as a map entry: two strings. *)
Definition string_filter_step : string * string → field → option (string * string) :=
  entry_string_step.
Definition double_filter_step (d : double_filter) (f : field) : option double_filter :=
  match f with
  | (1%N, WLen s) =>
      if utf8_valid s then Some (DoubleFilter s (df_min d) (df_max d) (df_bounds d)) else None
  | (2%N, WF64 x) => Some (DoubleFilter (df_arg d) x (df_max d) (df_bounds d))
  | (3%N, WF64 x) => Some (DoubleFilter (df_arg d) (df_min d) x (df_bounds d))
  | (4%N, WVar n) => Some (DoubleFilter (df_arg d) (df_min d) (df_max d) (u64_to_i32 n))
  | _ => Some d
  end.
Definition time_filter_step (d : time_filter) (f : field) : option time_filter :=
  match f with
  | (4%N, WVar n) => Some (TimeFilter (tf_start d) (tf_end d) (u64_to_i32 n))
  | (6%N, WLen s) =>
      match unmarshal ts_step (default (Timestamp 0 0) (tf_start d)) s with
      | Some t => Some (TimeFilter (Some t) (tf_end d) (tf_bounds d))
      | None => None
      end
  | (7%N, WLen s) =>
      match unmarshal ts_step (default (Timestamp 0 0) (tf_end d)) s with
      | Some t => Some (TimeFilter (tf_start d) (Some t) (tf_bounds d))
      | None => None
      end
  | _ => Some d
  end.

Definition empty_pool : pool := Pool "" [] [] [] None None ∅.
Definition pool_step (p : pool) (f : field) : option pool :=
  let '(Pool na tg sf df tf pa ex) := p in
  match f with
  | (1%N, WLen s) => if utf8_valid s then Some (Pool s tg sf df tf pa ex) else None
  | (2%N, WLen s) =>
      match unmarshal tag_filter_step "" s with
      | Some t => Some (Pool na (tg ++ [t]) sf df tf pa ex)
      | None => None
      end
  | (3%N, WLen s) =>
      match unmarshal string_filter_step ("", "") s with
      | Some x => Some (Pool na tg (sf ++ [x]) df tf pa ex)
      | None => None
      end
  | (4%N, WLen s) =>
      match unmarshal double_filter_step (DoubleFilter "" 0%N 0%N 0%Z) s with
      | Some x => Some (Pool na tg sf (df ++ [x]) tf pa ex)
      | None => None
      end
  | (5%N, WLen s) =>
      match unmarshal time_filter_step (default (TimeFilter None None 0%Z) tf) s with
      | Some x => Some (Pool na tg sf df (Some x) pa ex)
      | None => None
      end
  | (6%N, WLen s) =>
      match unmarshal roster_step (default empty_roster pa) s with
      | Some x => Some (Pool na tg sf df tf (Some x) ex)
      | None => None
      end
  | (7%N, WLen s) =>
      match dec_ext_entry ex s with
      | Some x => Some (Pool na tg sf df tf pa x)
      | None => None
      end
  | _ => Some p
  end.

(** An entry of a map from strings to messages, and the map with it added. *)
Definition entry_step {A} (step : A → field → option A) (kv : string * A) (f : field) :
    option (string * A) :=
  match f with
  | (1%N, WLen s) => if utf8_valid s then Some (s, kv.2) else None
  | (2%N, WLen s) =>
      match unmarshal step kv.2 s with Some a => Some (kv.1, a) | None => None end
  | _ => Some kv
  end.
Definition dec_entry {A} (step : A → field → option A) (init : A) (m : gmap string A)
    (s : string) : option (gmap string A) :=
  match unmarshal (entry_step step) ("", init) s with
  | Some (k, a) => Some (<[k := a]> m)
  | None => None
  end.

Definition empty_profile : profile := Profile "" ∅ ∅.
Definition profile_step (p : profile) (f : field) : option profile :=
  match f with
  | (1%N, WLen s) => if utf8_valid s then Some (Profile s (pr_pools p) (pr_ext p)) else None
  | (2%N, WLen s) =>
      match dec_entry pool_step empty_pool (pr_pools p) s with
      | Some x => Some (Profile (pr_name p) x (pr_ext p))
      | None => None
      end
  | (3%N, WLen s) =>
      match dec_ext_entry (pr_ext p) s with
      | Some x => Some (Profile (pr_name p) (pr_pools p) x)
      | None => None
      end
  | _ => Some p
  end.

Definition empty_match : match_ := Match "" ∅ ∅.
Definition match_step (m : match_) (f : field) : option match_ :=
  match f with
  | (1%N, WLen s) => if utf8_valid s then Some (Match s (ma_rosters m) (ma_ext m)) else None
  | (2%N, WLen s) =>
      match dec_entry roster_step empty_roster (ma_rosters m) s with
      | Some x => Some (Match (ma_id m) x (ma_ext m))
      | None => None
      end
  | (3%N, WLen s) =>
      match dec_ext_entry (ma_ext m) s with
      | Some x => Some (Match (ma_id m) (ma_rosters m) x)
      | None => None
      end
  | _ => Some m
  end.

(** ChunkedMmfRunRequest: its profile, nil if absent, and num_chunks. *)
Definition chunk_step (c : option profile * Z) (f : field) : option (option profile * Z) :=
  match f with
  | (1%N, WLen s) =>
      match unmarshal profile_step (default empty_profile c.1) s with
      | Some p => Some (Some p, c.2)
      | None => None
      end
  | (2%N, WVar n) => Some (c.1, u64_to_i32 n)
  | _ => Some c
  end.

Definition spec_step (d : mmf_spec) (f : field) : option mmf_spec :=
  match f with
  | (1%N, WLen s) =>
      if utf8_valid s then Some (MmfSpec s (mf_host d) (mf_port d) (mf_type d)) else None
  | (2%N, WLen s) =>
      if utf8_valid s then Some (MmfSpec (mf_name d) s (mf_port d) (mf_type d)) else None
  | (3%N, WVar n) => Some (MmfSpec (mf_name d) (mf_host d) (u64_to_i32 n) (mf_type d))
  | (4%N, WVar n) =>
      Some (MmfSpec (mf_name d) (mf_host d) (mf_port d) (type_of_Z (u64_to_i32 n)))
  | _ => Some d
  end.

Definition request_step (r : request) (f : field) : option request :=
  match f with
  | (1%N, WLen s) =>
      match unmarshal profile_step (default empty_profile (rq_profile r)) s with
      | Some p => Some (Request (Some p) (rq_mmfs r))
      | None => None
      end
  | (2%N, WLen s) =>
      match unmarshal spec_step (MmfSpec "" "" 0%Z MMF_REST) s with
      | Some x => Some (Request (rq_profile r) (rq_mmfs r ++ [x]))
      | None => None
      end
  | _ => Some r
  end.

Definition result_step (m : option match_) (f : field) : option (option match_) :=
  match f with
  | (1%N, WLen s) =>
      match unmarshal match_step (default empty_match m) s with
      | Some x => Some (Some x)
      | None => None
      end
  | _ => Some m
  end.

(** proto.Unmarshal into a fresh message; [None] is an error. *)
Definition unmarshal_chunk (s : string) : option (option profile * Z) :=
  unmarshal chunk_step (None, 0%Z) s.
Definition unmarshal_request (s : string) : option request :=
  unmarshal request_step (Request None []) s.
Definition unmarshal_result (s : string) : option (option match_) :=
  unmarshal result_step None s.
Definition unmarshal_ticket_err (s : string) : option ticket :=
  unmarshal ticket_step empty_ticket s.
