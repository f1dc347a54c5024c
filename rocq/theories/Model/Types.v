(** Data types: instants, protobuf timestamps, IEEE doubles, the protobuf
    messages of proto/v2/messages.proto and the state-store datatypes. *)
From Coq Require Import Ascii String ZArith NArith.
From stdpp Require Import prelude strings gmap.
Local Open Scope string_scope.
Local Open Scope Z_scope.

(** ** Time *)

(** A Go time.Time, as nanoseconds since the Unix epoch. Simplification: Go's
    representation has int64 seconds since year 1; all instants the code builds
    come from clock readings, validated timestamps, or those plus the ticket
    TTL, which are far from wrapping. *)
Definition instant := Z.

Definition giga : Z := 1000000000.

(** time.Time.Unix(): whole seconds, rounded down. *)
Definition unix_secs (t : instant) : Z := t / giga.

(** google.protobuf.Timestamp (a nil pointer is [None]). *)
Record timestamp := Timestamp { ts_seconds : Z; ts_nanos : Z }.

Global Instance timestamp_eq_dec : EqDecision timestamp.
Proof. solve_decision. Defined.

(** timestamppb.(x).AsTime: time.Unix(x.GetSeconds(), x.GetNanos()); the
    getters return 0 on a nil pointer. *)
Definition as_time (ts : option timestamp) : instant :=
  match ts with
  | None => 0
  | Some x => ts_seconds x * giga + ts_nanos x
  end.

(** timestamppb.New. *)
Definition ts_new (t : instant) : timestamp :=
  Timestamp (t / giga) (t mod giga).

Definition min_ts_secs : Z := -62135596800.  (* 0001-01-01T00:00:00Z *)
Definition max_ts_secs : Z := 253402300799.  (* 9999-12-31T23:59:59Z *)

(** timestamppb.(x).IsValid (google.golang.org/protobuf v1.33.0). *)
Definition ts_is_valid (ts : option timestamp) : bool :=
  match ts with
  | None => false
  | Some x =>
      (min_ts_secs <=? ts_seconds x) && (ts_seconds x <=? max_ts_secs) &&
      (0 <=? ts_nanos x) && (ts_nanos x <? giga)
  end.

(** Two's-complement wrap to int64. *)
Definition wrap64 (z : Z) : Z := (z + 2 ^ 63) mod 2 ^ 64 - 2 ^ 63.

(** time.Second * time.Duration(secs). *)
Definition dur_secs (secs : Z) : Z := wrap64 (secs * giga).

(** ** IEEE-754 binary64, as bit patterns *)

Definition f64 := N.

(** The meaning of a double: not-a-number, an infinity, or the exact value
    [scaled / 2^1074] (every finite double is an integer multiple of
    2^-1074). *)
Inductive fval :=
| FNaN
| FInf (neg : bool)
| FFin (scaled : Z).

Definition f64_sign (b : f64) : bool := N.testbit b 63.
Definition f64_exp (b : f64) : N := ((b / 2 ^ 52) mod 2 ^ 11)%N.
Definition f64_frac (b : f64) : N := (b mod 2 ^ 52)%N.

Definition f64_val (b : f64) : fval :=
  let e := f64_exp b in
  let m := f64_frac b in
  if (e =? 2047)%N then (if (m =? 0)%N then FInf (f64_sign b) else FNaN)
  else
    let mag := if (e =? 0)%N then Z.of_N m
               else (Z.of_N (2 ^ 52 + m) * 2 ^ (Z.of_N e - 1))%Z in
    FFin (if f64_sign b then - mag else mag).

(** Go's [a < b] on float64. *)
Definition fval_ltb (a b : fval) : bool :=
  match a, b with
  | FNaN, _ | _, FNaN => false
  | FFin x, FFin y => x <? y
  | FInf true, FInf true => false
  | FInf true, _ => true
  | _, FInf true => false
  | FInf false, _ => false
  | FFin _, FInf false => true
  end.

(** Go's [a <= b] on float64. *)
Definition fval_leb (a b : fval) : bool :=
  match a, b with
  | FNaN, _ | _, FNaN => false
  | FFin x, FFin y => x <=? y
  | FInf true, _ => true
  | FInf false, FInf false => true
  | FInf false, _ => false
  | FFin _, FInf n => negb n
  end.

Definition f64_ltb (a b : f64) : bool := fval_ltb (f64_val a) (f64_val b).
Definition f64_leb (a b : f64) : bool := fval_leb (f64_val a) (f64_val b).
Definition f64_gtb (a b : f64) : bool := f64_ltb b a.
Definition f64_geb (a b : f64) : bool := f64_leb b a.

(** ** Protobuf messages (proto/v2/messages.proto) *)

(** google.protobuf.Any. *)
Record any := Any { any_url : string; any_value : string }.
Global Instance any_eq_dec : EqDecision any.
Proof. solve_decision. Defined.

Definition extensions := gmap string any.

(** messages.proto:63-72. *)
Record filterable := Filterable {
  fd_tags : list string;
  fd_strings : gmap string string;
  fd_doubles : gmap string f64;
  fd_ctime : option timestamp
}.
Global Instance filterable_eq_dec : EqDecision filterable.
Proof. solve_decision. Defined.

(** messages.proto:50-77. *)
Record ticket := Ticket {
  tk_id : string;
  tk_exp : option timestamp;
  tk_attrs : option filterable;
  tk_ext : extensions
}.
Global Instance ticket_eq_dec : EqDecision ticket.
Proof. solve_decision. Defined.

(** messages.proto:80-85. *)
Record assignment := Assignment { as_conn : string; as_ext : extensions }.
Global Instance assignment_eq_dec : EqDecision assignment.
Proof. solve_decision. Defined.

(** messages.proto:164-171. *)
Record roster := Roster {
  ro_name : string;
  ro_assignment : option assignment;
  ro_tickets : list ticket;
  ro_ext : extensions
}.

(** messages.proto:124-129; [df_bounds] is the raw enum number (proto3 enums
    are open, any int32 can arrive). *)
Record double_filter := DoubleFilter {
  df_arg : string; df_min : f64; df_max : f64; df_bounds : Z
}.

(** messages.proto:132-137. *)
Record time_filter := TimeFilter {
  tf_start : option timestamp; tf_end : option timestamp; tf_bounds : Z
}.

(** messages.proto:93-108. *)
Definition EXCLUDE_NONE : Z := 0.
Definition EXCLUDE_MIN : Z := 1.   (* = EXCLUDE_START *)
Definition EXCLUDE_MAX : Z := 2.   (* = EXCLUDE_END *)
Definition EXCLUDE_BOTH : Z := 3.

(** messages.proto:89-145. A tag filter is its tag, a string filter the pair
    (string_arg, value). *)
Record pool := Pool {
  po_name : string;
  po_tag_filters : list string;
  po_string_filters : list (string * string);
  po_double_filters : list double_filter;
  po_time_filter : option time_filter;
  po_participants : option roster;
  po_ext : extensions
}.

(** messages.proto:147-153. *)
Record profile := Profile {
  pr_name : string; pr_pools : gmap string pool; pr_ext : extensions
}.

(** messages.proto:155-161. *)
Record match_ := Match {
  ma_id : string; ma_rosters : gmap string roster; ma_ext : extensions
}.

(** messages.proto:174-183. *)
Inductive mmf_type := MMF_REST | MMF_GRPC | MMF_OTHER (n : Z).
Record mmf_spec := MmfSpec {
  mf_name : string; mf_host : string; mf_port : Z; mf_type : mmf_type
}.

(** messages.proto:192-197. *)
Record chunk := Chunk { ch_profile : profile; ch_num : Z }.

Global Instance roster_eq_dec : EqDecision roster.
Proof. solve_decision. Defined.
Global Instance double_filter_eq_dec : EqDecision double_filter.
Proof. solve_decision. Defined.
Global Instance time_filter_eq_dec : EqDecision time_filter.
Proof. solve_decision. Defined.
Global Instance pool_eq_dec : EqDecision pool.
Proof. solve_decision. Defined.
Global Instance profile_eq_dec : EqDecision profile.
Proof. solve_decision. Defined.
Global Instance match_eq_dec : EqDecision match_.
Proof. solve_decision. Defined.
Global Instance chunk_eq_dec : EqDecision chunk.
Proof. solve_decision. Defined.

(** ** State-store datatypes (core/internal/statestore/datatypes/store.go) *)

(** store.go:5-10; [CmdOther] stands for any other int. *)
Inductive cmd := CmdTicket | CmdActivate | CmdDeactivate | CmdAssign | CmdOther.
Global Instance cmd_eq_dec : EqDecision cmd.
Proof. solve_decision. Defined.

(** store.go:13-17. *)
Record update := Update { u_cmd : cmd; u_key : string; u_value : string }.
Global Instance update_eq_dec : EqDecision update.
Proof. solve_decision. Defined.

(** store.go:33-36. An error is represented by its kind only. *)
Inductive store_err :=
| ENoTicketData | EMissingKey | EMissingAssignment | EInvalidInput
| EReply.            (* redis.go:201, "Redis output string conversion error" *)
Global Instance store_err_eq_dec : EqDecision store_err.
Proof. solve_decision. Defined.

Record response := Response { r_result : string; r_err : option store_err }.
Global Instance response_eq_dec : EqDecision response.
Proof. solve_decision. Defined.

(** gRPC status codes used by the handlers. *)
Inductive code := OK | InvalidArgument | Internal | Unknown.
Global Instance code_eq_dec : EqDecision code.
Proof. solve_decision. Defined.

(** ** Configuration values the model refers to
    (core/internal/config/config.go:36-120). *)
Record config := Config {
  cfg_ticket_ttl : Z;          (* OM_CACHE_TICKET_TTL_SECS, :103 *)
  cfg_assign_ttl : Z;          (* OM_CACHE_ASSIGNMENT_ADDITIONAL_TTL_SECS, :105 *)
  cfg_max_updates : Z;         (* OM_MAX_STATE_UPDATES_PER_CALL, :56 *)
  cfg_out_threshold : Z;       (* OM_CACHE_OUT_MAX_QUEUE_THRESHOLD, :101 *)
  cfg_in_max : nat;            (* OM_CACHE_IN_MAX_UPDATES_PER_POLL, :99 *)
  cfg_wait_deactivation : bool (* OM_MATCH_TICKET_DEACTIVATION_WAIT, :52 *)
}.

(** The shipped defaults. *)
Definition default_config : config := {|
  cfg_ticket_ttl := 600; cfg_assign_ttl := 600; cfg_max_updates := 500;
  cfg_out_threshold := 50; cfg_in_max := Z.to_nat 10000;
  cfg_wait_deactivation := false |}.
