(** The repository's own test cases, run on the model: the tables of
    core/internal/filter/testcases/testcases.go, the two pools of
    TestValidPoolFilter (core/internal/filter/filter_test.go:63-103) and the
    tables of core/internal/logging/logging_test.go. They are not properties of
    the code; they check that the model says what the authors wrote down, and
    they show where the code (and so the model) says something else. *)
From Coq Require Import Ascii String ZArith NArith Lia.
From stdpp Require Import prelude strings gmap.
From Verif.Model Require Import Types Filter Logging.
Local Open Scope string_scope.
Local Open Scope Z_scope.

(** What filter.In says about a *pb.Ticket that may be nil: GetAttributes is
    nil-safe. *)
Definition says (t : option ticket) (p : pool) : outcome bool :=
  filter_in (Some p) (t ≫= tk_attrs).

Definition no_pool : pool := Pool "" [] [] [] None None ∅.
Definition with_attrs (a : filterable) : option ticket := Some (Ticket "" None (Some a) ∅).

Definition nan : f64 := 0x7ff8000000000001%N.   (* math.NaN() *)
Definition inf : f64 := 0x7ff0000000000000%N.
Definition ninf : f64 := 0xfff0000000000000%N.
Definition m1 : f64 := 0xbff0000000000000%N.
Definition d0 : f64 := 0%N.
Definition d1 : f64 := 0x3ff0000000000000%N.
Definition d2 : f64 := 0x4000000000000000%N.
Definition d3 : f64 := 0x4008000000000000%N.
Definition d5 : f64 := 0x4014000000000000%N.
Definition d10 : f64 := 0x4024000000000000%N.
Definition d11 : f64 := 0x4026000000000000%N.

(** testcases.go:410-431 simpleDoubleRange. *)
Definition simple_double (value min max : f64) (bounds : Z) : outcome bool :=
  says (with_attrs (Filterable [] ∅ {[ "field" := value ]} None))
       (Pool "" [] [] [DoubleFilter "field" min max bounds] None None ∅).

Definition all_bounds : list Z := [EXCLUDE_NONE; EXCLUDE_MIN; EXCLUDE_MAX; EXCLUDE_BOTH].

(** testcases.go:45-66: every double-range case listed as included is included. *)
Example included_doubles :
  map (simple_double d5 d0 d10) all_bounds = replicate 4 (Done true) ∧
  simple_double d5 d5 d5 EXCLUDE_NONE = Done true ∧
  simple_double inf d0 inf EXCLUDE_NONE = Done true ∧
  simple_double inf d0 inf EXCLUDE_MIN = Done true ∧
  simple_double ninf ninf d0 EXCLUDE_NONE = Done true ∧
  simple_double ninf ninf d0 EXCLUDE_MAX = Done true ∧
  simple_double d0 d0 d1 EXCLUDE_NONE = Done true ∧
  simple_double d1 d0 d1 EXCLUDE_NONE = Done true ∧
  simple_double d1 d0 d1 EXCLUDE_MIN = Done true ∧
  simple_double d0 d0 d1 EXCLUDE_MAX = Done true ∧
  simple_double d2 d0 d3 EXCLUDE_BOTH = Done true ∧
  simple_double d1 d0 d3 EXCLUDE_BOTH = Done true.
Proof. by vm_compute. Qed.

(** testcases.go:229-282: every double-range case listed as excluded is
    excluded. *)
Example excluded_doubles :
  map (simple_double d5 d5 d5) [EXCLUDE_MIN; EXCLUDE_MAX; EXCLUDE_BOTH]
    = replicate 3 (Done false) ∧
  map (simple_double m1 d0 d10) all_bounds = replicate 4 (Done false) ∧
  map (simple_double d11 d0 d10) all_bounds = replicate 4 (Done false) ∧
  map (simple_double d5 nan d10) all_bounds = replicate 4 (Done false) ∧
  map (simple_double d5 d0 nan) all_bounds = replicate 4 (Done false) ∧
  map (simple_double d5 nan nan) all_bounds = replicate 4 (Done false) ∧
  map (simple_double nan d0 d10) all_bounds = replicate 4 (Done false) ∧
  map (simple_double nan ninf inf) all_bounds = replicate 4 (Done false) ∧
  map (simple_double inf d0 inf) [EXCLUDE_MAX; EXCLUDE_BOTH] = replicate 2 (Done false) ∧
  map (simple_double ninf ninf d0) [EXCLUDE_MIN; EXCLUDE_BOTH] = replicate 2 (Done false) ∧
  map (simple_double nan nan nan) all_bounds = replicate 4 (Done false) ∧
  simple_double d1 d0 d1 EXCLUDE_MAX = Done false ∧
  simple_double d0 d0 d1 EXCLUDE_MIN = Done false ∧
  simple_double d0 d0 d1 EXCLUDE_BOTH = Done false ∧
  simple_double d1 d0 d1 EXCLUDE_BOTH = Done false.
Proof. by vm_compute. Qed.

(** testcases.go:39-43, :68-127 and :209-227, :284-362: the string and tag
    cases, included then excluded. *)
Example included_strings_and_tags :
  says (Some (Ticket "" None None ∅)) no_pool = Done true ∧
  says (with_attrs (Filterable [] {[ "field" := "value" ]} ∅ None))
       (Pool "" [] [("field", "value")] [] None None ∅) = Done true ∧
  says (with_attrs (Filterable ["mytag"] ∅ ∅ None))
       (Pool "" ["mytag"] [] [] None None ∅) = Done true ∧
  says (with_attrs (Filterable ["A"; "B"; "C"] ∅ ∅ None))
       (Pool "" ["A"; "C"; "B"] [] [] None None ∅) = Done true.
Proof. by vm_compute. Qed.

Example excluded_strings_and_tags :
  says (with_attrs (Filterable [] ∅ {[ "otherfield" := d0 ]} None))
       (Pool "" [] [] [DoubleFilter "field" ninf inf EXCLUDE_NONE] None None ∅) = Done false ∧
  says (with_attrs (Filterable [] {[ "field" := "value" ]} ∅ None))
       (Pool "" [] [("field", "VALUE")] [] None None ∅) = Done false ∧
  says (with_attrs (Filterable [] {[ "otherfield" := "othervalue" ]} ∅ None))
       (Pool "" [] [("field", "value")] [] None None ∅) = Done false ∧
  says (with_attrs (Filterable ["MYTAG"] ∅ ∅ None))
       (Pool "" ["mytag"] [] [] None None ∅) = Done false ∧
  says (with_attrs (Filterable ["A"; "B"; "C"] ∅ ∅ None))
       (Pool "" ["A"; "D"; "C"] [] [] None None ∅) = Done false.
Proof. by vm_compute. Qed.

(** testcases.go:173-208: the three excluded cases with a nil ticket. Two of
    them panic in filter.In instead of answering (property C05). *)
Example excluded_nil_ticket :
  says None (Pool "" [] [] [DoubleFilter "field" ninf inf EXCLUDE_NONE] None None ∅) = Panic ∧
  says None (Pool "" [] [("field", "value")] [] None None ∅) = Panic ∧
  says None (Pool "" ["value"] [] [] None None ∅) = Done false.
Proof. by vm_compute. Qed.

(** testcases.go:131-164 and :364-401: the creation-time cases have a nil
    ticket, created (so says the nil-safe getter) at the epoch, for every clock
    reading [now] of the test at least an hour after the epoch. Of the three
    listed as included, the code includes none; the case that is listed both as
    "End simple positive" and as "Start simple negative" is excluded. The four
    listed as excluded are excluded. *)
Definition hour : Z := 3600 * giga.
Definition by_time (s e : option instant) : outcome bool :=
  says None (Pool "" [] [] [] (Some (TimeFilter (ts_new <$> s) (ts_new <$> e) 0)) None ∅).

Lemma as_time_new t : as_time (Some (ts_new t)) = t.
Proof. unfold as_time, ts_new, giga. simpl. pose proof (Z_div_mod_eq_full t 1000000000). lia. Qed.

Lemma by_time_val s e :
  by_time s e = Done ((0 <? from_option id 0 s) && (from_option id 0 e <? 0)).
Proof.
  assert (H : ∀ o : option instant, as_time (ts_new <$> o) = from_option id 0 o).
  { intros [t|]; [exact (as_time_new t)|done]. }
  unfold by_time, says, filter_in, in_time. cbn [po_time_filter tf_end tf_start tf_bounds].
  rewrite !H. simpl (as_time _).
  destruct (Z.ltb_spec 0 (from_option id 0 s)); [|done].
  by destruct (Z.ltb_spec (from_option id 0 e) 0).
Qed.

Example creation_time_included now : hour < now →
  by_time (Some (now + hour)) None = Done false ∧
  by_time (Some (now - hour)) None = Done false ∧
  by_time (Some (now + hour)) (Some (now - hour)) = Done false ∧
  says None no_pool = Done true.
Proof.
  unfold hour, giga. intros H. rewrite !by_time_val. simpl.
  rewrite !Z.ltb_irrefl, !andb_false_r.
  rewrite (proj2 (Z.ltb_ge (now - _) 0)), !andb_false_r by lia. done.
Qed.

Example creation_time_excluded now : 2 * hour < now →
  by_time (Some (now - hour)) None = Done false ∧
  by_time None (Some (now + hour)) = Done false ∧
  by_time (Some (now + 2 * hour)) (Some (now + hour)) = Done false ∧
  by_time (Some (now - hour)) (Some (now - 2 * hour)) = Done false.
Proof.
  unfold hour, giga. intros H. rewrite !by_time_val. simpl.
  rewrite !Z.ltb_irrefl, !andb_false_r.
  rewrite (proj2 (Z.ltb_ge (now + _) 0)), (proj2 (Z.ltb_ge (now - _) 0)), !andb_false_r by lia.
  done.
Qed.

(** testcases.go:433-497 multipleFilters. The instants are 2009-11-17 and
    1909-11-17, 2000-11-17 and 2024-11-17, all at 20:34:58.651387237 UTC. *)
Definition multiple (a b c d : bool) : outcome bool :=
  says (with_attrs (Filterable [if c then "yo" else "cya"]
          {[ "b" := if b then "hi" else "bye" ]} {[ "a" := if a then d0 else d10 ]}
          (Some (Timestamp (if d then 1258490098 else -1897269902) 651387237))))
       (Pool "" ["yo"] [("b", "hi")] [DoubleFilter "a" m1 d1 0]
          (Some (TimeFilter (Some (Timestamp 974493298 651387237))
                            (Some (Timestamp 1731875698 651387237)) 0)) None ∅).

(** The four listed as excluded are; the one listed as included is excluded too,
    because the range is read the wrong way round (property C02): with start and
    end exchanged it is included. *)
Example multiple_filters :
  multiple false true true true = Done false ∧ multiple true false true true = Done false ∧
  multiple true true false true = Done false ∧ multiple true true true false = Done false ∧
  multiple true true true true = Done false.
Proof. by vm_compute. Qed.

Example multiple_filters_exchanged :
  says (with_attrs (Filterable ["yo"] {[ "b" := "hi" ]} {[ "a" := d0 ]}
          (Some (Timestamp 1258490098 651387237))))
       (Pool "" ["yo"] [("b", "hi")] [DoubleFilter "a" m1 d1 0]
          (Some (TimeFilter (Some (Timestamp 1731875698 651387237))
                            (Some (Timestamp 974493298 651387237)) 0)) None ∅) = Done true.
Proof. by vm_compute. Qed.

(** filter_test.go:63-103 TestValidPoolFilter. *)
Example valid_pool_filter :
  validate_pool (Pool "" [] [] [] (Some (TimeFilter (Some (Timestamp 0 (-1))) None 0)) None ∅)
    = Some BadStart ∧
  validate_pool (Pool "" [] [] [] (Some (TimeFilter None (Some (Timestamp 0 (-1))) 0)) None ∅)
    = Some BadEnd.
Proof. by vm_compute. Qed.

(** logging_test.go:27-45 TestNewFormatter, :47-68 TestIsDebugLevel, :70-95
    TestToLevel. *)
Example formatters :
  map new_formatter [""; "json"; "stackdriver"; "text"] = [FText; FJson; FStackdriver; FText].
Proof. by vm_compute. Qed.

Example debug_levels :
  map is_debug [LTrace; LDebug; LInfo; LWarn; LError; LFatal; LPanic]
    = [true; true; false; false; false; false; false].
Proof. by vm_compute. Qed.

Example levels :
  map to_level ["trace"; "debug"; "info"; "warn"; "warning"; "error"; "fatal"; "panic"; "info";
                ""; "nothing"]
    = [LTrace; LDebug; LInfo; LWarn; LWarn; LError; LFatal; LPanic; LInfo; LInfo; LInfo].
Proof. by vm_compute. Qed.
