(** Model of core/internal/filter/filter.go. *)
From Coq Require Import Ascii String ZArith NArith.
From stdpp Require Import prelude strings gmap.
From Verif.Model Require Import Types.
Local Open Scope Z_scope.

(** Result of a Go function that may panic. *)
Inductive outcome (A : Type) := Done (a : A) | Panic.
Arguments Done {A} a.
Arguments Panic {A}.

(** filter.go:34-49 ValidatePoolFilters; the error value is reduced to which
    of the two timestamps was bad. *)
Inductive pool_err := BadStart | BadEnd.

Definition validate_pool (p : pool) : option pool_err :=
  match po_time_filter p with
  | None => None
  | Some f =>
      match tf_start f with
      | Some s => if negb (ts_is_valid (Some s)) then Some BadStart else
          match tf_end f with
          | Some e => if negb (ts_is_valid (Some e)) then Some BadEnd else None
          | None => None
          end
      | None =>
          match tf_end f with
          | Some e => if negb (ts_is_valid (Some e)) then Some BadEnd else None
          | None => None
          end
      end
  end.

Definition pool_valid (p : pool) : bool :=
  match validate_pool p with None => true | Some _ => false end.

(** filter.go:55-86: the creation-time part of In. The comparisons are written
    exactly as in the code: reject unless created before Start and after End. *)
Definition in_time (p : pool) (attrs : option filterable) : bool :=
  let cr := as_time (attrs ≫= fd_ctime) in
  match po_time_filter p with
  | None => true
  | Some f =>
      let e := as_time (tf_end f) in
      let s := as_time (tf_start f) in
      if negb (cr <? s) then false
      else if negb (e <? cr) then false
      else if ((tf_bounds f =? EXCLUDE_MIN) || (tf_bounds f =? EXCLUDE_BOTH)) && (cr =? s)
      then false
      else if ((tf_bounds f =? EXCLUDE_MAX) || (tf_bounds f =? EXCLUDE_BOTH)) && (cr =? e)
      then false
      else true
  end.

(** filter.go:94-111: the bounds switch of one double-range filter. A bounds
    value outside the four cases matches no case and falls through. *)
Definition double_in_bounds (f : double_filter) (v : f64) : bool :=
  if df_bounds f =? EXCLUDE_NONE then f64_geb v (df_min f) && f64_leb v (df_max f)
  else if df_bounds f =? EXCLUDE_MIN then f64_gtb v (df_min f) && f64_leb v (df_max f)
  else if df_bounds f =? EXCLUDE_MAX then f64_geb v (df_min f) && f64_ltb v (df_max f)
  else if df_bounds f =? EXCLUDE_BOTH then f64_gtb v (df_min f) && f64_ltb v (df_max f)
  else true.

(** filter.go:88-113. [filterableFields.DoubleArgs] on a nil pointer panics. *)
Fixpoint in_doubles (fs : list double_filter) (attrs : option filterable) : outcome bool :=
  match fs with
  | [] => Done true
  | f :: fs' =>
      match attrs with
      | None => Panic
      | Some a =>
          match fd_doubles a !! df_arg f with
          | None => Done false
          | Some v => if double_in_bounds f v then in_doubles fs' attrs else Done false
          end
      end
  end.

(** filter.go:115-123. *)
Fixpoint in_strings (fs : list (string * string)) (attrs : option filterable) : outcome bool :=
  match fs with
  | [] => Done true
  | f :: fs' =>
      match attrs with
      | None => Panic
      | Some a =>
          match fd_strings a !! f.1 with
          | None => Done false
          | Some v => if bool_decide (f.2 = v) then in_strings fs' attrs else Done false
          end
      end
  end.

(** filter.go:125-134; GetTags is nil-safe. *)
Definition tags_of (attrs : option filterable) : list string :=
  match attrs with None => [] | Some a => fd_tags a end.

Fixpoint in_tags (fs : list string) (attrs : option filterable) : bool :=
  match fs with
  | [] => true
  | f :: fs' => if existsb (String.eqb f) (tags_of attrs) then in_tags fs' attrs else false
  end.

(** filter.go:52-137 In. [None] is a nil *pb.Pool; [pool.DoubleRangeFilters]
    on it panics (the time-filter getter is nil-safe). *)
Definition filter_in (p : option pool) (attrs : option filterable) : outcome bool :=
  match p with
  | None => Panic
  | Some p =>
      if negb (in_time p attrs) then Done false
      else match in_doubles (po_double_filters p) attrs with
      | Panic => Panic
      | Done false => Done false
      | Done true =>
          match in_strings (po_string_filters p) attrs with
          | Panic => Panic
          | Done false => Done false
          | Done true => Done (in_tags (po_tag_filters p) attrs)
          end
      end
  end.
