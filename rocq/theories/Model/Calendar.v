(** Times as texts: what package time of Go 1.21.5 makes of them, as used by the sample
    functions (functions/golang/soloduel/soloduel.go:81, battleroyale/battleroyale.go:79,
    teamshooter/teamshooter.go:115) and by protojson v1.33.0 for
    google.protobuf.Timestamp (encoding/protojson/well_known_types.go), through which
    the times of tickets and filters pass over HTTP (grpc-gateway, core/main.go:388-420;
    matchmaker-example/main.go:260-265).

    Simplifications: the numbers are unbounded (the times here are far inside the range of
    int64); time.Parse tries parseRFC3339 (format_rfc3339.go) first, which accepts some of the
    texts that the general parser accepts, with the same result, and is left out; why a text
    is refused is left out. *)
From Coq Require Import Ascii String ZArith NArith.
From stdpp Require Import prelude strings.
From Verif.Model Require Import GoStrings Types JsonMsg.
Local Open Scope string_scope.
Local Open Scope Z_scope.

(** ** The calendar, time.go *)

Definition is_leap (y : Z) : bool := (y mod 4 =? 0) && (negb (y mod 100 =? 0) || (y mod 400 =? 0)).
(** daysBefore. *)
Definition days_before : list Z := [0; 31; 59; 90; 120; 151; 181; 212; 243; 273; 304; 334; 365].
Definition before (m : Z) : Z := default 0 (days_before !! Z.to_nat m).
(** daysIn. *)
Definition days_in (m y : Z) : Z := if (m =? 2) && is_leap y then 29 else before m - before (m - 1).

(** absoluteZeroYear; unixToInternal and internalToAbsolute, in days. *)
Definition abs_zero_year : Z := -292277022399.
Definition unix_to_abs : Z := (1969 * 365 + 1969 / 4 - 1969 / 100 + 1969 / 400) + 146097 * 730692556.

(** absDate: year, month and day of a day; day 0 is the first of January 1970. *)
Definition date_of (day : Z) : Z * Z * Z :=
  let d := day + unix_to_abs in
  let n := d / 146097 in let y := 400 * n in let d := d - 146097 * n in
  let n := d / 36524 in let n := n - n / 4 in let y := y + 100 * n in let d := d - 36524 * n in
  let n := d / 1461 in let y := y + 4 * n in let d := d - 1461 * n in
  let n := d / 365 in let n := n - n / 4 in let y := y + n in let d := d - 365 * n in
  let year := y + abs_zero_year in
  if is_leap year && (d =? 59) then (year, 2, 29)
  else
    let d := if is_leap year && (59 <? d) then d - 1 else d in
    let m := d / 31 in
    let m' := if before (m + 1) <=? d then m + 1 else m in
    (year, m' + 1, d - before m' + 1).

(** daysSinceEpoch and Date: the day of a date. *)
Definition day_of (y m d : Z) : Z :=
  let year := y in
  let y := y - abs_zero_year in
  let n := y / 400 in let y := y - 400 * n in let days := 146097 * n in
  let n := y / 100 in let y := y - 100 * n in let days := days + 36524 * n in
  let n := y / 4 in let y := y - 4 * n in let days := days + 1461 * n in
  let days := days + 365 * y + before (m - 1) + (if is_leap year && (3 <=? m) then 1 else 0) + (d - 1) in
  days - unix_to_abs.

(** ** Writing, format.go *)

(** appendInt, appendNano. *)
Fixpoint digits (w : nat) (n : Z) : string :=
  match w with O => "" | S w => digits w (n / 10) +:+ String (digit_char (Z.to_N (n mod 10))) "" end.
Definition append_int (w : nat) (x : Z) : string :=
  let u := Z.abs x in
  (if x <? 0 then "-" else "") +:+ (if u <? 10 ^ Z.of_nat w then digits w u else format_Z u).

(** Time.Format with the layout 2006-01-02T15:04:05, for seconds since 1970 on the clock of
    the time's zone. *)
Definition date_time (secs : Z) : string :=
  let '(y, m, d) := date_of (secs / 86400) in
  let s := secs mod 86400 in
  append_int 4 y +:+ "-" +:+ append_int 2 m +:+ "-" +:+ append_int 2 d +:+ "T" +:+
  append_int 2 (s / 3600) +:+ ":" +:+ append_int 2 (s mod 3600 / 60) +:+ ":" +:+ append_int 2 (s mod 60).

(** The stamp in the ids of matches: layout 2006-01-02T15:04:05.00, for a time in hundredths
    of a second, cut off. [zone]: seconds east of UTC of the local time zone, at a time in
    seconds. *)
Definition show_local (zone : Z → Z) (hundredths : Z) : string :=
  let secs := hundredths / 100 in
  date_time (secs + zone secs) +:+ "." +:+ digits 2 (hundredths mod 100).

(** marshalTimestamp, for a timestamp in range: strings.TrimSuffix "000" twice, then ".000". *)
Definition has_suffix (suf s : string) : bool :=
  (String.length suf <=? String.length s)%nat &&
  String.eqb (String.substring (String.length s - String.length suf) (String.length suf) s) suf.
Definition trim_suffix (suf s : string) : string :=
  if has_suffix suf s then String.substring 0 (String.length s - String.length suf) s else s.
Definition json_time (t : timestamp) : string :=
  let x := date_time (ts_seconds t) +:+ "." +:+ digits 9 (ts_nanos t) in
  trim_suffix ".000" (trim_suffix "000" (trim_suffix "000" x)) +:+ "Z".

(** ** Reading, format.go *)

Definition dig (c : ascii) : Z := Z.of_N (digit_val c).
Definition literal (c : ascii) (s : string) : option string :=
  match s with String x r => if Ascii.eqb x c then Some r else None | "" => None end.
(** getnum, with fixed and without. *)
Definition num2 (s : string) : option (Z * string) :=
  match s with
  | String a (String b r) => if is_digit a && is_digit b then Some (10 * dig a + dig b, r) else None
  | _ => None
  end.
Definition num12 (s : string) : option (Z * string) :=
  match s with
  | String a r =>
      if is_digit a then
        match r with
        | String b r' => if is_digit b then Some (10 * dig a + dig b, r') else Some (dig a, r)
        | "" => Some (dig a, r)
        end
      else None
  | "" => None
  end.
Definition num4 (s : string) : option (Z * string) :=
  '(a, s) ← num2 s; '(b, s) ← num2 s; Some (100 * a + b, s).
(** A decimal fraction: the separator, the digits and the rest. *)
Fixpoint span_digits (s : string) : string * string :=
  match s with
  | String c r => if is_digit c then let '(a, b) := span_digits r in (String c a, b) else ("", s)
  | "" => ("", "")
  end.
Definition fraction (s : string) : option (ascii * string) * string :=
  match s with
  | String c r =>
      let '(ds, r') := span_digits r in
      if (Ascii.eqb c "." || Ascii.eqb c ",") && negb (String.eqb ds "") then (Some (c, ds), r') else (None, s)
  | "" => (None, s)
  end.
(** parseNanoseconds. *)
Fixpoint value (acc : Z) (s : string) : Z :=
  match s with String c r => value (10 * acc + dig c) r | "" => acc end.
Definition nanos_of (ds : string) : Z :=
  let d := String.substring 0 9 ds in value 0 d * 10 ^ (9 - Z.of_nat (String.length d)).
(** Z or the hours and minutes east of UTC, in seconds, and the rest. Go 1.21 takes any two
    digits for either. *)
Definition read_zone (s : string) : option (Z * string) :=
  match s with
  | String "Z" r => Some (0, r)
  | String c r =>
      '(h, r) ← num2 r; r ← literal ":" r; '(m, r) ← num2 r;
      if Ascii.eqb c "+" then Some ((h * 60 + m) * 60, r)
      else if Ascii.eqb c "-" then Some (- ((h * 60 + m) * 60), r)
      else None
  | "" => None
  end.

(** unmarshalTimestamp: parse, with the layout time.RFC3339Nano, the ranges, and not more
    than nine digits after a period. *)
Definition read_time (s : string) : option timestamp :=
  '(y, s) ← num4 s; s ← literal "-" s;
  '(mo, s) ← num2 s; s ← literal "-" s;
  '(d, s) ← num2 s; s ← literal "T" s;
  '(h, s) ← num12 s; s ← literal ":" s;
  '(mi, s) ← num2 s; s ← literal ":" s;
  '(sec, s) ← num2 s;
  let '(f, s) := fraction s in
  '(off, s) ← read_zone s;
  if negb (String.eqb s "") || (mo <? 1) || (12 <? mo) || (23 <? h) || (59 <? mi) || (59 <? sec) ||
     (d <? 1) || (days_in mo y <? d) then None
  else
    let secs := day_of y mo d * 86400 + h * 3600 + mi * 60 + sec - off in
    if (secs <? min_ts_secs) || (max_ts_secs <? secs) then None
    else
      match f with
      | Some (c, ds) =>
          if Ascii.eqb c "." && (9 <? String.length ds)%nat then None else Some (Timestamp secs (nanos_of ds))
      | None => Some (Timestamp secs 0)
      end.

(** Messages with these times. *)
Definition with_times (c : codec) : codec :=
  Codec (jc_dbl c) (jc_dbl_read c) (jc_int_read c) json_time read_time (jc_types c) (jc_skip_enum c).
