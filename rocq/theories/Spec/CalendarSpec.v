(** Vocabulary for C141: dates, and times as texts. *)
From Coq Require Import Ascii String ZArith NArith.
From stdpp Require Import prelude strings.
From Verif.Model Require Import Types.
Local Open Scope string_scope.
Local Open Scope Z_scope.

(** ** The Gregorian calendar, by counting *)

Definition date : Type := Z * Z * Z.
Definition LeapYear (y : Z) : Prop := (4 | y) ∧ (¬ (100 | y) ∨ (400 | y)).
(** The days of a month. *)
Inductive MonthDays (y : Z) : Z → Z → Prop :=
| MD_long m : m ∈ [1; 3; 5; 7; 8; 10; 12] → MonthDays y m 31
| MD_short m : m ∈ [4; 6; 9; 11] → MonthDays y m 30
| MD_leap : LeapYear y → MonthDays y 2 29
| MD_common : ¬ LeapYear y → MonthDays y 2 28.
Definition ValidDate (x : date) : Prop := ∃ n, MonthDays x.1.1 x.1.2 n ∧ 1 <= x.2 <= n.
(** The day after. *)
Inductive NextDay : date → date → Prop :=
| ND_day y m d n : MonthDays y m n → 1 <= d < n → NextDay (y, m, d) (y, m, d + 1)
| ND_month y m n : MonthDays y m n → m < 12 → NextDay (y, m, n) (y, m + 1, 1)
| ND_year y : NextDay (y, 12, 31) (y + 1, 1, 1).
(** Day [n] since the first of January 1970. *)
Inductive DayIs : Z → date → Prop :=
| DI_epoch : DayIs 0 (1970, 1, 1)
| DI_after n x x' : DayIs n x → NextDay x x' → DayIs (n + 1) x'
| DI_before n x x' : DayIs (n + 1) x' → NextDay x x' → DayIs n x.

(** ** Texts *)

(** [Num w n s]: [s] has [w] decimal digits, and they are [n]. *)
Definition IsDigit (c : ascii) (d : Z) : Prop := 0 <= d <= 9 ∧ Z.of_N (N_of_ascii c) = 48 + d.
Inductive Num : nat → Z → string → Prop :=
| Num_nil : Num 0 0 ""
| Num_snoc w n s c d : Num w n s → IsDigit c d → Num (S w) (10 * n + d) (s +:+ String c "").

(** A time of day on a date: [secs] seconds since 1970. *)
Definition AtTime (x : date) (h mi s : Z) (secs : Z) : Prop :=
  ∃ day, DayIs day x ∧ 0 <= h <= 23 ∧ 0 <= mi <= 59 ∧ 0 <= s <= 59 ∧ secs = day * 86400 + h * 3600 + mi * 60 + s.

(** The text of a date and time, with [wh] digits for the hour. *)
Inductive DateText (wh : nat) : string → Z → Prop :=
| DT y mo d h mi s ys mos ds hs mis ss secs :
    Num 4 y ys → Num 2 mo mos → Num 2 d ds → Num wh h hs → Num 2 mi mis → Num 2 s ss →
    AtTime (y, mo, d) h mi s secs →
    DateText wh (ys +:+ "-" +:+ mos +:+ "-" +:+ ds +:+ "T" +:+ hs +:+ ":" +:+ mis +:+ ":" +:+ ss) secs.

(** The part after the seconds, and the nanoseconds it stands for. *)
Inductive FracText : string → Z → Prop :=
| FT_none : FracText "" 0
| FT_short c w n ds : c = "."%char ∨ c = ","%char → (1 <= w <= 9)%nat → Num w n ds →
    FracText (String c ds) (n * 10 ^ (9 - Z.of_nat w))
| FT_long w n ds w' n' ds' : w = 9%nat → (1 <= w')%nat → Num w n ds → Num w' n' ds' →
    FracText (String "," (ds +:+ ds')) n.

(** The time zone: seconds east of UTC. *)
Inductive ZoneText : string → Z → Prop :=
| ZT_utc : ZoneText "Z" 0
| ZT_east h m hs ms : Num 2 h hs → Num 2 m ms → ZoneText ("+" +:+ hs +:+ ":" +:+ ms) (h * 3600 + m * 60)
| ZT_west h m hs ms : Num 2 h hs → Num 2 m ms → ZoneText ("-" +:+ hs +:+ ":" +:+ ms) (- (h * 3600 + m * 60)).

(** The texts that are times for protojson. *)
Inductive TimeText : string → timestamp → Prop :=
| TT wh dt secs fr nanos zo off : wh = 1%nat ∨ wh = 2%nat → DateText wh dt secs → FracText fr nanos → ZoneText zo off →
    ts_is_valid (Some (Timestamp (secs - off) nanos)) = true →
    TimeText (dt +:+ fr +:+ zo) (Timestamp (secs - off) nanos).

(** The texts that protojson writes: UTC, and no, three, six or nine digits, as many as
    are needed. *)
Inductive WrittenTime (t : timestamp) : string → Prop :=
| WT dt fr w : DateText 2 dt (ts_seconds t) → w = 0%nat ∨ w = 3%nat ∨ w = 6%nat ∨ w = 9%nat →
    (∀ w', (w' = 0 ∨ w' = 3 ∨ w' = 6 ∨ w' = 9)%nat → (10 ^ (9 - Z.of_nat w') | ts_nanos t) → (w <= w')%nat) →
    FracText fr (ts_nanos t) → String.length fr = (if decide (w = 0%nat) then 0 else S w)%nat →
    (∀ c r, fr = String c r → c = "."%char) → WrittenTime t (dt +:+ fr +:+ "Z").

(** ** The local clock *)

(** A time in hundredths of a second, as clocks show it in a place where they are [zone t]
    seconds ahead of UTC at second [t]. *)
Definition local (zone : Z → Z) (h : Z) : Z := h + 100 * zone (h / 100).
