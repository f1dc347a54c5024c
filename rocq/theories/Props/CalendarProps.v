(** Property theorems about times as texts: C141 and C142. *)
From Coq Require Import Ascii String ZArith NArith Lia.
From stdpp Require Import prelude strings gmap.
From Verif.Model Require Import GoStrings Types Filter Chunk Mmf Samples Wire JsonMsg HttpStream JsonText JsonBytes Calendar.
From Verif.Spec Require Import CalendarSpec JsonSpec HttpSpec JsonTextSpec JsonBytesSpec.
From Verif.Proofs Require Import JsonLemmas CalendarDays CalendarLemmas CalendarWrite CalendarStamp.
From Verif.Props Require Import MmfProps JsonBytesProps.
Local Open Scope string_scope.
Local Open Scope Z_scope.

(** ** C141: times in JSON *)

(** Every time that a Timestamp can hold is written as RFC 3339 has it, in UTC, with the
    digits it needs, and is read back as it was. *)
Theorem C141_written : ∀ t, ts_is_valid (Some t) = true → WrittenTime t (json_time t).
Proof. exact written. Qed.
Print Assumptions C141_written.
Theorem C141_read_back : ∀ t, ts_is_valid (Some t) = true → read_time (json_time t) = Some t.
Proof. exact time_round_trip. Qed.
Print Assumptions C141_read_back.

(** The texts that are accepted, and the time each of them stands for: one-digit hours,
    fractions after a comma and any two digits in the zone, too. *)
Theorem C141_accepted_exactly : ∀ s t, read_time s = Some t ↔ TimeText s t.
Proof. exact read_iff. Qed.
Print Assumptions C141_accepted_exactly.
Theorem C141_accepted_in_range : ∀ s t, read_time s = Some t → ts_is_valid (Some t) = true.
Proof. intros s t H. apply read_iff in H. destruct H as [wh dt secs fr nanos zo off _ _ _ _ H]. exact H. Qed.
Print Assumptions C141_accepted_in_range.

(** The calendar is that of counting days. *)
Theorem C141_calendar : ∀ day x, date_of day = x ↔ DayIs day x.
Proof. intros day x. symmetry. apply day_is_iff. Qed.
Print Assumptions C141_calendar.
Theorem C141_calendar_back : ∀ y m d day, ValidDate (y, m, d) → day_of y m d = day ↔ DayIs day (y, m, d).
Proof. intros y m d day H. exact (day_of_iff day y m d H). Qed.
Print Assumptions C141_calendar_back.

(** So nothing need be assumed about times for messages to pass unchanged (C123, C138). *)
Theorem C141_nothing_assumed : ∀ c d,
  ((∀ x z, (x < 2 ^ 64)%N → f64_val x = FFin z → jc_dbl_read d (jc_dbl c x) = Some x) →
   (∀ z, Fits32 z → jc_int_read d (format_Z z) = Some z) → Agree (with_times c) (with_times d)) ∧
  ((∀ x z, f64_val x = FFin z → JsonNumber (codes (jc_dbl c x))) →
   (∀ url e v l, jc_types c url = Some e → em_write e v = Some l → Writable (JDict l)) → WritesJson (with_times c)).
Proof. intros c d. split; [exact (times_agree c d)|exact (times_written c)]. Qed.
Print Assumptions C141_nothing_assumed.

Example C141_example :
  json_time (Timestamp 1700000000 0) = "2023-11-14T22:13:20Z" ∧
  json_time (Timestamp (-62135596800) 1000) = "0001-01-01T00:00:00.000001Z" ∧
  json_time (Timestamp 253402300799 999999999) = "9999-12-31T23:59:59.999999999Z" ∧
  json_time (Timestamp 951782399 120000000) = "2000-02-28T23:59:59.120Z" ∧
  json_time (Timestamp 951782400 0) = "2000-02-29T00:00:00Z" ∧
  read_time "2000-02-29T00:00:00Z" = Some (Timestamp 951782400 0) ∧ read_time "1900-02-29T00:00:00Z" = None ∧
  read_time "2023-11-14T22:13:20.5+01:30" = Some (Timestamp 1699994600 500000000) ∧
  read_time "2023-11-14T2:13:20,1234567891-99:99" = Some (Timestamp 1700290340 123456789) ∧
  read_time "2023-11-14T22:13:20.1234567891Z" = None ∧ read_time "2023-11-14T22:13:60Z" = None ∧
  read_time "2023-11-14t22:13:20Z" = None ∧ read_time "2023-11-14T22:13:20" = None ∧ read_time "0000-12-31T23:59:59Z" = None ∧
  read_time "0000-12-31T23:59:59-00:01" = Some (Timestamp (-62135596741) 0) ∧
  (∃ v, j_create (with_times dec_codec) true some_ticket = Some v ∧
    gateway_bytes (r_create (with_times dec_codec)) None (client_bytes true v) = Some some_ticket).
Proof.
  do 15 (split; [vm_compute; reflexivity|]). eexists. split; [vm_compute; reflexivity|]. vm_compute. reflexivity.
Qed.

(** ** C142: times in the ids of matches *)

(** The claim: wherever the sample functions run, runs that read the clock in different
    hundredths of a second give different ids. *)
Definition C142_ids_differ_everywhere : Prop := ∀ f zone clock ps r clock' ps' r' ms ms' m m',
  (∀ k k', clock k / 10000000 ≠ clock' k' / 10000000) →
  run_sample f (show_local zone) clock ps r = Done ms → run_sample f (show_local zone) clock' ps' r' = Done ms' →
  m ∈ ms → m' ∈ ms' → ma_id m ≠ ma_id m'.

(** New York, around the end of summer time in 2026: at 06:00 UTC on the first of November, clocks go
    from 02:00 back to 01:00. *)
Definition new_york (t : Z) : Z := if t <? 1793512800 then -14400 else -18000.
Definition before_change : instant := 1793510000120000000.
Definition after_change : instant := 1793513600120000000.

(** It is false: the stamp is in local time, and an hour comes twice where clocks are put back. *)
Theorem C142_ids_differ_everywhere_refuted : ¬ C142_ids_differ_everywhere.
Proof.
  intros H. set (ps := [("p"%string, filled_pool (ticket_list "a" 2))]).
  assert (Hr : ∀ t, t = before_change ∨ t = after_change → run_sample Solo (show_local new_york) (λ _, t) ps (Received (Profile "" ∅ ∅)) =
    Done [single_match solo_name "2026-11-01T01:13:20.12" 0 (ticket_list "a" 2)]).
  { intros t [-> | ->]; refine (bool_decide_eq_true_1 _ _); vm_compute; reflexivity. }
  refine (H Solo new_york (λ _, before_change) ps _ (λ _, after_change) ps _ _ _ _ _ _
            (Hr _ (or_introl eq_refl)) (Hr _ (or_intror eq_refl)) (elem_of_list_here _ _) (elem_of_list_here _ _) eq_refl).
  intros _ _. vm_compute. discriminate.
Qed.
Print Assumptions C142_ids_differ_everywhere_refuted.

(** It holds as long as the local clock, in hundredths of a second, shows different times, so
    wherever the zone never changes. *)
Theorem C142_ids_differ_partial : ∀ f zone clock ps r clock' ps' r' ms ms' m m',
  (∀ k k', local zone (clock k / 10000000) ≠ local zone (clock' k' / 10000000)) →
  run_sample f (show_local zone) clock ps r = Done ms → run_sample f (show_local zone) clock' ps' r' = Done ms' →
  m ∈ ms → m' ∈ ms' → ma_id m ≠ ma_id m'.
Proof. exact local_ids_differ. Qed.
Print Assumptions C142_ids_differ_partial.
Theorem C142_fixed_zone_partial : ∀ f z clock ps r clock' ps' r' ms ms' m m',
  (∀ k k', clock k / 10000000 ≠ clock' k' / 10000000) →
  run_sample f (show_local (λ _, z)) clock ps r = Done ms → run_sample f (show_local (λ _, z)) clock' ps' r' = Done ms' →
  m ∈ ms → m' ∈ ms' → ma_id m ≠ ma_id m'.
Proof.
  intros f z clock ps r clock' ps' r' ms ms' m m' Hc. apply local_ids_differ. intros k k' E. apply (Hc k k'). unfold local in E. lia.
Qed.
Print Assumptions C142_fixed_zone_partial.

(** When stamps are the same, for all times; and what they look like. *)
Theorem C142_stamps_exactly : ∀ zone a b, show_local zone a = show_local zone b ↔ local zone a = local zone b.
Proof. exact show_iff. Qed.
Print Assumptions C142_stamps_exactly.
Theorem C142_stamp_text : ∀ zone h, min_ts_secs <= h / 100 + zone (h / 100) <= max_ts_secs →
  ∃ dt cs, DateText 2 dt (h / 100 + zone (h / 100)) ∧ Num 2 (h mod 100) cs ∧ show_local zone h = dt +:+ "." +:+ cs.
Proof. exact show_text. Qed.
Print Assumptions C142_stamp_text.

Example C142_example :
  stamp (show_local new_york) before_change = "2026-11-01T01:13:20.12" ∧ stamp (show_local new_york) after_change = "2026-11-01T01:13:20.12" ∧
  stamp (show_local (λ _, 0)) before_change = "2026-11-01T05:13:20.12" ∧ stamp (show_local (λ _, 0)) after_change = "2026-11-01T06:13:20.12" ∧
  show_local (λ _, 0) (-1) = "1969-12-31T23:59:59.99" ∧ show_local (λ _, 0) 25340230080000 = "10000-01-01T00:00:00.00".
Proof. vm_compute. repeat (split; [reflexivity|]). reflexivity. Qed.
