(** Lemmas for C141: the calendar. *)
From Coq Require Import Ascii String ZArith NArith Lia.
From stdpp Require Import prelude strings.
From Verif.Model Require Import GoStrings Types Calendar.
From Verif.Spec Require Import CalendarSpec.
Local Open Scope Z_scope.

(** ** Leap years and months *)
Lemma div_iff k y : k ≠ 0 → (y mod k =? 0) = true ↔ (k | y).
Proof. intros Hk. rewrite Z.eqb_eq. by rewrite Z.mod_divide. Qed.
Lemma leap_iff y : is_leap y = true ↔ LeapYear y.
Proof.
  unfold is_leap, LeapYear. rewrite andb_true_iff, orb_true_iff, negb_true_iff, !div_iff by done. rewrite <-(div_iff 100) by done.
  by rewrite not_true_iff_false.
Qed.
Lemma leap_shift y j : is_leap (y + 400 * j) = is_leap y.
Proof.
  unfold is_leap. assert (∀ k, k ≠ 0 → (k | 400) → (y + 400 * j) mod k = y mod k) as H.
  { intros k Hk [q Hq]. rewrite Hq. replace (y + q * k * j) with (y + (q * j) * k) by lia. by apply Z.mod_add. }
  by rewrite !H by (done || (by exists 100) || (by exists 4) || (by exists 1)).
Qed.

Definition next (x : date) : date :=
  let '(y, m, d) := x in
  if d <? days_in m y then (y, m, d + 1) else if m <? 12 then (y, m + 1, 1) else (y + 1, 1, 1).
Definition valid (x : date) : bool :=
  let '(y, m, d) := x in (1 <=? m) && (m <=? 12) && (1 <=? d) && (d <=? days_in m y).

Lemma month_cases m : 1 <= m <= 12 → m ∈ [1;2;3;4;5;6;7;8;9;10;11;12].
Proof. intros H. rewrite !elem_of_cons, elem_of_nil. lia. Qed.
Ltac months H := apply month_cases in H; rewrite !elem_of_cons, elem_of_nil in H;
  repeat match type of H with _ ∨ _ => destruct H as [->|H] end; [..|done].
Lemma month_days y m : 1 <= m <= 12 → MonthDays y m (days_in m y).
Proof.
  intros H. destruct (is_leap y) eqn:E.
  - assert (LeapYear y) by (by apply leap_iff). months H; unfold days_in; rewrite E; cbn;
      first [by apply MD_leap|apply MD_long; set_solver|apply MD_short; set_solver].
  - assert (¬ LeapYear y) by (rewrite <-leap_iff; congruence). months H; unfold days_in; rewrite E; cbn;
      first [by apply MD_common|apply MD_long; set_solver|apply MD_short; set_solver].
Qed.
Lemma month_days_range y m n : MonthDays y m n → 1 <= m <= 12.
Proof. destruct 1 as [m H|m H| |]; rewrite ?elem_of_cons, ?elem_of_nil in *; lia. Qed.
Lemma month_days_unique y m n : MonthDays y m n → n = days_in m y.
Proof.
  intros H. destruct H as [m H|m H|H|H].
  - rewrite !elem_of_cons, elem_of_nil in H. repeat destruct H as [->|H]; try done; unfold days_in; cbn; by rewrite ?andb_false_r.
  - rewrite !elem_of_cons, elem_of_nil in H. repeat destruct H as [->|H]; try done; unfold days_in; cbn; by rewrite ?andb_false_r.
  - apply leap_iff in H. unfold days_in. by rewrite H.
  - unfold days_in. destruct (is_leap y) eqn:E; [by apply leap_iff in E|]. done.
Qed.
Lemma valid_iff x : valid x = true ↔ ValidDate x.
Proof.
  destruct x as [[y m] d]. unfold valid, ValidDate. cbn [fst snd]. rewrite !andb_true_iff, !Z.leb_le. split.
  - intros [[[H1 H2] H3] H4]. exists (days_in m y). split; [by apply month_days|done].
  - intros (n & H & Hd). pose proof (month_days_range _ _ _ H). apply month_days_unique in H. lia.
Qed.
Lemma days_in_pos m y : 1 <= m <= 12 → 28 <= days_in m y <= 31.
Proof.
  intros H. months H; unfold days_in; cbn [Z.eqb Pos.eqb andb]; try (destruct (is_leap y)); split; vm_compute; discriminate.
Qed.
Lemma next_iff x x' : NextDay x x' ↔ ValidDate x ∧ x' = next x.
Proof.
  split.
  - destruct 1 as [y m d n H Hd|y m n H Hm|y].
    + split; [exists n; split; [done|cbn; lia]|]. apply month_days_unique in H as ->. cbn. destruct (Z.ltb_spec d (days_in m y)); [done|lia].
    + pose proof (month_days_range _ _ _ H) as Hr. pose proof (days_in_pos m y Hr). split.
      { exists n. split; [done|]. apply month_days_unique in H. cbn. lia. }
      apply month_days_unique in H as ->. cbn. rewrite Z.ltb_irrefl. destruct (Z.ltb_spec m 12); [done|lia].
    + split; [exists 31; split; [apply MD_long; set_solver|cbn; lia]|]. done.
  - intros [(n & H & Hd) ->]. destruct x as [[y m] d]. cbn [fst snd] in *. pose proof (month_days_range _ _ _ H) as Hr.
    pose proof (month_days_unique _ _ _ H) as Hn. cbn. destruct (Z.ltb_spec d (days_in m y)).
    + by apply (ND_day _ _ _ n); [|lia].
    + assert (d = n) as -> by lia. destruct (Z.ltb_spec m 12); [by apply ND_month|]. assert (m = 12) as -> by lia.
      assert (n = 31) as -> by (rewrite Hn; done). apply ND_year.
Qed.
Lemma next_valid x : valid x = true → valid (next x) = true.
Proof.
  destruct x as [[y m] d]. unfold valid, next. rewrite !andb_true_iff, !Z.leb_le. intros [[[H1 H2] H3] H4].
  destruct (Z.ltb_spec d (days_in m y)); [|destruct (Z.ltb_spec m 12)].
  - rewrite !andb_true_iff, !Z.leb_le. lia.
  - rewrite !andb_true_iff, !Z.leb_le. pose proof (days_in_pos (m + 1) y). lia.
  - done.
Qed.
Lemma next_inj x x' : valid x = true → valid x' = true → next x = next x' → x = x'.
Proof.
  destruct x as [[y m] d], x' as [[y' m'] d']. unfold valid, next. rewrite !andb_true_iff, !Z.leb_le. intros [[[H1 H2] H3] H4] [[[H1' H2'] H3'] H4'].
  destruct (Z.ltb_spec d (days_in m y)); [|destruct (Z.ltb_spec m 12)];
    (destruct (Z.ltb_spec d' (days_in m' y')); [|destruct (Z.ltb_spec m' 12)]); intros E; injection E; clear E; intros;
    try (exfalso; lia); repeat f_equal; try lia;
    assert (days_in m y = days_in m' y') by (f_equal; lia); lia.
Qed.

(** ** Years *)

(** The days before year [y + 1], and the days of it. *)
Definition start (y : Z) : Z := 365 * y + y / 4 - y / 100 + y / 400.
Definition leap_day (year : Z) : Z := if is_leap year then 1 else 0.
Lemma start_next y : start (y + 1) = start y + 365 + leap_day (y + 1).
Proof.
  unfold start, leap_day, is_leap. destruct (Z.eqb_spec ((y + 1) mod 4) 0), (Z.eqb_spec ((y + 1) mod 100) 0), (Z.eqb_spec ((y + 1) mod 400) 0);
    cbn [negb andb orb]; Z.to_euclidean_division_equations; lia.
Qed.
Lemma start_mono y y' : y <= y' → start y <= start y'.
Proof. unfold start. intros H. Z.to_euclidean_division_equations. lia. Qed.
Lemma year_unique y y' a a' : start y + a = start y' + a' → 0 <= a < 365 + leap_day (y + 1) → 0 <= a' < 365 + leap_day (y' + 1) →
  y = y' ∧ a = a'.
Proof.
  intros E Ha Ha'. destruct (Z.lt_trichotomy y y') as [H|[->|H]].
  - pose proof (start_mono (y + 1) y' ltac:(lia)). rewrite start_next in *. lia.
  - split; [done|lia].
  - pose proof (start_mono (y' + 1) y ltac:(lia)). rewrite start_next in *. lia.
Qed.

(** ** The months of a year *)
Definition month_day (leap : bool) (yd : Z) : Z * Z :=
  if leap && (yd =? 59) then (2, 29)
  else
    let d := if leap && (59 <? yd) then yd - 1 else yd in
    let m := d / 31 in
    let m' := if before (m + 1) <=? d then m + 1 else m in
    (m' + 1, d - before m' + 1).
Definition year_day (leap : bool) (m d : Z) : Z := before (m - 1) + (if leap && (3 <=? m) then 1 else 0) + (d - 1).
Definition some_year (leap : bool) : Z := if leap then 4 else 1.
Lemma days_in_leap m y : days_in m y = days_in m (some_year (is_leap y)).
Proof. unfold days_in. by destruct (is_leap y). Qed.

Definition check_yd (leap : bool) (yd : Z) : bool :=
  let last := 364 + (if leap then 1 else 0) in
  (last <? yd) ||
  let '(m, d) := month_day leap yd in
  valid (some_year leap, m, d) && (year_day leap m d =? yd) &&
  (if yd =? last then (m =? 12) && (d =? 31)
   else let '(m', d') := month_day leap (yd + 1) in
        if d <? days_in m (some_year leap) then (m' =? m) && (d' =? d + 1) else (m <? 12) && (m' =? m + 1) && (d' =? 1)).
Definition check_md (leap : bool) (m d : Z) : bool :=
  negb (valid (some_year leap, m, d)) ||
  let '(m', d') := month_day leap (year_day leap m d) in
  (m' =? m) && (d' =? d) && (0 <=? year_day leap m d) && (year_day leap m d <? 365 + (if leap then 1 else 0)).
Lemma yd_checked : forallb (λ l, forallb (check_yd l) (seqZ 0 366)) [true; false] = true.
Proof. vm_compute. reflexivity. Qed.
Lemma md_checked : forallb (λ l, forallb (λ m, forallb (check_md l m) (seqZ 1 31)) (seqZ 1 12)) [true; false] = true.
Proof. vm_compute. reflexivity. Qed.
Lemma in_all {f : Z → bool} {a n} : forallb f (seqZ a n) = true → ∀ x, a <= x < a + n → f x = true.
Proof. intros H x Hx. rewrite forallb_forall in H. apply H. apply elem_of_list_In, elem_of_seqZ. lia. Qed.
Lemma yd_ok leap yd : 0 <= yd < 366 → check_yd leap yd = true.
Proof.
  intros H. pose proof yd_checked as HC. cbn [forallb] in HC. rewrite !andb_true_iff in HC. destruct HC as (H1 & H2 & _).
  destruct leap; [by apply (in_all H1)|by apply (in_all H2)].
Qed.
Lemma md_ok leap m d : 1 <= m <= 12 → 1 <= d <= 31 → check_md leap m d = true.
Proof.
  intros Hm Hd. pose proof md_checked as HC. cbn [forallb] in HC. rewrite !andb_true_iff in HC. destruct HC as (H1 & H2 & _).
  destruct leap.
  - pose proof (in_all H1 m ltac:(lia)) as H. cbv beta in H. apply (in_all H). lia.
  - pose proof (in_all H2 m ltac:(lia)) as H. cbv beta in H. apply (in_all H). lia.
Qed.

(** ** Dates *)
Lemma date_split day : ∃ y yd, day + 719162 = start y + yd ∧ 0 <= yd < 365 + leap_day (y + 1) ∧
  date_of day = (y + 1, (month_day (is_leap (y + 1)) yd).1, (month_day (is_leap (y + 1)) yd).2).
Proof.
  unfold date_of. cbv zeta.
  assert (E : day + unix_to_abs = day + 719162 + 730692556 * 146097) by (unfold unix_to_abs; change (1969 / 4) with 492; change (1969 / 100) with 19; change (1969 / 400) with 4; lia). rewrite E. clear E.
  rewrite Z.div_add by done. set (D := day + 719162).
  set (q := D / 146097). replace (D + 730692556 * 146097 - 146097 * (q + 730692556)) with (D - 146097 * q) by lia.
  set (r := D - 146097 * q). assert (Hr : 0 <= r < 146097) by (subst r q; Z.to_euclidean_division_equations; lia).
  assert (HD : D = 146097 * q + r) by (subst r; lia). clearbody r q D.
  set (n1 := r / 36524 - r / 36524 / 4). set (r1 := r - 36524 * n1).
  assert (H1 : 0 <= n1 <= 3 ∧ 0 <= r1 <= 36524 ∧ (r1 = 36524 → n1 = 3) ∧ r = 36524 * n1 + r1) by (subst r1 n1; Z.to_euclidean_division_equations; lia).
  clearbody n1 r1. set (n2 := r1 / 1461). set (r2 := r1 - 1461 * n2).
  assert (H2 : 0 <= n2 <= 24 ∧ 0 <= r2 <= 1460 ∧ (n2 = 24 → n1 ≠ 3 → r2 <= 1459) ∧ r1 = 1461 * n2 + r2) by (subst r2 n2; Z.to_euclidean_division_equations; lia).
  clearbody n2 r2. set (n3 := r2 / 365 - r2 / 365 / 4). set (r3 := r2 - 365 * n3).
  assert (H3 : 0 <= n3 <= 3 ∧ 0 <= r3 <= 365 ∧ (r3 = 365 → n3 = 3 ∧ (n2 = 24 → n1 = 3)) ∧ r2 = 365 * n3 + r3) by (subst r3 n3; Z.to_euclidean_division_equations; lia).
  clearbody n3 r3. exists (400 * q + 100 * n1 + 4 * n2 + n3), r3.
  set (y := 400 * q + 100 * n1 + 4 * n2 + n3).
  assert (Hd : y / 4 = 100 * q + 25 * n1 + n2 ∧ y / 100 = 4 * q + n1 ∧ y / 400 = q).
  { subst y. clear -H1 H2 H3. Z.to_euclidean_division_equations; lia. }
  assert (Hm : ∀ k, k ≠ 0 → (y + 1) mod k = 0 ↔ (k | y + 1)) by (intros k Hk; by rewrite Z.mod_divide).
  assert (Hl : r3 < 365 + leap_day (y + 1)).
  { unfold leap_day. destruct (Z.eq_dec r3 365) as [E|]; [|destruct (is_leap (y + 1)); lia]. unfold is_leap.
    destruct H3 as (H3a & H3b & H3c & H3d). destruct (H3c E) as [-> H24]. assert ((y + 1) mod 4 = 0) as -> by (subst y; Z.to_euclidean_division_equations; lia).
    cbn [Z.eqb andb]. destruct (Z.eqb_spec ((y + 1) mod 100) 0) as [E1|_]; [|cbn; lia].
    assert (n2 = 24) as H24'. { subst y. clear -E1 H1 H2. Z.to_euclidean_division_equations; lia. }
    assert (n1 = 3) as -> by auto. assert ((y + 1) mod 400 = 0) as ->; [|cbn; lia].
    subst y n2. clear. Z.to_euclidean_division_equations; lia. }
  split_and!.
  - unfold start. destruct Hd as (-> & -> & ->). lia.
  - lia.
  - done.
  - assert (400 * (q + 730692556) + 100 * n1 + 4 * n2 + n3 + abs_zero_year = y + 1) as -> by (unfold abs_zero_year; subst y; lia).
    unfold month_day. by destruct (is_leap (y + 1) && (r3 =? 59)).
Qed.
Lemma day_of_start y m d : day_of y m d = start (y - 1) + year_day (is_leap y) m d - 719162.
Proof.
  unfold day_of, year_day. cbv zeta.
  assert (E : y - abs_zero_year = y - 1 + 730692556 * 400) by (unfold abs_zero_year; lia). rewrite E. clear E. rewrite Z.div_add by done.
  replace (y - 1 + 730692556 * 400 - 400 * ((y - 1) / 400 + 730692556)) with (y - 1 - 400 * ((y - 1) / 400)) by lia.
  assert (∀ x, 146097 * (x / 400) + 36524 * ((x - 400 * (x / 400)) / 100) + 1461 * ((x - 400 * (x / 400) - 100 * ((x - 400 * (x / 400)) / 100)) / 4)
    + 365 * (x - 400 * (x / 400) - 100 * ((x - 400 * (x / 400)) / 100) - 4 * ((x - 400 * (x / 400) - 100 * ((x - 400 * (x / 400)) / 100)) / 4)) = start x) as H.
  { intros x. unfold start. Z.to_euclidean_division_equations. lia. }
  specialize (H (y - 1)). unfold unix_to_abs. change (1969 / 4) with 492. change (1969 / 100) with 19. change (1969 / 400) with 4. lia.
Qed.

Lemma date_valid day : valid (date_of day) = true.
Proof.
  destruct (date_split day) as (y & yd & _ & Hyd & ->). pose proof (yd_ok (is_leap (y + 1)) yd) as H. unfold check_yd, leap_day in *.
  assert ((364 + (if is_leap (y + 1) then 1 else 0) <? yd) = false) as E by (apply Z.ltb_ge; destruct (is_leap (y + 1)); lia).
  rewrite E in H. cbn [orb] in H. destruct (month_day (is_leap (y + 1)) yd) as [m d]. cbn [fst snd].
  specialize (H ltac:(destruct (is_leap (y + 1)); lia)). rewrite !andb_true_iff in H. destruct H as [[H _] _].
  unfold valid in *. by rewrite days_in_leap.
Qed.
Lemma day_of_date day y m d : date_of day = (y, m, d) → day_of y m d = day.
Proof.
  destruct (date_split day) as (y0 & yd & E & Hyd & ->). intros [= <- Em Ed]. pose proof (yd_ok (is_leap (y0 + 1)) yd) as H. unfold check_yd, leap_day in *.
  assert ((364 + (if is_leap (y0 + 1) then 1 else 0) <? yd) = false) as E' by (apply Z.ltb_ge; destruct (is_leap (y0 + 1)); lia).
  rewrite E' in H. cbn [orb] in H. destruct (month_day (is_leap (y0 + 1)) yd) as [m' d']. cbn [fst snd] in *. subst m' d'.
  specialize (H ltac:(destruct (is_leap (y0 + 1)); lia)). rewrite !andb_true_iff in H. destruct H as [[_ H] _]. apply Z.eqb_eq in H.
  rewrite day_of_start. replace (y0 + 1 - 1) with y0 by lia. lia.
Qed.
Lemma date_of_day y m d : valid (y, m, d) = true → date_of (day_of y m d) = (y, m, d).
Proof.
  intros Hv. assert (1 <= m <= 12 ∧ 1 <= d <= 31) as [Hm Hd].
  { unfold valid in Hv. rewrite !andb_true_iff, !Z.leb_le in Hv. pose proof (days_in_pos m y). lia. }
  pose proof (md_ok (is_leap y) m d Hm Hd) as H. unfold check_md in H.
  assert (valid (some_year (is_leap y), m, d) = true) as Hv' by (unfold valid in *; by rewrite <-days_in_leap). rewrite Hv' in H. cbn [negb orb] in H.
  destruct (date_split (day_of y m d)) as (y0 & yd & E & Hyd & ->). rewrite day_of_start in E.
  destruct (month_day (is_leap y) (year_day (is_leap y) m d)) as [m' d'] eqn:Emd. rewrite !andb_true_iff, !Z.eqb_eq, Z.leb_le, Z.ltb_lt in H.
  destruct H as [[[-> ->] H1] H2].
  destruct (year_unique (y - 1) y0 (year_day (is_leap y) m d) yd) as [Hy <-]; [lia| |done|].
  { unfold leap_day. replace (y - 1 + 1) with y by lia. lia. }
  assert (y0 + 1 = y) as -> by lia. by rewrite Emd.
Qed.
Lemma date_next day : date_of (day + 1) = next (date_of day).
Proof.
  destruct (date_split day) as (y & yd & E & Hyd & ->). destruct (date_split (day + 1)) as (y' & yd' & E' & Hyd' & ->).
  pose proof (yd_ok (is_leap (y + 1)) yd) as H. unfold check_yd in H. set (leap := is_leap (y + 1)) in *.
  assert (Hl : leap_day (y + 1) = if leap then 1 else 0) by done. rewrite Hl in Hyd.
  assert ((364 + (if leap then 1 else 0) <? yd) = false) as El by (apply Z.ltb_ge; destruct leap; lia). rewrite El in H. cbn [orb] in H.
  specialize (H ltac:(destruct leap; lia)). destruct (month_day leap yd) as [m d] eqn:Emd. cbn [fst snd]. rewrite !andb_true_iff in H. destruct H as [[_ _] H].
  unfold next. rewrite days_in_leap. fold leap. destruct (Z.eqb_spec yd (364 + (if leap then 1 else 0))) as [Elast|Hlast].
  - apply andb_true_iff in H as [Hm Hd]. apply Z.eqb_eq in Hm as ->, Hd as ->.
    destruct (year_unique (y + 1) y' 0 yd') as [<- <-]; [rewrite start_next, Hl; lia|unfold leap_day; destruct (is_leap (y + 1 + 1)); lia|done|].
    assert (days_in 12 (some_year leap) = 31) as -> by (by destruct leap). change (31 <? 31) with false. change (12 <? 12) with false. cbv iota.
    by destruct (is_leap (y + 1 + 1)).
  - destruct (year_unique y y' (yd + 1) yd') as [<- <-]; [lia|rewrite Hl; lia|done|]. fold leap.
    destruct (month_day leap (yd + 1)) as [m' d']. cbn [fst snd].
    destruct (d <? days_in m (some_year leap)).
    + apply andb_true_iff in H as [Hm Hd]. by apply Z.eqb_eq in Hm as ->, Hd as ->.
    + apply andb_true_iff in H as [H Hd]. apply andb_true_iff in H as [H1 Hm]. rewrite H1. by apply Z.eqb_eq in Hm as ->, Hd as ->.
Qed.

(** ** Counting *)
Lemma date_zero : date_of 0 = (1970, 1, 1).
Proof. reflexivity. Qed.
Lemma day_is_date day : DayIs day (date_of day).
Proof.
  induction day as [|day IH|day IH] using Z.peano_ind.
  - constructor.
  - change (Z.succ day) with (day + 1). eapply DI_after; [exact IH|]. apply next_iff. split; [apply valid_iff, date_valid|apply date_next].
  - apply (DI_before _ _ (date_of day)).
    + by replace (Z.pred day + 1) with day by lia.
    + apply next_iff. split; [apply valid_iff, date_valid|]. rewrite <-date_next. f_equal. lia.
Qed.
Lemma day_is_iff day x : DayIs day x ↔ date_of day = x.
Proof.
  split; [|intros <-; apply day_is_date]. induction 1 as [|day x x' _ IH HN|day x x' _ IH HN].
  - done.
  - apply next_iff in HN as [_ ->]. by rewrite date_next, IH.
  - apply next_iff in HN as [Hv ->]. apply next_inj; [apply date_valid|by apply valid_iff|]. by rewrite <-date_next.
Qed.
Lemma day_of_iff day y m d : ValidDate (y, m, d) → day_of y m d = day ↔ DayIs day (y, m, d).
Proof.
  intros Hv. rewrite day_is_iff. split; [|apply day_of_date]. intros <-. by apply date_of_day, valid_iff.
Qed.
Lemma day_valid day x : DayIs day x → ValidDate x.
Proof. rewrite day_is_iff. intros <-. apply valid_iff, date_valid. Qed.
