(** Lemmas for C141: writing times. *)
From Coq Require Import Ascii String ZArith NArith Lia.
From stdpp Require Import prelude strings.
From Verif.Model Require Import GoStrings Types Calendar.
From Verif.Spec Require Import CalendarSpec.
From Verif.Proofs Require Import StringLemmas CalendarDays CalendarText CalendarLemmas.
Local Open Scope string_scope.
Local Open Scope Z_scope.
Local Arguments String.append _ _ : simpl nomatch.

(** ** Date and time *)
Lemma append_num w n : 0 <= n < 10 ^ Z.of_nat w → append_int w n = digits w n.
Proof.
  intros H. unfold append_int. destruct (Z.ltb_spec n 0); [lia|]. rewrite Z.abs_eq by lia. destruct (Z.ltb_spec n (10 ^ Z.of_nat w)); [done|lia].
Qed.
Lemma year_range day y m d : -719162 <= day <= 2932896 → date_of day = (y, m, d) → 1 <= y <= 9999.
Proof.
  intros H E. destruct (date_split day) as (y0 & yd & Ey & Hyd & Ed). rewrite Ed in E. injection E as <- _ _.
  assert (0 <= leap_day (y0 + 1) <= 1) by (unfold leap_day; destruct (is_leap _); lia).
  split.
  - destruct (Z.le_gt_cases 0 y0); [lia|]. pose proof (start_mono (y0 + 1) 0 ltac:(lia)) as Hm. rewrite start_next in Hm. change (start 0) with 0 in Hm. lia.
  - destruct (Z.le_gt_cases y0 9998); [lia|]. pose proof (start_mono 9999 y0 ltac:(lia)) as Hm. change (start 9999) with 3652059 in Hm. lia.
Qed.
Lemma date_parts day y m d : date_of day = (y, m, d) → 1 <= m <= 12 ∧ 1 <= d <= 31.
Proof.
  intros E. pose proof (date_valid day) as H. rewrite E in H. unfold valid in H. rewrite !andb_true_iff, !Z.leb_le in H. pose proof (days_in_pos m y). lia.
Qed.
Lemma clock_parts secs : let s := secs mod 86400 in
  0 <= s / 3600 <= 23 ∧ 0 <= s mod 3600 / 60 <= 59 ∧ 0 <= s mod 60 <= 59 ∧
  secs = secs / 86400 * 86400 + s / 3600 * 3600 + s mod 3600 / 60 * 60 + s mod 60.
Proof. cbv zeta. Z.to_euclidean_division_equations. lia. Qed.
Lemma date_time_text secs : min_ts_secs <= secs <= max_ts_secs → DateText 2 (date_time secs) secs.
Proof.
  unfold min_ts_secs, max_ts_secs. intros H. unfold date_time. destruct (date_of (secs / 86400)) as [[y m] d] eqn:E.
  assert (1 <= y <= 9999) as Hy by (eapply year_range; [|exact E]; Z.to_euclidean_division_equations; lia).
  destruct (date_parts _ _ _ _ E) as [Hm Hd]. destruct (clock_parts secs) as (Hh & Hmi & Hs & Es). cbv zeta in *.
  set (s := secs mod 86400) in *. rewrite !append_num by (cbn; lia).
  econstructor; try (apply digits_num; cbn; lia). exists (secs / 86400). split_and!; try lia. apply day_is_iff. exact E.
Qed.

(** ** The fraction *)
Lemma substring_suffix a b : String.substring (String.length a) (String.length b) (a +:+ b) = b.
Proof. induction a as [|c a IH]; [|cbn; exact IH]. cbn. by apply substring_all. Qed.
Lemma trim_app a b suf : String.length b = String.length suf → trim_suffix suf (a +:+ b) = if String.eqb b suf then a else a +:+ b.
Proof.
  intros Hl. unfold trim_suffix, has_suffix. rewrite app_length_s.
  replace (String.length a + String.length b - String.length suf)%nat with (String.length a) by lia. rewrite <-Hl.
  rewrite substring_suffix. assert ((String.length b <=? String.length a + String.length b)%nat = true) as -> by (apply Nat.leb_le; lia). cbn [andb].
  destruct (String.eqb_spec b suf); [|done]. by rewrite substring_app.
Qed.
Lemma digits3_zero n : 0 <= n < 1000 → String.eqb (digits 3 n) "000" = (n =? 0).
Proof.
  intros H. destruct (String.eqb_spec (digits 3 n) "000") as [E|E].
  - pose proof (digits_num 3 n H) as (_ & _ & Hv)%num_iff. rewrite E in Hv. cbn in Hv. by subst n.
  - destruct (Z.eqb_spec n 0) as [->|]; done.
Qed.
Lemma nine_digits n : 0 <= n < 1000000000 →
  digits 9 n = digits 3 (n / 1000000) +:+ digits 3 (n / 1000 mod 1000) +:+ digits 3 (n mod 1000).
Proof.
  intros H. rewrite (digits_app 3 6), (digits_app 3 3). change (10 ^ Z.of_nat 6) with 1000000. change (10 ^ Z.of_nat 3) with 1000.
  f_equal. f_equal; [apply (digits_mod 3)|apply (digits_mod 3)].
Qed.
Lemma written t : ts_is_valid (Some t) = true → WrittenTime t (json_time t).
Proof.
  destruct t as [secs n]. intros HV. apply ts_valid_iff in HV as [HV Hn]. rewrite orb_false_iff, !Z.ltb_ge in HV.
  pose proof (date_time_text secs ltac:(lia)) as HD. unfold json_time. cbn [ts_seconds ts_nanos]. set (dt := date_time secs) in *.
  rewrite nine_digits by done. set (a := n / 1000000). set (b := n / 1000 mod 1000). set (c := n mod 1000).
  assert (Habc : 0 <= a < 1000 ∧ 0 <= b < 1000 ∧ 0 <= c < 1000 ∧ n = a * 1000000 + b * 1000 + c) by (subst a b c; Z.to_euclidean_division_equations; lia).
  clearbody a b c. destruct Habc as (Ha & Hb & Hc & ->).
  assert (E1 : ∀ x y, x +:+ "." +:+ y = (x +:+ ".") +:+ y) by (intros x y; by rewrite app_assoc_s).
  rewrite !E1. rewrite <-!app_assoc_s. rewrite (trim_app _ (digits 3 c)) by (by rewrite digits_length). rewrite digits3_zero by done.
  assert (Hdiv : ∀ p, (10 ^ p | a * 1000000 + b * 1000 + c) ↔ (a * 1000000 + b * 1000 + c) mod 10 ^ p = 0 ∨ p < 0 ∧ (0 | a * 1000000 + b * 1000 + c)).
  { intros p. destruct (Z.lt_ge_cases p 0) as [Hp|Hp].
    - rewrite (Z.pow_neg_r 10 p Hp). split; [by right|]. intros [H|[_ H]]; [|done]. rewrite Zmod_0_r in H. by rewrite H.
    - rewrite Z.mod_divide by (pose proof (Z.pow_pos_nonneg 10 p); lia). split; [by left|]. by intros [H|[? _]]; [|lia]. }
  destruct (Z.eqb_spec c 0) as [->|Hc0].
  2:{ assert (∀ x : string, trim_suffix "000" ((x +:+ digits 3 c)) = x +:+ digits 3 c) as Ht.
      { intros x. rewrite (trim_app _ (digits 3 c)) by (by rewrite digits_length). rewrite digits3_zero by done. by destruct (Z.eqb_spec c 0). }
      rewrite Ht.
      assert (trim_suffix ".000" ((((dt +:+ ".") +:+ digits 3 a) +:+ digits 3 b) +:+ digits 3 c) = (((dt +:+ ".") +:+ digits 3 a) +:+ digits 3 b) +:+ digits 3 c) as ->.
      { rewrite (digits_app 2 1 b : digits 3 b = _). rewrite <-(app_assoc_s _ (digits 2 _)), (app_assoc_s _ (digits 1 b)).
        rewrite (trim_app _ (digits 1 b +:+ digits 3 c)) by (by rewrite app_length_s, !digits_length).
        destruct (String.eqb_spec (digits 1 b +:+ digits 3 c) ".000") as [E|_]; [|done]. exfalso.
        change ".000" with ("." +:+ "000") in E. apply app_eq_len_s in E as [_ E]; [|by rewrite digits_length].
        pose proof (digits3_zero c Hc) as H0. rewrite E in H0. cbn in H0. by destruct (Z.eqb_spec c 0). }
      rewrite !app_assoc_s. apply (WT _ _ ("." +:+ digits 3 a +:+ digits 3 b +:+ digits 3 c) 9).
      - exact HD.
      - auto.
      - intros w' Hw' Hdv. cbn [ts_nanos] in Hdv. apply Hdiv in Hdv as [Hdv|[Hp _]]; [|exfalso; clear -Hp Hw'; destruct Hw' as [->|[->|[->| ->]]]; cbn in Hp; lia].
        destruct Hw' as [->|[->|[->| ->]]]; [exfalso|exfalso|exfalso|done]; change (10 ^ (9 - Z.of_nat 0)) with 1000000000 in Hdv; change (10 ^ (9 - Z.of_nat 3)) with 1000000 in Hdv; change (10 ^ (9 - Z.of_nat 6)) with 1000 in Hdv; clear -Hdv Ha Hb Hc Hc0; Z.to_euclidean_division_equations; lia.
      - cbn [ts_nanos]. pose proof (num_app _ _ _ _ _ _ (num_app _ _ _ _ _ _ (digits_num 3 a Ha) (digits_num 3 b Hb)) (digits_num 3 c Hc)) as HN.
        rewrite app_assoc_s in HN. pose proof (FT_short "." 9 _ _ (or_introl eq_refl) ltac:(lia) HN) as HF.
        match type of HF with FracText _ ?n => replace n with (a * 1000000 + b * 1000 + c) in HF by (change (10 ^ Z.of_nat 3) with 1000; change (10 ^ (9 - Z.of_nat 9)) with 1; lia) end. exact HF.
      - rewrite !app_length_s, !digits_length. done.
      - by intros ch r [= <- _]. }
  rewrite (trim_app _ (digits 3 b)) by (by rewrite digits_length). rewrite digits3_zero by done.
  destruct (Z.eqb_spec b 0) as [->|Hb0].
  2:{ assert (trim_suffix ".000" (((dt +:+ ".") +:+ digits 3 a) +:+ digits 3 b) = ((dt +:+ ".") +:+ digits 3 a) +:+ digits 3 b) as ->.
      { rewrite (digits_app 2 1 a : digits 3 a = _). rewrite <-(app_assoc_s _ (digits 2 _)), (app_assoc_s _ (digits 1 a)).
        rewrite (trim_app _ (digits 1 a +:+ digits 3 b)) by (by rewrite app_length_s, !digits_length).
        destruct (String.eqb_spec (digits 1 a +:+ digits 3 b) ".000") as [E|_]; [|done]. exfalso.
        change ".000" with ("." +:+ "000") in E. apply app_eq_len_s in E as [_ E]; [|by rewrite digits_length].
        pose proof (digits3_zero b Hb) as H0. rewrite E in H0. cbn in H0. by destruct (Z.eqb_spec b 0). }
      rewrite !app_assoc_s. apply (WT _ _ ("." +:+ digits 3 a +:+ digits 3 b) 6).
      - exact HD.
      - auto.
      - intros w' Hw' Hdv. cbn [ts_nanos] in Hdv. apply Hdiv in Hdv as [Hdv|[Hp _]]; [|exfalso; clear -Hp Hw'; destruct Hw' as [->|[->|[->| ->]]]; cbn in Hp; lia].
        destruct Hw' as [->|[->|[->| ->]]]; [exfalso|exfalso|lia|lia]; change (10 ^ (9 - Z.of_nat 0)) with 1000000000 in Hdv; change (10 ^ (9 - Z.of_nat 3)) with 1000000 in Hdv; change (10 ^ (9 - Z.of_nat 6)) with 1000 in Hdv; clear -Hdv Ha Hb Hb0; Z.to_euclidean_division_equations; lia.
      - cbn [ts_nanos]. pose proof (num_app _ _ _ _ _ _ (digits_num 3 a Ha) (digits_num 3 b Hb)) as HN.
        pose proof (FT_short "." 6 _ _ (or_introl eq_refl) ltac:(lia) HN) as HF.
        match type of HF with FracText _ ?n => replace n with (a * 1000000 + b * 1000 + 0) in HF by (change (10 ^ Z.of_nat 3) with 1000; change (10 ^ (9 - Z.of_nat 6)) with 1000; lia) end. exact HF.
      - rewrite !app_length_s, !digits_length. done.
      - by intros ch r [= <- _]. }
  rewrite app_assoc_s, (trim_app dt ("." +:+ digits 3 a)) by (by rewrite app_length_s, digits_length).
  assert (String.eqb ("." +:+ digits 3 a) ".000" = (a =? 0)) as ->.
  { rewrite <-(digits3_zero a Ha). change ("." +:+ digits 3 a) with (String "." (digits 3 a)). reflexivity. }
  destruct (Z.eqb_spec a 0) as [->|Ha0].
  - apply (WT _ _ "" 0); [exact HD|auto|intros; lia|constructor|done|done].
  - rewrite app_assoc_s. apply (WT _ _ ("." +:+ digits 3 a) 3).
    + exact HD.
    + auto.
    + intros w' Hw' Hdv. cbn [ts_nanos] in Hdv. apply Hdiv in Hdv as [Hdv|[Hp _]]; [|exfalso; clear -Hp Hw'; destruct Hw' as [->|[->|[->| ->]]]; cbn in Hp; lia].
      destruct Hw' as [->|[->|[->| ->]]]; [exfalso|lia|lia|lia]; change (10 ^ (9 - Z.of_nat 0)) with 1000000000 in Hdv; change (10 ^ (9 - Z.of_nat 3)) with 1000000 in Hdv; change (10 ^ (9 - Z.of_nat 6)) with 1000 in Hdv; clear -Hdv Ha Ha0; Z.to_euclidean_division_equations; lia.
    + cbn [ts_nanos]. pose proof (FT_short "." 3 _ _ (or_introl eq_refl) ltac:(lia) (digits_num 3 a Ha)) as HF.
        match type of HF with FracText _ ?n => replace n with (a * 1000000 + 0 * 1000 + 0) in HF by (change (10 ^ Z.of_nat 3) with 1000; change (10 ^ (9 - Z.of_nat 3)) with 1000000; lia) end. exact HF.
    + rewrite !app_length_s, !digits_length. done.
    + by intros ch r [= <- _].
Qed.
Lemma written_reads t s : ts_is_valid (Some t) = true → WrittenTime t s → TimeText s t.
Proof.
  intros HV [dt fr w HD _ _ HF _ _]. destruct t as [secs n]. cbn [ts_seconds ts_nanos] in *.
  replace secs with (secs - 0) by lia. eapply (TT 2); [by right| |exact HF|constructor|]; by rewrite ?Z.sub_0_r.
Qed.
Lemma time_round_trip t : ts_is_valid (Some t) = true → read_time (json_time t) = Some t.
Proof. intros H. apply read_iff. by apply written_reads, written. Qed.
