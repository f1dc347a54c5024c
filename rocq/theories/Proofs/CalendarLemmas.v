(** Lemmas for C141: reading and writing times. *)
From Coq Require Import Ascii String ZArith NArith Lia.
From stdpp Require Import prelude strings.
From Verif.Model Require Import GoStrings Types Calendar.
From Verif.Spec Require Import CalendarSpec.
From Verif.Proofs Require Import StringLemmas CalendarDays CalendarText.
Local Open Scope string_scope.
Local Open Scope Z_scope.
Local Arguments String.append _ _ : simpl nomatch.

Lemma frac_none s : fraction s = (None, s) ∨ ∃ c ds r, fraction s = (Some (c, ds), r) ∧ s = String c (ds +:+ r) ∧
  (c = "."%char ∨ c = ","%char) ∧ ds ≠ "" ∧ all_digits ds = true.
Proof.
  destruct s as [|c s]; [by left|]. unfold fraction. pose proof (span_spec s) as (E & H1 & H2). destruct (span_digits s) as [ds r]. cbn [fst snd] in *.
  destruct ((Ascii.eqb c "." || Ascii.eqb c ",") && negb (String.eqb ds "")) eqn:Ec; [|by left]. right. exists c, ds, r.
  apply andb_true_iff in Ec as [Ec Hd]. split; [done|]. split; [by rewrite E|]. split.
  - apply orb_true_iff in Ec as [Ec|Ec]; apply Ascii.eqb_eq in Ec; auto.
  - split; [|done]. intros ->. done.
Qed.
Lemma frac_some c ds r : (c = "."%char ∨ c = ","%char) → ds ≠ "" → all_digits ds = true → digit_first r = false →
  fraction (String c (ds +:+ r)) = (Some (c, ds), r).
Proof.
  intros Hc Hd H1 H2. unfold fraction. rewrite span_app by done. destruct (String.eqb_spec ds "") as [|_]; [done|].
  by destruct Hc as [-> | ->].
Qed.
Lemma frac_zone z off r : ZoneText z off → fraction (z +:+ r) = (None, z +:+ r) ∧ digit_first (z +:+ r) = false.
Proof. destruct 1; cbn; (split; [|done]); by destruct (span_digits _). Qed.

(** What follows the seconds. *)
Definition tail_of (s : string) : option (Z * Z) :=
  let '(f, s) := fraction s in
  '(off, s) ← read_zone s;
  if negb (String.eqb s "") then None
  else match f with
       | Some (c, ds) => if Ascii.eqb c "." && (9 <? String.length ds)%nat then None else Some (nanos_of ds, off)
       | None => Some (0, off)
       end.
Lemma tail_iff s n off : tail_of s = Some (n, off) ↔ ∃ fr zo, s = fr +:+ zo ∧ FracText fr n ∧ ZoneText zo off.
Proof.
  unfold tail_of. split.
  - destruct (frac_none s) as [-> |(c & ds & r & -> & -> & Hc & Hn & Hd)].
    + destruct (read_zone s) as [[o r]|] eqn:E; [|done]. cbn [mbind option_bind negb orb]. apply zone_iff in E as (z & Hz & ->).
      destruct (String.eqb_spec r "") as [->|]; [|done]. cbn [mbind option_bind negb orb]. intros [= <- <-]. exists "", z. rewrite app_nil_r_s. split; [done|]. split; [constructor|done].
    + destruct (read_zone r) as [[o r']|] eqn:E; [|done]. cbn [mbind option_bind negb orb]. apply zone_iff in E as (z & Hz & ->).
      destruct (String.eqb_spec r' "") as [->|]; [|done]. cbn [mbind option_bind negb orb]. rewrite app_nil_r_s.
      destruct (Ascii.eqb c "." && (9 <? String.length ds)%nat) eqn:El; [done|]. intros [= <- <-]. exists (String c ds), z. split; [done|]. split; [|done].
      assert (Hnum : Num (String.length ds) (value 0 ds) ds) by (by apply num_iff).
      assert (1 <= String.length ds)%nat as H1 by (destruct ds; [done|cbn; lia]).
      destruct (Nat.ltb_spec 9 (String.length ds)) as [Hl|Hl].
      * rewrite andb_true_r in El. destruct Hc as [-> | ->]; [done|].
        replace (String.length ds) with (9 + (String.length ds - 9))%nat in Hnum by lia. destruct (num_split _ _ _ _ Hnum) as (d1 & d2 & n1 & n2 & E & H9 & H9' & _).
        rewrite E. rewrite (nanos_long n1) by done. eapply FT_long; [reflexivity| |exact H9|exact H9']. lia.
      * rewrite (nanos_short _ _ _ Hnum Hl). apply FT_short; [done|lia|done].
  - intros (fr & zo & -> & Hf & Hz). destruct (frac_zone zo off "" Hz) as [HF HD]. rewrite app_nil_r_s in HF, HD.
    assert (Ez : read_zone zo = Some (off, "")) by (apply zone_iff; exists zo; by rewrite app_nil_r_s).
    destruct Hf as [|c w n ds Hc Hw Hn|w n ds w' n' ds' -> Hw' Hn Hn'].
    + cbn [String.append]. rewrite HF. by rewrite Ez.
    + cbn [String.append]. pose proof Hn as (Hl & Hd & _)%num_iff. rewrite frac_some by (done || (intros ->; cbn in Hl; lia)). rewrite Ez. cbn [mbind option_bind negb orb].
      destruct (Nat.ltb_spec 9 (String.length ds)) as [Hlt|_]; [exfalso; lia|]. rewrite andb_false_r. rewrite (nanos_short w n) by (done || lia). done.
    + cbn [String.append]. pose proof Hn as (Hl & Hd & _)%num_iff. pose proof Hn' as (Hl' & Hd' & _)%num_iff.
      rewrite frac_some; [|by right|destruct ds; done|by rewrite all_digits_app, Hd, Hd'|done]. rewrite Ez. cbn [mbind option_bind negb orb].
      by rewrite (nanos_long n).
Qed.

Lemma read_time_tail s : read_time s =
  '(y, s) ← num4 s; s ← literal "-" s; '(mo, s) ← num2 s; s ← literal "-" s; '(d, s) ← num2 s; s ← literal "T" s;
  '(h, s) ← num12 s; s ← literal ":" s; '(mi, s) ← num2 s; s ← literal ":" s; '(sec, s) ← num2 s;
  '(n, off) ← tail_of s;
  if (mo <? 1) || (12 <? mo) || (23 <? h) || (59 <? mi) || (59 <? sec) || (d <? 1) || (days_in mo y <? d) then None
  else let secs := day_of y mo d * 86400 + h * 3600 + mi * 60 + sec - off in
    if (secs <? min_ts_secs) || (max_ts_secs <? secs) then None else Some (Timestamp secs n).
Proof.
  unfold read_time, tail_of.
  destruct (num4 s) as [[y s1]|]; [|done]. cbn [mbind option_bind]. destruct (literal "-" s1) as [s2|]; [|done]. cbn [mbind option_bind].
  destruct (num2 s2) as [[mo s3]|]; [|done]. cbn [mbind option_bind]. destruct (literal "-" s3) as [s4|]; [|done]. cbn [mbind option_bind].
  destruct (num2 s4) as [[d s5]|]; [|done]. cbn [mbind option_bind]. destruct (literal "T" s5) as [s6|]; [|done]. cbn [mbind option_bind].
  destruct (num12 s6) as [[h s7]|]; [|done]. cbn [mbind option_bind]. destruct (literal ":" s7) as [s8|]; [|done]. cbn [mbind option_bind].
  destruct (num2 s8) as [[mi s9]|]; [|done]. cbn [mbind option_bind]. destruct (literal ":" s9) as [s10|]; [|done]. cbn [mbind option_bind].
  destruct (num2 s10) as [[sec s11]|]; [|done]. cbn [mbind option_bind]. destruct (fraction s11) as [f s12].
  destruct (read_zone s12) as [[off s13]|]; [|done]. cbn [mbind option_bind]. destruct (String.eqb s13 ""); [|done]. cbn [negb orb].
  destruct f as [[c ds]|]; cbn [mbind option_bind].
  - destruct (Ascii.eqb c "." && (9 <? String.length ds)%nat); cbn [mbind option_bind]; [|done].
    cbv zeta. by repeat match goal with |- context [if ?b then _ else _] => destruct b end.
  - done.
Qed.
Lemma valid_days y mo d : ValidDate (y, mo, d) ↔ (mo <? 1) || (12 <? mo) = false ∧ (d <? 1) || (days_in mo y <? d) = false.
Proof.
  rewrite <-valid_iff. unfold valid. rewrite !andb_true_iff, !Z.leb_le, !orb_false_iff, !Z.ltb_ge. tauto.
Qed.
Lemma ts_valid_iff s n : ts_is_valid (Some (Timestamp s n)) = true ↔ (s <? min_ts_secs) || (max_ts_secs <? s) = false ∧ 0 <= n < 1000000000.
Proof.
  unfold ts_is_valid. cbn [ts_seconds ts_nanos]. unfold giga. rewrite !andb_true_iff, !Z.leb_le, Z.ltb_lt, orb_false_iff, !Z.ltb_ge. tauto.
Qed.
Lemma frac_range fr n : FracText fr n → 0 <= n < 1000000000.
Proof.
  destruct 1 as [|c w n ds _ Hw Hn|w n ds w' n' ds' -> _ Hn _]; [lia| |].
  - apply num_range in Hn. assert (10 ^ Z.of_nat w * 10 ^ (9 - Z.of_nat w) = 10 ^ 9) as E by (rewrite <-Z.pow_add_r by lia; f_equal; lia).
    change (10 ^ 9) with 1000000000 in E. nia.
  - apply num_range in Hn. exact Hn.
Qed.
Lemma read_iff s t : read_time s = Some t ↔ TimeText s t.
Proof.
  rewrite read_time_tail. split.
  - destruct (num4 s) as [[y s1]|] eqn:E1; [|done]. cbn [mbind option_bind]. apply num4_iff in E1 as (ys & Hy & ->).
    destruct (literal "-" s1) as [s2|] eqn:E; [|done]. cbn [mbind option_bind]. apply literal_iff in E as ->.
    destruct (num2 s2) as [[mo s3]|] eqn:E; [|done]. cbn [mbind option_bind]. apply num2_iff in E as (mos & Hmo & ->).
    destruct (literal "-" s3) as [s4|] eqn:E; [|done]. cbn [mbind option_bind]. apply literal_iff in E as ->.
    destruct (num2 s4) as [[d s5]|] eqn:E; [|done]. cbn [mbind option_bind]. apply num2_iff in E as (ds & Hd & ->).
    destruct (literal "T" s5) as [s6|] eqn:E; [|done]. cbn [mbind option_bind]. apply literal_iff in E as ->.
    destruct (num12 s6) as [[h s7]|] eqn:E; [|done]. cbn [mbind option_bind]. apply num12_iff in E as (wh & hs & Hh & -> & Hw).
    destruct (literal ":" s7) as [s8|] eqn:E; [|done]. cbn [mbind option_bind]. apply literal_iff in E as ->.
    destruct (num2 s8) as [[mi s9]|] eqn:E; [|done]. cbn [mbind option_bind]. apply num2_iff in E as (mis & Hmi & ->).
    destruct (literal ":" s9) as [s10|] eqn:E; [|done]. cbn [mbind option_bind]. apply literal_iff in E as ->.
    destruct (num2 s10) as [[sec s11]|] eqn:E; [|done]. cbn [mbind option_bind]. apply num2_iff in E as (ss & Hs & ->).
    destruct (tail_of s11) as [[n off]|] eqn:E; [|done]. cbn [mbind option_bind]. apply tail_iff in E as (fr & zo & -> & Hf & Hz).
    destruct ((mo <? 1) || (12 <? mo) || (23 <? h) || (59 <? mi) || (59 <? sec) || (d <? 1) || (days_in mo y <? d)) eqn:Er; [done|]. cbv zeta.
    set (secs := day_of y mo d * 86400 + h * 3600 + mi * 60 + sec).
    destruct ((secs - off <? min_ts_secs) || (max_ts_secs <? secs - off)) eqn:Ev; [done|]. intros [= <-].
    rewrite !orb_false_iff in Er. destruct Er as [[[[[[H1 H2] H3] H4] H5] H6] H7].
    assert (HV : ValidDate (y, mo, d)) by (apply valid_days; by rewrite !orb_false_iff).
    apply Z.ltb_ge in H3, H4, H5. apply num_range in Hh as Hh', Hmi as Hmi', Hs as Hs'.
    assert (HD : DateText wh (ys +:+ "-" +:+ mos +:+ "-" +:+ ds +:+ "T" +:+ hs +:+ ":" +:+ mis +:+ ":" +:+ ss) secs).
    { econstructor; try eassumption. exists (day_of y mo d). split_and!; try lia. by apply day_of_iff. }
    assert (HT : TimeText ((ys +:+ "-" +:+ mos +:+ "-" +:+ ds +:+ "T" +:+ hs +:+ ":" +:+ mis +:+ ":" +:+ ss) +:+ fr +:+ zo) (Timestamp (secs - off) n)).
    { econstructor; [|exact HD|exact Hf|exact Hz|].
      - destruct Hw as [?|[? _]]; auto.
      - apply ts_valid_iff. split; [done|]. by eapply frac_range. }
    rewrite !app_assoc_s in HT. exact HT.
  - destruct 1 as [wh dt secs fr nanos zo off Hw HD Hf Hz HV]. destruct HD as [y mo d h mi s ys mos ds hs mis ss secs Hy Hmo Hd Hh Hmi Hs HA].
    destruct HA as (day & HDay & Rh & Rmi & Rs & ->). pose proof (day_valid _ _ HDay) as HVD. apply day_of_iff in HDay; [|done].
    rewrite !app_assoc_s. cbn [String.append].
    rewrite (proj2 (num4_iff _ y _) (ex_intro _ ys (conj Hy eq_refl))). cbn [mbind option_bind literal Ascii.eqb Bool.eqb].
    rewrite (proj2 (num2_iff _ mo _) (ex_intro _ mos (conj Hmo eq_refl))). cbn [mbind option_bind literal Ascii.eqb Bool.eqb].
    rewrite (proj2 (num2_iff _ d _) (ex_intro _ ds (conj Hd eq_refl))). cbn [mbind option_bind literal Ascii.eqb Bool.eqb].
    rewrite (proj2 (num12_iff (hs +:+ String ":" (mis +:+ String ":" (ss +:+ fr +:+ zo))) h (String ":" (mis +:+ String ":" (ss +:+ fr +:+ zo))))).
    2:{ exists wh, hs. split; [done|]. split; [done|]. destruct Hw as [-> | ->]; [by right|by left]. }
    cbn [mbind option_bind literal Ascii.eqb Bool.eqb].
    rewrite (proj2 (num2_iff _ mi _) (ex_intro _ mis (conj Hmi eq_refl))). cbn [mbind option_bind literal Ascii.eqb Bool.eqb].
    rewrite (proj2 (num2_iff _ s _) (ex_intro _ ss (conj Hs eq_refl))). cbn [mbind option_bind].
    rewrite (proj2 (tail_iff (fr +:+ zo) nanos off)) by eauto. cbn [mbind option_bind].
    apply valid_days in HVD as [-> H2]. cbn [orb]. apply ts_valid_iff in HV as [HV _].
    destruct (Z.ltb_spec 23 h); [lia|]. destruct (Z.ltb_spec 59 mi); [lia|]. destruct (Z.ltb_spec 59 s); [lia|]. cbn [orb]. rewrite H2. cbv zeta.
    rewrite HDay. by rewrite HV.
Qed.
