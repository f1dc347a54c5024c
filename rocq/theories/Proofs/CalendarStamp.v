(** Lemmas for C141 and C142: stamps, and times in JSON messages. *)
From Coq Require Import Ascii String ZArith NArith Lia.
From stdpp Require Import prelude strings gmap.
From Verif.Model Require Import GoStrings Types Filter Chunk Mmf Samples Wire JsonMsg Calendar.
From Verif.Spec Require Import CalendarSpec JsonSpec HttpSpec JsonTextSpec JsonBytesSpec.
From Verif.Proofs Require Import StringLemmas DetailsLemmas SampleLemmas CalendarDays CalendarText CalendarLemmas CalendarWrite.
Local Open Scope string_scope.
Local Open Scope Z_scope.
Local Arguments String.append _ _ : simpl nomatch.

(** ** Texts of times are all different *)
Lemma app_eq_len_r a a' b b' : String.length b = String.length b' → a +:+ b = a' +:+ b' → a = a' ∧ b = b'.
Proof.
  intros Hl E. apply app_eq_len_s; [|done]. assert (String.length (a +:+ b) = String.length (a' +:+ b')) as H by (by rewrite E).
  rewrite !app_length_s in H. lia.
Qed.
Lemma value_dv acc s : value (Z.of_N acc) s = Z.of_N (dv acc s).
Proof.
  revert acc. induction s as [|c s IH]; intros acc; [done|]. cbn [value dv]. unfold dig.
  replace (10 * Z.of_N acc + Z.of_N (digit_val c)) with (Z.of_N (acc * 10 + digit_val c)) by lia. apply IH.
Qed.
Lemma append_value w x : value 0 (if Z.abs x <? 10 ^ Z.of_nat w then digits w (Z.abs x) else format_Z (Z.abs x)) = Z.abs x ∧
  all_digits (if Z.abs x <? 10 ^ Z.of_nat w then digits w (Z.abs x) else format_Z (Z.abs x)) = true.
Proof.
  destruct (Z.ltb_spec (Z.abs x) (10 ^ Z.of_nat w)) as [H|H].
  - pose proof (digits_num w (Z.abs x) ltac:(lia)) as (_ & H1 & H2)%num_iff. done.
  - rewrite format_Z_nonneg by lia. split; [|apply format_N_digits]. change 0 with (Z.of_N 0). rewrite value_dv, dv_format_N. lia.
Qed.
Lemma append_inj w x x' : append_int w x = append_int w x' → x = x'.
Proof.
  unfold append_int. destruct (append_value w x) as [Hv Hd], (append_value w x') as [Hv' Hd'].
  set (s := if Z.abs x <? 10 ^ Z.of_nat w then digits w (Z.abs x) else format_Z (Z.abs x)) in *.
  set (s' := if Z.abs x' <? 10 ^ Z.of_nat w then digits w (Z.abs x') else format_Z (Z.abs x')) in *. clearbody s s'.
  destruct (Z.ltb_spec x 0) as [H|H], (Z.ltb_spec x' 0) as [H'|H']; cbn [String.append]; intros E.
  - injection E as <-. lia.
  - subst s'. done.
  - subst s. done.
  - subst s'. lia.
Qed.
Lemma two_length n : 0 <= n < 100 → String.length (append_int 2 n) = 2%nat.
Proof. intros H. rewrite append_num by done. apply digits_length. Qed.
Lemma date_time_inj a b : date_time a = date_time b → a = b.
Proof.
  unfold date_time. destruct (date_of (a / 86400)) as [[y m] d] eqn:Ea, (date_of (b / 86400)) as [[y' m'] d'] eqn:Eb.
  destruct (date_parts _ _ _ _ Ea) as [Hm Hd], (date_parts _ _ _ _ Eb) as [Hm' Hd'].
  destruct (clock_parts a) as (Hh & Hmi & Hs & Es), (clock_parts b) as (Hh' & Hmi' & Hs' & Es'). cbv zeta in *.
  set (sa := a mod 86400) in *. set (sb := b mod 86400) in *. intros E.
  apply app_eq_len_r in E as [Ey E]; [|rewrite !app_length_s, !two_length by lia; done]. apply append_inj in Ey as ->.
  apply app_inj_l_s in E. apply app_eq_len_s in E as [Em E]; [|rewrite !two_length by lia; done]. apply append_inj in Em as ->.
  apply app_inj_l_s in E. apply app_eq_len_s in E as [Ed E]; [|rewrite !two_length by lia; done]. apply append_inj in Ed as ->.
  apply app_inj_l_s in E. apply app_eq_len_s in E as [E1 E]; [|rewrite !two_length by lia; done]. apply append_inj in E1.
  apply app_inj_l_s in E. apply app_eq_len_s in E as [E2 E]; [|rewrite !two_length by lia; done]. apply append_inj in E2.
  apply app_inj_l_s in E. apply append_inj in E. apply day_of_date in Ea, Eb. lia.
Qed.

Lemma show_iff zone a b : show_local zone a = show_local zone b ↔ local zone a = local zone b.
Proof.
  unfold show_local, local. split.
  - intros E. apply app_eq_len_r in E as [E1 E2]; [|rewrite !app_length_s, !digits_length; done]. apply date_time_inj in E1.
    apply app_inj_l_s in E2. assert (a mod 100 = b mod 100) as Em.
    { pose proof (digits_num 2 (a mod 100) ltac:(apply Z.mod_pos_bound; lia)) as (_ & _ & H1)%num_iff.
      pose proof (digits_num 2 (b mod 100) ltac:(apply Z.mod_pos_bound; lia)) as (_ & _ & H2)%num_iff. congruence. }
    pose proof (Z.div_mod a 100 ltac:(done)). pose proof (Z.div_mod b 100 ltac:(done)). lia.
  - intros E. pose proof (Z.div_mod a 100 ltac:(done)). pose proof (Z.div_mod b 100 ltac:(done)).
    pose proof (Z.mod_pos_bound a 100 ltac:(done)). pose proof (Z.mod_pos_bound b 100 ltac:(done)).
    assert (a / 100 + zone (a / 100) = b / 100 + zone (b / 100)) as -> by lia. by assert (a mod 100 = b mod 100) as -> by lia.
Qed.
Lemma show_text zone h : min_ts_secs <= h / 100 + zone (h / 100) <= max_ts_secs →
  ∃ dt cs, DateText 2 dt (h / 100 + zone (h / 100)) ∧ Num 2 (h mod 100) cs ∧ show_local zone h = dt +:+ "." +:+ cs.
Proof.
  intros H. eexists _, _. split; [by apply date_time_text|]. split; [|reflexivity]. apply digits_num. by apply Z.mod_pos_bound.
Qed.
Lemma local_ids_differ f zone clock ps r clock' ps' r' ms ms' m m' :
  (∀ k k', local zone (clock k / 10000000) ≠ local zone (clock' k' / 10000000)) →
  run_sample f (show_local zone) clock ps r = Done ms → run_sample f (show_local zone) clock' ps' r' = Done ms' →
  m ∈ ms → m' ∈ ms' → ma_id m ≠ ma_id m'.
Proof.
  intros Hc H H' Hm Hm' E. destruct (run_numbered _ _ _ _ _ _ _ H Hm) as (k & n & E1).
  destruct (run_numbered _ _ _ _ _ _ _ H' Hm') as (k' & n' & E2). rewrite E1, E2 in E.
  apply match_id_same in E as [E _]. unfold stamp in E. apply show_iff in E. by apply (Hc k k').
Qed.

(** ** Times in JSON messages *)
Lemma digits_utf8 w n s : Num w n s → utf8_valid s = true.
Proof.
  rewrite num_iff. intros (_ & H & _). induction s as [|c s IH]; [done|]. cbn in H. apply andb_true_iff in H as [Hc H].
  cbn [utf8_valid]. assert (in_range 0 127 c = true) as ->; [|by apply IH].
  unfold is_digit in Hc. unfold in_range. rewrite andb_true_iff, !N.leb_le in *. lia.
Qed.
Lemma date_utf8 w s secs : DateText w s secs → utf8_valid s = true.
Proof.
  destruct 1. repeat (rewrite utf8_app by (first [by eapply digits_utf8|reflexivity])). by eapply digits_utf8.
Qed.
Lemma frac_utf8 s n : FracText s n → utf8_valid s = true.
Proof.
  destruct 1 as [|c w n ds Hc _ Hn|w n ds w' n' ds' _ _ Hn Hn']; [done| |].
  - change (utf8_valid (String c "" +:+ ds) = true). rewrite utf8_app by (by destruct Hc as [-> | ->]). by eapply digits_utf8.
  - change (utf8_valid ("," +:+ ds +:+ ds') = true). rewrite utf8_app by done. rewrite utf8_app by (by eapply digits_utf8). by eapply digits_utf8.
Qed.
Lemma time_utf8 t : ts_is_valid (Some t) = true → utf8_valid (json_time t) = true.
Proof.
  intros H. destruct (written t H) as [dt fr w HD _ _ HF _ _]. rewrite utf8_app by (by eapply date_utf8). rewrite utf8_app by (by eapply frac_utf8). done.
Qed.
Lemma times_agree c d : (∀ x z, (x < 2 ^ 64)%N → f64_val x = FFin z → jc_dbl_read d (jc_dbl c x) = Some x) →
  (∀ z, Fits32 z → jc_int_read d (format_Z z) = Some z) → Agree (with_times c) (with_times d).
Proof. intros H1 H2. split; [|split; [exact H1|exact H2]]. intros t Ht. by apply time_round_trip. Qed.
Lemma times_written c : (∀ x z, f64_val x = FFin z → JsonNumber (codes (jc_dbl c x))) →
  (∀ url e v l, jc_types c url = Some e → em_write e v = Some l → Writable (JDict l)) → WritesJson (with_times c).
Proof. intros H1 H2. split; [exact H1|]. split; [|exact H2]. intros t Ht. by apply time_utf8. Qed.
