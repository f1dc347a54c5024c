(** Lemmas for C144: the texts of doubles; the library as a whole. *)
From Coq Require Import Ascii String ZArith NArith Lia.
From stdpp Require Import prelude strings.
From Verif.Model Require Import GoStrings Types Wire Proto JsonMsg HttpStream JsonText JsonBytes Calendar JsonNumber.
From Verif.Spec Require Import CalendarSpec HttpSpec JsonSpec JsonTextSpec JsonBytesSpec NumberSpec.
From Verif.Proofs Require Import StringLemmas HttpLemmas Utf8TextLemmas JsonBytesLemmas CalendarText CalendarWrite CalendarStamp
  DoubleBits DoubleShort NumberScan NumberInt NumberRead DoubleRead DoubleWrite.
Local Open Scope string_scope.
Local Open Scope Z_scope.
Local Arguments String.append _ _ : simpl nomatch.

Lemma stands_low neg m k x : 0 <= m → StandsFor neg m k x ↔ (x < 2 ^ 64)%N ∧ f64_sign x = neg ∧ dec_bits m k = low x ∧ low x < inf_bits.
Proof.
  intros Hm. rewrite stands_iff by done. pose proof inf_sign. split.
  - intros (b & <- & Hb & ->). assert (0 <= dec_bits m k) as H0.
    { pose proof (eq_refl (dec_bits m k)) as R. apply dec_iff in R; [|done]. by destruct R. }
    destruct (with_low_spec neg (dec_bits m k) ltac:(lia)) as (W1 & W2 & W3). rewrite W2. done.
  - intros (Hx & <- & Hd & Hi). exists (low x). split; [done|]. split; [done|]. by rewrite with_low_of.
Qed.
Lemma mag_iff a b : 0 <= a → 0 <= b → mag a < mag b ↔ a < b.
Proof.
  intros Ha Hb. split; [|by apply mag_lt]. intros H. destruct (Z.lt_ge_cases a b) as [|Hge]; [done|]. pose proof (mag_le b a Hb Hge). lia.
Qed.
Lemma dec_nonneg m k : 0 <= m → 0 <= dec_bits m k.
Proof. intros Hm. pose proof (eq_refl (dec_bits m k)) as R. apply dec_iff in R; [|done]. by destruct R. Qed.
Lemma ordinary_iff x z : f64_val x = FFin z → Ordinary x ↔ small_or_big (low x) = false.
Proof.
  intros Hz. assert (∃ l, dec_bits 1 (-6) = l ∧ 0 <= l < inf_bits) as (l & El & Hl) by (eexists; split; [vm_compute; reflexivity|split; vm_compute; [discriminate|reflexivity]]).
  assert (∃ h, dec_bits 1 21 = h ∧ 0 <= h < inf_bits) as (h & Eh & Hh) by (eexists; split; [vm_compute; reflexivity|split; vm_compute; [discriminate|reflexivity]]).
  pose proof inf_sign. destruct (with_low_spec false l ltac:(lia)) as (L1 & L2 & L3), (with_low_spec false h ltac:(lia)) as (H1 & H2 & H3).
  pose proof (finite_iff x z) as [F _]. destruct (F Hz) as [Fi ->]. clear F. pose proof (low_bound x) as Hlow.
  assert (Z.abs (WithSign (f64_sign x) (mag (low x))) = mag (low x)) as Eabs.
  { pose proof (mag_nonneg (low x) ltac:(lia)). unfold WithSign. destruct (f64_sign x); lia. }
  unfold small_or_big. rewrite El, Eh, orb_false_iff, Z.ltb_ge, Z.leb_gt. split.
  - intros HO. destruct (HO _ (with_low false l) (mag l) (with_low false h) (mag h) Hz) as [O1 O2].
    + apply stands_iff; [lia|]. exists l. split; [exact El|split; [lia|reflexivity]].
    + apply finite_iff. rewrite L2, L3. split; [lia|reflexivity].
    + apply stands_iff; [lia|]. exists h. split; [exact Eh|split; [lia|reflexivity]].
    + apply finite_iff. rewrite H2, H3. split; [lia|reflexivity].
    + rewrite Eabs in *. rewrite mag_iff in O2 by lia. split; [|done]. destruct (Z.le_gt_cases l (low x)) as [|Hlt]; [done|].
      pose proof (mag_lt (low x) l ltac:(lia) Hlt). lia.
  - intros [O1 O2] z' lo zl hi zh Hz' Hlo Hzl Hhi Hzh. rewrite Hz in Hz'. injection Hz' as <-.
    apply stands_low in Hlo as (_ & Sl & Dl & Il); [|lia]. apply stands_low in Hhi as (_ & Sh & Dh & Ih); [|lia].
    apply finite_iff in Hzl as [_ ->], Hzh as [_ ->]. rewrite Sl, Sh, <- Dl, <- Dh, El, Eh, Eabs. unfold WithSign. split; [apply mag_le; lia|apply mag_lt; lia].
Qed.
Lemma shortest_claim x m k : (x < 2 ^ 64)%N → 0 < low x < inf_bits → shortest_decimal (low x) = (m, k) → Shortest x m k ∧ m mod 10 ≠ 0.
Proof.
  intros Hx Hb Es. destruct (shortest_decimal_spec (low x) Hb) as (m0 & k0 & Es' & Hm & Hdec & Hmin & Hclose). rewrite Es in Es'. injection Es' as <- <-.
  assert (∀ m' k', 0 <= m' → dec_bits m' k' = low x ↔ StandsFor (f64_sign x) m' k' x) as HS.
  { intros m' k' Hm'. rewrite stands_low by done. split; [intros; split_and!; [done|done|done|lia]|naive_solver]. }
  assert (f64_val x = FFin (WithSign (f64_sign x) (mag (low x)))) as Hval by (apply finite_iff; split; [lia|done]).
  assert (∀ m' k', Off x m' k' = Z.abs (m' * up k' - mag (low x) * dn k')) as HO.
  { intros m' k'. unfold Off. rewrite Hval. pose proof (mag_nonneg (low x) ltac:(lia)).
    assert (Z.abs (WithSign (f64_sign x) (mag (low x))) = mag (low x)) as -> by (unfold WithSign; destruct (f64_sign x); lia).
    unfold Above, Below, up, dn. by rewrite Z.mul_assoc. }
  split; [split_and!; [done|by apply HS; [lia|]|]|].
  - intros m' k' Hm' H'. apply HS in H'; [|done]. split.
    + intros n Hn. by apply (Hmin n m' k').
    + intros Hfew. rewrite !HO. exact (Hclose m' k' Hm' Hfew H').
  - intros E. pose proof (Z.div_mod m 10 ltac:(done)) as Ed. rewrite E, Z.add_0_r in Ed.
    set (q := m / 10) in *. assert (0 < q) as Hq by lia.
    assert (dec_bits q (k + 1) = low x) as Hdq.
    { rewrite <- Hdec, <- (dec_scale q (k + 1) 1) by lia. f_equal; lia. }
    (* q has one digit less *)
    destruct (format_head q Hq) as [Hh Hv]. pose proof (head_length _ Hh) as [[Q1 Q2] Q3]. rewrite Hv in Q1, Q2.
    pose proof (Hmin (slen (format_Z q)) q (k + 1) ltac:(lia) Hdq) as Hlt.
    assert (10 * 10 ^ (slen (format_Z q) - 1) = 10 ^ slen (format_Z q)) as E10 by (rewrite <- Z.pow_succ_r by lia; f_equal; lia). lia.
Qed.
Lemma written_text x z : (x < 2 ^ 64)%N → f64_val x = FFin z → z ≠ 0 → DoubleText (json_double x) x.
Proof.
  intros Hx Hz Hn. pose proof (ordinary_iff x z Hz) as HO. apply finite_iff in Hz as [Hi Ez]. pose proof (low_bound x) as Hl.
  assert (0 < low x < inf_bits) as Hb.
  { split; [|done]. destruct (decide (low x = 0)) as [E|]; [|lia]. rewrite E, mag_0 in Ez. unfold WithSign in Ez. destruct (f64_sign x); lia. }
  destruct (written_number x Hb) as (ip & fr & ex & m & k & j & HN & Hex & Hm & Hj & Hv & Hp & Hform & Hfr & Hs).
  destruct (shortest_claim x m k Hx Hb Hs) as [HS Hm10]. exists ip, fr, ex, m, k, j. split_and!; [done|done|done| |done| | |].
  - apply (mantissa_value _ _ _ _ _ _ HN). done.
  - intros r Er. destruct (decide (j = 0)) as [-> |Hj0]; [|rewrite (Hfr Hj0) in Er; by destruct r].
    rewrite Z.pow_0_r, Z.mul_1_r in Hv. apply Hm10. rewrite <- Hv, Er, <- app_assoc_s, value_cat. change (slen "0") with 1. change (value 0 "0") with 0.
    rewrite Z.pow_1_r, Z.add_0_r. apply Z.mod_mul. done.
  - intros H. apply HO in H. rewrite H in Hform. by destruct Hform.
  - intros H. rewrite HO in H. destruct (small_or_big (low x)); [exact Hform|]. by destruct H.
Qed.
Lemma written_zero_text x : (x < 2 ^ 64)%N → f64_val x = FFin 0 → json_double x = (if f64_sign x then "-0" else "0").
Proof.
  intros Hx Hz. apply finite_iff in Hz as [Hi Ez]. pose proof (low_bound x) as Hl.
  assert (low x = 0) as E. { destruct (decide (low x = 0)) as [|H]; [done|]. pose proof (mag_bound (low x) ltac:(lia)). unfold WithSign in Ez. destruct (f64_sign x); lia. }
  unfold json_double. cbn zeta. fold (low x). rewrite E. change (0 =? 0) with true. cbv iota. by destruct (f64_sign x).
Qed.

(** ** Quoted doubles *)
Definition dbl_core (n : token) : option f64 :=
  e ← exp_float (nt_exp n);
  let b := dec_bits (value 0 (nt_int n +:+ nt_frac n)) (e - slen (nt_frac n)) in
  if b <? inf_bits then Some (Z.to_N (b + if nt_neg n then sign_bit else 0)) else None.
Lemma read_double_core s : read_double s = number_in s ≫= dbl_core.
Proof. done. Qed.
Lemma double_text s y : utf8_valid s = true → read_double s = Some y ↔ ¬ EndsInSpace s ∧ ∃ t, NumberFirst s t ∧ read_double t = Some y.
Proof.
  intros Hv. rewrite read_double_core. unfold number_in. rewrite <- (ends_space_iff s Hv). destruct (ends_in_space s); [naive_solver|].
  assert (∀ t tok, TokText tok t → exp_float (nt_exp tok) ≠ None → number_in t = Some tok) as Hone.
  { intros t tok H He. unfold number_in.
    assert (scan_number t = Some (tok, "")) as Hs.
    { apply scan_iff. exists t. split_and!; [by rewrite app_nil_r_s|done|apply noword_nil|]. intros sg E. by rewrite E in He. }
    pose proof (toktext_ascii _ _ H) as Ha. destruct (toktext_end _ _ H) as (s' & c & -> & Hc). rewrite ends_last by done. by rewrite Hs. }
  split.
  - intros H. split; [done|]. destruct (scan_number s) as [[tok rest]|] eqn:E; [|done]. cbn [fmap option_fmap option_map mbind option_bind fst] in H.
    apply scan_iff in E as (t & Es & Ht & Hr & Hne). exists t. assert (exp_float (nt_exp tok) ≠ None) as He.
    { intros He. unfold dbl_core in H. by rewrite He in H. }
    split; [|rewrite read_double_core, (Hone t tok Ht He); exact H]. destruct tok as [neg ip ds e]. cbn [nt_exp] in He.
    destruct (exp_of e) as [x|] eqn:Ee; [|destruct e as [[sg es]|]; [|done]; by destruct es].
    exists rest, neg, ip, ds, x. split_and!; [done|apply number_token; by exists e|done].
  - intros (_ & t & (rest & neg & ip & ds & x & -> & HN & Hr) & H). apply number_token in HN as (e & Ht & He).
    assert (scan_number (t +:+ rest) = Some (Token neg ip ds e, rest)) as ->.
    { apply scan_iff. exists t. split_and!; [done|done|done|]. intros sg E. cbn in E. by destruct (exp_of_complete e x He sg). }
    cbn [fmap option_fmap option_map mbind option_bind fst]. rewrite read_double_core, (Hone t _ Ht) in H; [exact H|].
    cbn [nt_exp]. destruct e as [[sg [|? ?]]|]; done.
Qed.

(** ** JSON *)
Lemma codes_digits w n ds : Num (S w) n ds → Digits (codes ds).
Proof.
  intros H. pose proof H as (Hl & Hd & _)%num_iff. split; [by destruct ds|]. by apply digits_codes.
Qed.
Lemma number_json t neg ip ds x : NumberText t neg ip ds x → JsonNumber (codes t).
Proof.
  intros [sg neg' ip' fp ds' ep x' Hsg Hip Hfp Hep]. exists (codes sg), (codes ip'), (codes fp), (codes ep). rewrite !codes_app. split; [done|].
  split; [destruct Hsg; [by left|by right]|]. split; [|split].
  - destruct Hip as [-> |[(w & n & Hn) Hz]]; [by left|]. right. split; [by eapply codes_digits|]. intros r Er. destruct ip' as [|c s]; [done|].
    unfold codes in Er. cbn [list_ascii_of_string map] in Er. injection Er as Hc _. apply (Hz s). f_equal. by rewrite <- (ascii_N_embedding c), Hc.
  - destruct Hfp as [|w n fs Hn]; [by left|]. right. exists (codes fs). split; [by eapply codes_digits|done].
  - destruct Hep as [|c sg' w n es Hc Hs Hn|c w n es Hc Hn]; [by left| |]; right.
    + exists (N_of_ascii c), (codes sg'), (codes es). split; [by destruct Hc as [-> | ->]; [left|right]|]. split; [destruct Hs as [-> | ->]; [by left|by right; left]|].
      split; [by eapply codes_digits|]. unfold codes. cbn [list_ascii_of_string map]. f_equal. by apply codes_app.
    + exists (N_of_ascii c), (codes "-"), (codes es). split; [by destruct Hc as [-> | ->]; [left|right]|]. split; [by right; right|].
      split; [by eapply codes_digits|]. unfold codes. cbn [list_ascii_of_string map]. f_equal.
Qed.
Lemma written_json x z : f64_val x = FFin z → JsonNumber (codes (json_double x)).
Proof.
  intros Hz. apply finite_iff in Hz as [Hi _]. pose proof (low_bound x). destruct (decide (low x = 0)) as [E|E].
  - eapply number_json. by apply written_zero.
  - destruct (written_number x ltac:(lia)) as (ip & fr & ex & m & k & j & HN & _). by eapply number_json.
Qed.

(** ** The library *)
Lemma library_agrees types types' sk sk' : (∀ t, ts_is_valid (Some t) = true → read_time (json_time t) = Some t) →
  Agree (go_codec types sk) (go_codec types' sk').
Proof.
  intros Ht. split; [exact Ht|]. split; [intros x z Hx Hz; exact (written_read x z Hx Hz)|exact int_written].
Qed.
