(** Numbers on metrics pages (C146). *)
From Coq Require Import Ascii String ZArith NArith Lia.
From stdpp Require Import prelude strings.
From Verif.Model Require Import GoStrings Types Metrics JsonMsg Calendar JsonNumber MetricsPage.
From Verif.Spec Require Import CalendarSpec NumberSpec PageSpec.
From Verif.Proofs Require Import StringLemmas CalendarText CalendarWrite CalendarStamp NumberScan NumberInt NumberRead DoubleBits DoubleShort DoubleRead DoubleWrite PageText.
Local Open Scope string_scope.
Local Open Scope Z_scope.
Local Arguments String.append _ _ : simpl nomatch.

Lemma scientific_plain neg sg ds e : SignText sg neg → Head ds →
  ∃ ip fr x, NumberText (sg +:+ scientific ds e) neg ip fr x ∧ ip +:+ fr = ds ∧ Places fr x = e.
Proof.
  intros Hs Hds. pose proof Hds as [Hd (c & r & E & Hc)]. unfold scientific. cbn zeta. set (x := e + slen ds - 1).
  assert (first_nonzero (String c "")) as Hf by (apply (head_first ds (String c "") r Hds E); done).
  assert (all_digits r = true) as Hr by (rewrite E in Hd; cbn in Hd; by apply andb_true_iff in Hd as [_ ?]).
  assert (String.substring 0 1 ds = String c "") as -> by (rewrite E; by destruct r).
  assert (∃ fp, (if (1 <? String.length ds)%nat then "." +:+ String.substring 1 (String.length ds) ds else "") = fp ∧ FracPart fp r) as (fp & -> & Hfp).
  { rewrite E. cbn [String.length]. destruct (Nat.ltb_spec 1 (S (String.length r))) as [H1|H1].
    - assert (String.substring 1 (S (String.length r)) (String c r) = r) as -> by (cbn; apply substring_all; lia).
      exists (String "." r). split; [done|]. apply digits_frac; [done|by intros ->; cbn in H1; lia].
    - exists "". destruct r; [split; [done|constructor]|cbn in H1; lia]. }
  set (D := (if Z.abs x <? 10 then "0" else "") +:+ format_Z (Z.abs x)).
  assert (all_digits D = true ∧ D ≠ "" ∧ value 0 D = Z.abs x) as (D1 & D2 & D3).
  { assert (all_digits (format_Z (Z.abs x)) = true ∧ value 0 (format_Z (Z.abs x)) = Z.abs x) as [F1 F2].
    { rewrite format_Z_nonneg by lia. destruct (format_first (Z.to_N (Z.abs x))) as (_ & H & _). split; [apply format_N_digits|lia]. }
    assert (format_Z (Z.abs x) ≠ "") as F3 by (rewrite format_Z_nonneg by lia; apply format_N_nonempty).
    unfold D. destruct (Z.abs x <? 10); [|done]. split; [cbn; by rewrite F1|]. split; [done|]. rewrite value_cat. change (value 0 "0") with 0. lia. }
  set (sx := if x <? 0 then "-" else "+").
  assert (ExpText (String "e" (sx +:+ D)) x) as HE.
  { destruct (num_digits D) as [_ (w & n & Hn)]; [done|]. pose proof Hn as (_ & _ & Hv)%num_iff. rewrite D3 in Hv.
    unfold sx. destruct (Z.ltb_spec x 0).
    - pose proof (ET_minus "e" w n D ltac:(by left) Hn) as HX. replace (- n) with x in HX by lia. exact HX.
    - pose proof (ET_plus "e" "+" w n D ltac:(by left) ltac:(by right) Hn) as HX. replace n with x in HX by lia. exact HX. }
  exists (String c ""), r, x. split; [|split; [by rewrite E|]].
  - change ("e" +:+ sx +:+ D) with (String "e" (sx +:+ D)). constructor; [done|by apply int_text_iff|done|done].
  - unfold Places, x. assert (slen ds = Z.of_nat (String.length r) + 1) by (rewrite E; unfold slen; cbn [String.length]; lia). lia.
Qed.

(** A finite double that is not -0 is read back. *)
Lemma g_reads x z : (x < 2 ^ 64)%N → f64_val x = FFin z → (z = 0 → f64_sign x = false) → ReadsAs (g_double x) x.
Proof.
  intros Hx Hz H0. apply finite_iff in Hz as [Hi Ez]. pose proof (low_bound x) as Hlow. unfold g_double. cbn zeta. fold (low x).
  destruct (Z.eqb_spec (low x) 0) as [E0|E0].
  - assert (f64_sign x = false) as Hs. { apply H0. rewrite Ez, E0, mag_0. by destruct (f64_sign x). }
    exists false, "0", "", 0, 0. assert (Num 1 0 "0") as HN by (apply num_iff; vm_compute; done).
    split; [exact (NT "" false "0" "" "" "" 0 ltac:(constructor) ltac:(by left) ltac:(constructor) ltac:(constructor))|].
    split; [exists 1%nat; exact HN|]. apply stands_iff; [lia|]. exists 0.
    split; [vm_compute; reflexivity|]. split; [reflexivity|]. rewrite <- (with_low_of x Hx), Hs, E0. done.
  - assert (0 < low x < inf_bits) as Hb by lia.
    destruct (shortest_decimal_spec (low x) Hb) as (m & e & Es & Hm & Hdec & _). rewrite Es.
    destruct (format_head m Hm) as [Hh Hv].
    assert (StandsFor (f64_sign x) m e x) as HS.
    { apply stands_iff; [lia|]. exists (low x). split; [done|]. split; [lia|]. by rewrite with_low_of. }
    destruct ((slen (format_Z m) + e - 1 <? -4) || (6 <=? slen (format_Z m) + e - 1)).
    + destruct (scientific_plain _ _ (format_Z m) e (sign_text x) Hh) as (ip & fr & ex & HN & H1 & H2).
      exists (f64_sign x), ip, fr, ex, m. split; [exact HN|]. split; [|by rewrite H2].
      apply (mantissa_value _ _ _ _ _ _ HN). by rewrite H1, Hv.
    + destruct (fixed_text _ _ (format_Z m) e (sign_text x) Hh) as (ip & fr & HN & H1 & H2 & _).
      exists (f64_sign x), ip, fr, 0, (m * 10 ^ Z.max 0 e). split; [exact HN|].
      split; [apply (mantissa_value _ _ _ _ _ _ HN); by rewrite H1, Hv|].
      apply stands_iff; [nia|]. exists (low x). split; [|split; [lia|by rewrite with_low_of]].
      rewrite H2, <- Hdec. replace (Z.min 0 e) with (e - Z.max 0 e) by lia. apply dec_scale; lia.
Qed.

(** Its text is one line. *)
Definition num_char (c : ascii) : bool := is_digit c || Ascii.eqb c "." || Ascii.eqb c "e" || Ascii.eqb c "+" || Ascii.eqb c "-".
Lemma sub_has c i n s : Has c (String.substring i n s) → Has c s.
Proof.
  revert i n. induction s as [|d s IH]; intros i n; [by destruct i, n|]. destruct i as [|i].
  - destruct n as [|n]; cbn; [by intros ?%has_nil|]. intros [-> |H]%has_cons; [apply Has_here|apply Has_later; eapply IH, H].
  - cbn. intros H. apply Has_later. eapply IH, H.
Qed.
Definition nums (s : string) : Prop := all_chars num_char s = true.
Lemma nums_app s t : nums s → nums t → nums (s +:+ t).
Proof. unfold nums. rewrite !all_chars_has. intros H1 H2 c [H|H]%has_app; auto. Qed.
Lemma nums_sub i n s : nums s → nums (String.substring i n s).
Proof. unfold nums. rewrite !all_chars_has. intros H c Hc. eapply H, sub_has, Hc. Qed.
Lemma nums_digits s : all_digits s = true → nums s.
Proof. unfold nums. induction s as [|c s IH]; [done|]. cbn. intros [H1 H2]%andb_true_iff. rewrite IH, andb_true_r by done. unfold num_char. by rewrite H1. Qed.
Lemma nums_zeros n : nums (zeros n). Proof. apply nums_digits, zeros_spec. Qed.
Lemma nums_format z : nums (format_Z z).
Proof.
  unfold format_Z. repeat case_match; try (apply nums_digits, format_N_digits); try done.
  all: try (change (String ?c ?s) with (String c "" +:+ s)). all: apply nums_app; [done|apply nums_digits, format_N_digits].
Qed.
Lemma nums_g x : nums (g_double x).
Proof.
  unfold g_double. cbn zeta. destruct (_ =? 0); [done|]. destruct (shortest_decimal _) as [m e].
  apply nums_app; [by destruct (f64_sign x)|]. pose proof (nums_format m) as Hm. destruct (_ || _).
  - unfold scientific. cbn zeta. repeat apply nums_app; try done; try apply nums_format; try (by apply nums_sub).
    + destruct (1 <? _)%nat; [|done]. apply nums_app; [done|by apply nums_sub].
    + by destruct (_ <? 0).
    + by destruct (_ <? 10).
  - unfold fixed. cbn zeta. destruct (0 <=? e); [apply nums_app; [done|apply nums_zeros]|].
    destruct (0 <? _); repeat apply nums_app; try done; try (by apply nums_sub); apply nums_zeros.
Qed.
Lemma nums_line s : nums s → ¬ Has NL s.
Proof. unfold nums. rewrite all_chars_has. intros H Hc%H. done. Qed.

(** ** Whole numbers and milliseconds *)

Lemma exact z j : 0 <= z <= 2 ^ 53 → 0 <= j <= 900 → ∃ c, 0 <= c < inf_bits ∧ mag c = z * 2 ^ (1074 + j).
Proof.
  intros Hz Hj. destruct (decide (z = 0)) as [-> |Hz0]; [exists 0; split; [done|by rewrite mag_0]|].
  set (k := Z.min (Z.log2 z) 52). pose proof (Z.log2_spec z ltac:(lia)) as [L1 L2]. pose proof (Z.log2_nonneg z) as L0.
  assert (0 <= k <= 52) as Hk by lia. assert (2 ^ k <= z) as K1. { transitivity (2 ^ Z.log2 z); [apply Z.pow_le_mono_r; lia|done]. }
  assert (z <= 2 * 2 ^ k) as K2.
  { destruct (decide (Z.log2 z <= 52)) as [Hl|Hl].
    - replace k with (Z.log2 z) by lia. rewrite <- Z.pow_succ_r by lia. lia.
    - replace k with 52 by lia. change (2 * 2 ^ 52) with (2 ^ 53). lia. }
  set (r := z * 2 ^ (52 - k)). pose proof (pow2_pos (52 - k) ltac:(lia)) as Hp.
  assert (p52 = 2 ^ k * 2 ^ (52 - k)) as Ep. { rewrite <- Z.pow_add_r by lia. unfold p52. f_equal. lia. }
  assert (p52 <= r <= 2 * p52) as Hr by (unfold r; nia). set (e := 1074 + j + k - 52).
  exists (e * p52 + r). pose proof p52_pos. split.
  - split; [unfold e; nia|]. unfold inf_bits. change (2 ^ 52) with p52. assert (e <= 1974) by lia. nia.
  - rewrite mag_of by lia. unfold r. rewrite <- Z.mul_assoc, <- Z.pow_add_r by lia. do 2 f_equal. lia.
Qed.
Lemma round_le n d c : 0 <= n → 0 < d → 0 <= c → n <= mag c * d → 0 <= round_bits n d <= c.
Proof.
  intros Hn Hd Hc Hle. pose proof (round_rounds n d Hn Hd) as HR. pose proof HR as [H0 _]. split; [done|].
  apply (rounds_mono n d _ (mag c * d) d _); [done|done|nia|done|by apply rounds_self].
Qed.
Lemma round_exact z : 0 <= z <= 2 ^ 53 → mag (round_bits (z * 2 ^ 1074) 1) = z * 2 ^ 1074 ∧ 0 <= round_bits (z * 2 ^ 1074) 1 < inf_bits.
Proof.
  intros Hz. destruct (exact z 0 Hz ltac:(lia)) as (c & Hc & Em). rewrite Z.add_0_r in Em. rewrite <- Em.
  assert (round_bits (mag c) 1 = c) as ->; [|done]. apply round_iff; [apply mag_nonneg; lia|lia|].
  pose proof (rounds_self 1 c ltac:(lia) ltac:(lia)) as H. by rewrite Z.mul_1_r in H.
Qed.
Lemma of_int_val z : Z.abs z <= 2 ^ 53 → (of_int z < 2 ^ 64)%N ∧ f64_val (of_int z) = FFin (z * 2 ^ 1074) ∧ (z = 0 → f64_sign (of_int z) = false).
Proof.
  intros Hz. destruct (round_exact (Z.abs z) ltac:(lia)) as [Em Hb]. pose proof inf_sign.
  destruct (with_low_spec (z <? 0) (round_bits (Z.abs z * 2 ^ 1074) 1) ltac:(lia)) as (W1 & W2 & W3).
  unfold of_int. change with_sign with with_low. split; [done|]. split.
  - apply finite_iff. rewrite W2, W3. split; [lia|]. rewrite Em. unfold WithSign. destruct (Z.ltb_spec z 0); nia.
  - intros ->. by rewrite W3.
Qed.
Lemma shows_int z : Shows (g_double (of_int z)) (QInt z).
Proof.
  intros Hz. destruct (of_int_val z Hz) as (H1 & H2 & H3). exists (of_int z). split; [|done]. eapply g_reads; [done|done|].
  intros E. apply H3. pose proof (pow2_pos 1074 ltac:(lia)). nia.
Qed.

(** Comparing with the bounds. *)
Definition bound_ok (d b : Z) : bool := (0 <=? b) && (round_bits (b * 2 ^ 1074) 1 <? round_bits ((d * b + 1) * 2 ^ 1074) d).
Lemma bounds_ok : forallb (bound_ok 1) bounds = true ∧ forallb (bound_ok 1000) bounds = true.
Proof. split; vm_compute; reflexivity. Qed.
Lemma le_bound d n b : 0 < d → 0 <= n → bound_ok d b = true → round_bits (n * 2 ^ 1074) d <= round_bits (b * 2 ^ 1074) 1 ↔ n <= d * b.
Proof.
  intros Hd Hn [H0%Z.leb_le Hlt%Z.ltb_lt]%andb_true_iff. pose proof (pow2_pos 1074 ltac:(lia)) as Hp. set (P := 2 ^ 1074) in *.
  assert (∀ m, 0 <= m → Rounds (m * P) d (round_bits (m * P) d)) as HR by (intros m Hm; apply round_rounds; nia).
  split.
  - intros Hle. destruct (Z.le_gt_cases n (d * b)) as [|Hgt]; [done|]. exfalso.
    pose proof (rounds_mono ((d * b + 1) * P) d _ (n * P) d _ Hd Hd ltac:(nia) (HR (d * b + 1) ltac:(nia)) (HR n Hn)). lia.
  - intros Hle. apply (rounds_mono (n * P) d _ (b * P) 1 _ Hd ltac:(lia)); [nia|by apply HR|apply round_rounds; nia].
Qed.
Lemma to_N_le a b : 0 <= a → 0 <= b → (Z.to_N a <=? Z.to_N b)%N = (a <=? b).
Proof. intros. destruct (N.leb_spec (Z.to_N a) (Z.to_N b)), (Z.leb_spec a b); lia || done. Qed.
Lemma round_nonneg n d : 0 <= n → 0 < d → 0 <= round_bits n d.
Proof. intros Hn Hd. by destruct (round_rounds n d Hn Hd). Qed.
Lemma pow_nonneg : 0 <= 2 ^ 1074. Proof. pose proof (pow2_pos 1074 ltac:(lia)). lia. Qed.
Lemma le_int z b : 0 <= z → bound_ok 1 b = true → le_double (of_int z) (of_int b) = (z <=? b).
Proof.
  intros Hz Hb. pose proof (le_bound 1 z b ltac:(lia) Hz Hb) as Hiff. apply andb_true_iff in Hb as [H0%Z.leb_le _].
  pose proof pow_nonneg. unfold le_double, of_int, with_sign.
  destruct (Z.ltb_spec z 0); [lia|]. destruct (Z.ltb_spec b 0); [lia|]. rewrite !Z.abs_eq, !Z.add_0_r by lia.
  rewrite to_N_le by (apply round_nonneg; nia). rewrite Z.mul_1_l in Hiff.
  destruct (Z.leb_spec z b); [apply Z.leb_le|apply Z.leb_gt]; lia.
Qed.
Lemma le_micros u b : 0 <= u → bound_ok 1000 b = true → le_double (of_micros u) (of_int b) = (u <=? 1000 * b).
Proof.
  intros Hz Hb. pose proof (le_bound 1000 u b ltac:(lia) Hz Hb) as Hiff. apply andb_true_iff in Hb as [H0%Z.leb_le _].
  pose proof pow_nonneg. unfold le_double, of_int, of_micros, with_sign.
  destruct (Z.ltb_spec b 0); [lia|]. rewrite !Z.abs_eq, !Z.add_0_r by lia.
  rewrite to_N_le by (apply round_nonneg; nia).
  destruct (Z.leb_spec u (1000 * b)); [apply Z.leb_le|apply Z.leb_gt]; lia.
Qed.

(** ** Sums *)

Lemma nearest_of n d b : 0 <= n → 0 < d → Rounds n d b → b < inf_bits → NearestDouble false n d (with_low false b).
Proof.
  intros Hn Hd Hb Hi. pose proof Hb as [Hb0 _]. pose proof inf_sign. destruct (with_low_spec false b ltac:(lia)) as (W1 & W2 & W3).
  apply nearest_rounds in Hb as [Hall Htop]; [|done|done|lia]. split; [done|]. split; [done|].
  exists (mag b). split; [apply finite_iff; by rewrite W2, W3|]. intros y z' Hy. apply finite_iff in Hy as [Hyi ->].
  pose proof (low_bound y) as Hly. rewrite even_low, W2 by done.
  destruct (f64_sign y) eqn:Hs.
  - destruct (Hall 0 ltac:(lia)) as [H1 H2]. rewrite mag_0 in H1, H2. cbn [Z.mul] in H1, H2. rewrite Z.sub_0_l, Z.abs_opp, (Z.abs_eq n) in H1, H2 by done.
    pose proof (mag_nonneg (low y) ltac:(lia)) as Hmy. unfold WithSign.
    assert (Z.abs (- mag (low y) * d - n) = mag (low y) * d + n) as -> by nia.
    assert (0 <= mag (low y) * d) by nia. split; [lia|]. intros E. assert (mag (low y) = 0) as E0 by nia. rewrite E0 in *.
    destruct (H2 ltac:(lia)) as [<- |]; [by left|by right].
  - destruct (Hall (low y) ltac:(lia)) as [H1 H2]. unfold WithSign. split; [done|]. intros E. destruct (H2 E) as [-> |]; [by left|by right].
Qed.
Lemma to_N_with b : 0 <= b → Z.of_N (with_low false b) = b. Proof. unfold with_low. lia. Qed.
Lemma micros_low u : 0 <= u <= 2 ^ 63 → ∃ d, of_micros u = with_low false d ∧ 0 <= d < inf_bits ∧ mag d <= 2 ^ 1137 ∧
  NearestDouble false (u * 2 ^ 1074) 1000 (of_micros u).
Proof.
  intros Hu. pose proof (pow2_pos 1074 ltac:(lia)) as Hp. destruct (exact 1 63 ltac:(lia) ltac:(lia)) as (c & Hc & Em).
  assert (0 <= round_bits (u * 2 ^ 1074) 1000 <= c) as Hr.
  { apply round_le; [nia|lia|lia|]. rewrite Em, Z.pow_add_r by lia. nia. }
  exists (round_bits (u * 2 ^ 1074) 1000). split; [done|]. split; [lia|]. split.
  - etransitivity; [apply mag_le; [|apply Hr]; lia|]. rewrite Em. apply Z.eq_le_incl. rewrite Z.mul_1_l. f_equal.
  - apply nearest_of; [nia|lia|apply round_rounds; nia|lia].
Qed.
Lemma sums us : Measured us → ∃ b, fold_left add_double (map of_micros us) 0%N = with_low false b ∧ 0 <= b < inf_bits ∧
  mag b <= Z.of_nat (length us) * 2 ^ 1137 ∧ SumOf us (with_low false b).
Proof.
  induction us as [|u us IH] using rev_ind; intros [Hm Hl].
  { exists 0. split; [done|]. split; [done|]. split; [by rewrite mag_0|constructor]. }
  apply Forall_app in Hm as [Hm Hu]. apply Forall_cons in Hu as [Hu _]. rewrite app_length in Hl. cbn [length] in Hl.
  destruct IH as (b & Eb & Hb & Hmb & HS); [split; [done|lia]|].
  destruct (micros_low u Hu) as (d & Ed & Hd & Hmd & HN). rewrite map_app, fold_left_app, Eb. cbn [map fold_left].
  unfold add_double. rewrite Ed, !to_N_with by lia. pose proof (mag_nonneg b ltac:(lia)). pose proof (mag_nonneg d ltac:(lia)).
  destruct (exact (Z.of_nat (length (us ++ [u]))) 63) as (c & Hc & Em); [rewrite app_length; cbn [length]; lia|lia|].
  change (1074 + 63) with 1137 in Em.
  assert (0 <= round_bits (mag b + mag d) 1 <= c) as Hr.
  { apply round_le; [lia|lia|lia|]. rewrite Em, app_length. cbn [length].
    replace (Z.of_nat (length us + 1)) with (Z.of_nat (length us) + 1) by lia. lia. }
  exists (round_bits (mag b + mag d) 1). split; [done|]. split; [lia|]. split; [rewrite <- Em; apply mag_le; lia|].
  pose proof inf_sign. destruct (with_low_spec false b ltac:(lia)) as (B1 & B2 & B3). destruct (with_low_spec false d ltac:(lia)) as (D1 & D2 & D3).
  eapply (SumOf_snoc us (with_low false b) u (with_low false d)); [done| |by rewrite <- Ed| |].
  - apply finite_iff. rewrite B2, B3. split; [lia|done].
  - apply finite_iff. rewrite D2, D3. split; [lia|done].
  - cbn [WithSign]. apply nearest_of; [lia|lia|apply round_rounds; lia|lia].
Qed.
Lemma shows_sum us : Measured us → Shows (g_double (fold_left add_double (map of_micros us) 0%N)) (QSum us).
Proof.
  intros Hm. destruct (sums us Hm) as (b & -> & Hb & _ & HS). exists (with_low false b). split; [|done].
  pose proof inf_sign. destruct (with_low_spec false b ltac:(lia)) as (B1 & B2 & B3).
  eapply g_reads; [done|apply finite_iff; rewrite B2; split; [lia|done]|]. intros _. exact B3.
Qed.
(** Whole milliseconds are added exactly. *)
Lemma sum_snoc us u : Sum (us ++ [u]) = Sum us + u.
Proof. induction us as [|v us IH]; cbn; [lia|]. rewrite IH. lia. Qed.
Lemma sum_mod us : Forall (λ u, 0 <= u ∧ u mod 1000 = 0) us → Sum us mod 1000 = 0.
Proof.
  induction 1 as [|u us [_ Hu] H IH]; [done|]. cbn [Sum]. rewrite Z.add_mod, Hu, IH by lia. done.
Qed.
Lemma sum_whole us x : SumOf us x → Forall (λ u, 0 <= u ∧ u mod 1000 = 0) us → Sum us <= 1000 * 2 ^ 53 →
  f64_val x = FFin (Sum us / 1000 * 2 ^ 1074).
Proof.
  intros HS Hw Ht. assert (0 <= Sum us ∧ f64_val x = FFin (Sum us / 1000 * 2 ^ 1074)) as [_ H]; [|done]. revert Hw Ht.
  induction HS as [|us s u d s' zs zd HS IH Es Hd Ed Hs']; intros Hw Ht; [by split|].
  apply Forall_app in Hw as [Hw Hu]. apply Forall_cons in Hu as [[Hu0 Hu1] _]. rewrite sum_snoc in *.
  destruct IH as [IH0 IH]; [done| |]. { clear -Hu0 Ht. lia. }
  rewrite Es in IH. injection IH as ->. split; [lia|].
  assert (u = 1000 * (u / 1000)) as Eu by (pose proof (Z.div_mod u 1000 ltac:(lia)); lia). set (k := u / 1000) in *.
  assert (Sum us mod 1000 = 0) as Hm by (apply sum_mod; done).
  assert (Sum us = 1000 * (Sum us / 1000)) as Em by (pose proof (Z.div_mod (Sum us) 1000 ltac:(lia)); lia). set (t := Sum us / 1000) in *.
  assert ((Sum us + u) / 1000 = t + k) as ->. { rewrite Em, Eu. replace (1000 * t + 1000 * k) with ((t + k) * 1000) by lia. apply Z.div_mul. lia. }
  assert (zd = k * 2 ^ 1074) as ->.
  { destruct (of_int_val k ltac:(lia)) as (_ & Hv & _). destruct Hd as (_ & _ & z & Ez & Hd). rewrite Ed in Ez. injection Ez as <-.
    destruct (Hd _ _ Hv) as [H1 _]. lia. }
  destruct (of_int_val (t + k) ltac:(lia)) as (_ & Hv & _). destruct Hs' as (_ & _ & z & Ez & Hd'). rewrite Ez.
  destruct (Hd' _ _ Hv) as [H1 _]. f_equal. lia.
Qed.
