(** Lemmas for C144: reading doubles in JSON. *)
From Coq Require Import Ascii String ZArith NArith Lia.
From stdpp Require Import prelude strings.
From Verif.Model Require Import GoStrings Types Calendar JsonNumber.
From Verif.Spec Require Import CalendarSpec HttpSpec JsonSpec JsonTextSpec JsonBytesSpec NumberSpec.
From Verif.Proofs Require Import StringLemmas CalendarText DoubleBits DoubleShort NumberScan NumberInt NumberRead.
Local Open Scope string_scope.
Local Open Scope Z_scope.
Local Arguments String.append _ _ : simpl nomatch.

(** ** Bits *)
Definition low (x : f64) : Z := Z.of_N x mod sign_bit.
Lemma low_bound x : 0 <= low x < sign_bit.
Proof. apply Z.mod_pos_bound. done. Qed.
Lemma low_parts x : low x = Z.of_N (f64_exp x) * p52 + Z.of_N (f64_frac x) ∧ 0 <= Z.of_N (f64_exp x) < 2048 ∧ 0 <= Z.of_N (f64_frac x) < p52.
Proof.
  unfold low, f64_exp, f64_frac. rewrite !N2Z.inj_mod, N2Z.inj_div. change (Z.of_N (2 ^ 52)) with p52. change (Z.of_N (2 ^ 11)) with 2048.
  change sign_bit with (p52 * 2048). rewrite Z.rem_mul_r by done. pose proof (Z.mod_pos_bound (Z.of_N x) p52 p52_pos).
  pose proof (Z.mod_pos_bound (Z.of_N x / p52) 2048 ltac:(done)). lia.
Qed.
Lemma finite_iff x z : f64_val x = FFin z ↔ low x < inf_bits ∧ z = WithSign (f64_sign x) (mag (low x)).
Proof.
  destruct (low_parts x) as (E & He & Hf). unfold f64_val. cbn zeta. set (e := f64_exp x) in *. set (f := f64_frac x) in *.
  assert (low x / p52 = Z.of_N e) as Eq by (rewrite E, Z.add_comm, Z.div_add, Z.div_small by lia; lia).
  assert (low x mod p52 = Z.of_N f) as Er by (rewrite E, Z.add_comm, Z.mod_add, Z.mod_small by lia; lia).
  assert (low x < inf_bits ↔ Z.of_N e < 2047) as HI.
  { change inf_bits with (2047 * p52). pose proof p52_pos. split; intros; nia. }
  destruct (N.eqb_spec e 2047) as [E1|E1].
  - assert (¬ low x < inf_bits) as Hn by (rewrite HI; lia). destruct (f =? 0)%N; split; [done|tauto|done|tauto].
  - assert (low x < inf_bits) as Hlt by (apply HI; lia).
    assert (mag (low x) = if (e =? 0)%N then Z.of_N f else Z.of_N (2 ^ 52 + f) * 2 ^ (Z.of_N e - 1)) as <-.
    { unfold mag. change (2 ^ 52) with p52. rewrite Eq, Er. destruct (N.eqb_spec e 0) as [-> |Hn]; [done|].
      destruct (Z.eqb_spec (Z.of_N e) 0); [lia|]. by rewrite N2Z.inj_add. }
    unfold WithSign. split; [by intros [= <-]|]. by intros [_ ->].
Qed.
Lemma sign_iff x : (x < 2 ^ 64)%N → Z.of_N x = low x + if f64_sign x then sign_bit else 0.
Proof.
  intros Hx. unfold low, f64_sign. pose proof (Z.div_mod (Z.of_N x) sign_bit ltac:(done)) as E.
  assert (Z.of_N x < 2 * sign_bit) as Hlt by (change (2 * sign_bit) with (Z.of_N (2 ^ 64)); lia).
  pose proof (Z.mod_pos_bound (Z.of_N x) sign_bit ltac:(done)) as Hm.
  assert (Z.of_N (x / 2 ^ 63) = Z.of_N x / sign_bit) as Ed by (by rewrite N2Z.inj_div).
  assert (0 <= Z.of_N x / sign_bit < 2) as Hd by (split; [apply Z.div_pos; [lia|done]|apply Z.div_lt_upper_bound; [done|lia]]).
  destruct (N.testbit x 63) eqn:Et.
  - apply N.testbit_true in Et. assert (x / 2 ^ 63 = 1)%N by (rewrite N.mod_small in Et; lia). lia.
  - apply N.testbit_false in Et. assert (x / 2 ^ 63 = 0)%N by (rewrite N.mod_small in Et; lia). lia.
Qed.
Definition with_low (neg : bool) (b : Z) : f64 := Z.to_N (b + if neg then sign_bit else 0).
Lemma with_low_spec neg b : 0 <= b < sign_bit → (with_low neg b < 2 ^ 64)%N ∧ low (with_low neg b) = b ∧ f64_sign (with_low neg b) = neg.
Proof.
  intros Hb. unfold with_low. assert (Z.of_N (2 ^ 64) = 2 * sign_bit) as E2 by done.
  assert (0 < sign_bit) as Hp by done.
  assert ((Z.to_N (b + if neg then sign_bit else 0) < 2 ^ 64)%N) as Hlt by (destruct neg; lia). split; [done|].
  assert (low (Z.to_N (b + if neg then sign_bit else 0)) = b) as Hl.
  { unfold low. rewrite Z2N.id by (destruct neg; lia). destruct neg.
    - rewrite <- (Z.mul_1_l sign_bit) at 1. rewrite Z.mod_add by lia. apply Z.mod_small. lia.
    - rewrite Z.add_0_r. apply Z.mod_small. lia. }
  split; [done|]. pose proof (sign_iff _ Hlt) as E. rewrite Hl, Z2N.id in E by (destruct neg; lia).
  destruct (f64_sign _), neg; [done|lia|lia|done].
Qed.
Lemma with_low_of x : (x < 2 ^ 64)%N → with_low (f64_sign x) (low x) = x.
Proof. intros Hx. unfold with_low. rewrite <- sign_iff by done. apply N2Z.id. Qed.
Lemma even_low x : (x < 2 ^ 64)%N → N.even x = Z.even (low x).
Proof.
  intros Hx. assert (N.even x = Z.even (Z.of_N x)) as -> by (by destruct x as [|[]]). rewrite (sign_iff x Hx) at 1. rewrite Z.even_add.
  destruct (f64_sign x); [change (Z.even sign_bit) with true|change (Z.even 0) with true]; by destruct (Z.even (low x)).
Qed.
Lemma inf_sign : inf_bits < sign_bit.
Proof. reflexivity. Qed.

(** ** The nearest double *)
Definition top : Z := (2 ^ 54 - 1) * 2 ^ 2044.
Lemma top_eq : mag (inf_bits - 1) + mag inf_bits = 2 * top.
Proof. vm_compute. reflexivity. Qed.
Lemma nearest_rounds n d b : 0 <= n → 0 < d → 0 <= b < inf_bits → Rounds n d b ↔
  (∀ c, 0 <= c < inf_bits → Z.abs (mag b * d - n) <= Z.abs (mag c * d - n) ∧
     (Z.abs (mag b * d - n) = Z.abs (mag c * d - n) → mag c = mag b ∨ Z.even b = true)) ∧ n < top * d.
Proof.
  intros Hn Hd Hb. pose proof top_eq as Et.
  assert (Z.even (inf_bits - 1) = false) as Eodd by done. split.
  - intros (_ & Hlo & Hup). split.
    + intros c Hc. destruct (Z.lt_trichotomy c b) as [H|[H|H]].
      * destruct Hlo as [|Hlo]; [lia|]. pose proof (mag_le c (b - 1) ltac:(lia) ltac:(lia)) as H1. pose proof (mag_lt (b - 1) b ltac:(lia) ltac:(lia)) as H2.
        assert (mag c * d <= mag (b - 1) * d) by nia. assert (mag (b - 1) * d < mag b * d) by nia.
        destruct Hlo as [Hlo|[Hlo Hev]]; rewrite Z.mul_add_distr_r in Hlo.
        -- split; [lia|]. intros E. lia.
        -- split; [lia|]. intros _. by right.
      * subst c. split; [lia|]. intros _. by left.
      * pose proof (mag_le (b + 1) c ltac:(lia) ltac:(lia)) as H1. pose proof (mag_next b ltac:(lia)) as H2.
        assert (mag (b + 1) * d <= mag c * d) by nia. assert (mag b * d < mag (b + 1) * d) by nia.
        destruct Hup as [Hup|[Hup Hev]]; rewrite Z.mul_add_distr_r in Hup.
        -- split; [lia|]. intros E. lia.
        -- split; [lia|]. intros _. by right.
    + pose proof (mag_le (b + 1) inf_bits ltac:(lia) ltac:(lia)) as H1. pose proof (mag_le b (inf_bits - 1) ltac:(lia) ltac:(lia)) as H2.
      assert (2 * n <= (mag b + mag (b + 1)) * d) as H3 by lia.
      assert ((mag b + mag (b + 1)) * d <= 2 * top * d) as H4 by (rewrite <- Et; nia).
      destruct (decide (b = inf_bits - 1)) as [-> |Hne].
      * destruct Hup as [Hup|[_ Hup]]; [lia|congruence].
      * pose proof (mag_lt b (inf_bits - 1) ltac:(lia) ltac:(lia)). assert ((mag b + mag (b + 1)) * d < 2 * top * d) by (rewrite <- Et; nia). lia.
  - intros [Hall Htop]. split; [lia|]. split.
    + destruct (decide (b = 0)) as [|H0]; [by left|]. right. destruct (Hall (b - 1) ltac:(lia)) as [H1 H2].
      pose proof (mag_lt (b - 1) b ltac:(lia) ltac:(lia)) as H3. assert (mag (b - 1) * d < mag b * d) as H4 by nia. rewrite Z.mul_add_distr_r.
      destruct (Z.lt_trichotomy (mag (b - 1) * d + mag b * d) (2 * n)) as [H|[H|H]]; [by left| |lia]. right. split; [done|].
      destruct H2 as [H2|H2]; [lia|lia|done].
    + destruct (decide (b = inf_bits - 1)) as [-> |Hne].
      * left. replace (inf_bits - 1 + 1) with inf_bits by lia. rewrite Et. lia.
      * destruct (Hall (b + 1) ltac:(lia)) as [H1 H2]. pose proof (mag_next b ltac:(lia)) as H3. assert (mag b * d < mag (b + 1) * d) as H4 by nia.
        rewrite Z.mul_add_distr_r. destruct (Z.lt_trichotomy (2 * n) (mag b * d + mag (b + 1) * d)) as [H|[H|H]]; [by left| |lia]. right. split; [done|].
        destruct H2 as [H2|H2]; [lia|lia|done].
Qed.
Lemma mag_nonneg b : 0 <= b → 0 <= mag b.
Proof. intros. rewrite <- mag_0. apply mag_le; lia. Qed.
Lemma withsign_abs neg a b d : Z.abs (WithSign neg a * d - WithSign neg b) = Z.abs (a * d - b).
Proof. unfold WithSign. destruct neg; [|done]. rewrite <- Z.abs_opp. f_equal. lia. Qed.
Lemma withsign_inj neg a b : WithSign neg a = WithSign neg b → a = b.
Proof. unfold WithSign. destruct neg; lia. Qed.
Lemma stands_iff neg m k x : 0 <= m → StandsFor neg m k x ↔ ∃ b, dec_bits m k = b ∧ b < inf_bits ∧ x = with_low neg b.
Proof.
  intros Hm. unfold StandsFor, NearestDouble, TooBig. set (n := Above m k). set (d := Below k).
  assert (0 < d) as Hd by apply (dn_pos k).
  assert (0 <= n) as Hn by (unfold n, Above; pose proof (up_pos k); unfold up in *; nia).
  assert (∀ b, dec_bits m k = b ↔ Rounds n d b) as Hdec.
  { intros b. rewrite dec_iff by done. unfold up, n, Above. rewrite Z.mul_assoc. done. }
  clearbody n d. rewrite (Z.abs_eq n) by done. change ((2 ^ 54 - 1) * 2 ^ 2044) with top. split.
  - intros ((Hx & Hs & z & Hz & Hall) & Htop). apply finite_iff in Hz as [Hi Ez]. exists (low x). pose proof (low_bound x) as Hlow.
    split; [|split; [done|by rewrite <- Hs, with_low_of]]. apply Hdec. apply nearest_rounds; [done|done|lia|]. split; [|lia].
    intros c Hc. pose proof inf_sign. destruct (with_low_spec neg c ltac:(lia)) as (W1 & W2 & W3).
    destruct (Hall (with_low neg c) (WithSign neg (mag c))) as [H1 H2]; [apply finite_iff; rewrite W2, W3; split; [lia|done]|].
    rewrite Ez, Hs, !withsign_abs in H1. rewrite Ez, Hs, !withsign_abs, even_low in H2 by done. split; [done|]. intros E.
    destruct (H2 E) as [H3|H3]; [left; by apply withsign_inj in H3|by right].
  - intros (b & Hb & Hi & ->). apply Hdec in Hb. pose proof Hb as [Hb0 _]. pose proof inf_sign. destruct (with_low_spec neg b ltac:(lia)) as (W1 & W2 & W3).
    apply nearest_rounds in Hb as [Hall Htop]; [|done|done|lia]. split; [|lia]. split; [done|]. split; [done|].
    exists (WithSign neg (mag b)). split; [apply finite_iff; by rewrite W2, W3|]. intros y z' Hy. apply finite_iff in Hy as [Hyi ->].
    pose proof (low_bound y) as Hly. rewrite withsign_abs, even_low, W2 by done.
    destruct (decide (f64_sign y = neg)) as [-> |Hs].
    + destruct (Hall (low y) ltac:(lia)) as [H1 H2]. rewrite withsign_abs. split; [done|]. intros E. destruct (H2 E) as [-> |]; [by left|by right].
    + destruct (Hall 0 ltac:(lia)) as [H1 H2]. rewrite mag_0 in H1, H2. cbn [Z.mul] in H1, H2. rewrite Z.sub_0_l, Z.abs_opp, (Z.abs_eq n) in H1, H2 by done.
      pose proof (mag_nonneg (low y) ltac:(lia)) as Hmy.
      assert (Z.abs (WithSign (f64_sign y) (mag (low y)) * d - WithSign neg n) = mag (low y) * d + n) as ->.
      { unfold WithSign. destruct (f64_sign y), neg; try done; nia. }
      assert (0 <= mag (low y) * d) by nia. split; [lia|]. intros E. assert (mag (low y) = 0) as E0 by nia. rewrite E0 in *.
      destruct (H2 ltac:(lia)) as [<- |]; [left|by right]. unfold WithSign. by destruct (f64_sign y), neg.
Qed.

(** ** Exponents *)
Lemma capped_spec ds e : all_digits ds = true → 0 <= e < 100000 →
  capped e ds = value e ds ∧ value e ds < 100000 ∨ 10000 <= capped e ds ∧ 100000 <= value e ds.
Proof.
  assert (∀ ds e, 10000 <= e → capped e ds = e) as Hstop.
  { intros ds'. induction ds' as [|c ds' IH]; intros e' He'; [done|]. cbn [capped]. destruct (Z.ltb_spec e' 10000); [lia|by apply IH]. }
  revert e. induction ds as [|c ds IH]; intros e Hd He; [left; cbn; lia|]. cbn [capped value]. cbn in Hd. apply andb_true_iff in Hd as [Hc Hd].
  pose proof (dig_range c Hc). destruct (Z.ltb_spec e 10000) as [H1|H1]; [apply IH; [done|lia]|]. right. rewrite Hstop by done. split; [done|].
  rewrite value_acc. pose proof (value_bound ds Hd). pose proof (slen_nonneg ds). unfold slen in *.
  assert (1 <= 10 ^ Z.of_nat (String.length ds)) by (assert (0 < 10 ^ Z.of_nat (String.length ds)) by (by apply Z.pow_pos_nonneg); lia). nia.
Qed.
Lemma exp_float_of e x : exp_of e = Some x → (∀ sg es, e = Some (sg, es) → all_digits es = true) → ∃ x', exp_float e = Some x' ∧
  (x' = x ∧ Z.abs x < 100000 ∨ 100000 <= x ∧ 10000 <= x' ∨ x <= -100000 ∧ x' <= -10000).
Proof.
  destruct e as [[sg ds]|]; cbn [exp_of exp_float]; [|intros [= <-] _; exists 0; split; [done|left; lia]]. destruct ds as [|c ds]; [done|].
  intros E. apply (inj Some) in E as <-. intros Hd. specialize (Hd _ _ eq_refl). eexists. split; [done|]. pose proof (value_bound _ Hd) as [Hv _].
  destruct (capped_spec _ 0 Hd ltac:(lia)) as [[-> H]|[H1 H2]]; unfold signed; destruct (String.eqb sg "-"); lia.
Qed.

(** ** Numbers far away *)
Lemma rounds_zero n d : 0 < d → 0 <= n → 2 * n < d → Rounds n d 0.
Proof. intros. split; [lia|]. split; [by left|]. left. change (mag 0) with 0. change (mag (0 + 1)) with 1. lia. Qed.
Lemma far_small m L k : 0 <= m < 10 ^ L → 0 <= L → L + k <= -400 → dec_bits m k = 0.
Proof.
  intros Hm HL Hk. apply dec_iff; [lia|]. apply rounds_zero; [apply dn_pos|pose proof (up_pos k); nia|].
  unfold up, dn. rewrite Z.max_l, Z.max_r by lia. rewrite Z.pow_0_r, Z.mul_1_l.
  assert (10 ^ (L + 400) <= 10 ^ (- k)) as H1 by (apply Z.pow_le_mono_r; lia). rewrite Z.pow_add_r in H1 by lia.
  assert (2 * 2 ^ 1074 < 10 ^ 400) as H2 by (vm_compute; reflexivity). assert (0 < 10 ^ L) as H3 by (by apply Z.pow_pos_nonneg).
  pose proof T_pos as H4. clear -Hm H1 H2 H3 H4. revert H1 H2 H3 H4. generalize (2 ^ 1074) (10 ^ 400) (10 ^ (- k)). intros a b c. nia.
Qed.
Lemma far_big m k : 0 < m → 400 <= k → inf_bits <= dec_bits m k.
Proof.
  intros Hm Hk. destruct (Z.le_gt_cases inf_bits (dec_bits m k)) as [|Hlt]; [done|]. exfalso.
  pose proof (eq_refl (dec_bits m k)) as H. apply dec_iff in H; [|lia]. pose proof H as [H0 _]. apply nearest_rounds in H as [_ H]; [|pose proof (up_pos k); nia|apply dn_pos|lia].
  unfold up, dn in H. rewrite Z.max_r, Z.max_l, Z.pow_0_r, Z.mul_1_r in H by lia.
  assert (10 ^ 400 <= 10 ^ k) as H1 by (apply Z.pow_le_mono_r; lia).
  assert (top < 10 ^ 400 * 2 ^ 1074) as H2 by (vm_compute; reflexivity). pose proof T_pos as H4. clear -Hm H H1 H2 H4. revert H H1 H2 H4.
  assert (0 < 10 ^ 400) as H5 by (vm_compute; reflexivity). revert H5. generalize (2 ^ 1074) (10 ^ 400) (10 ^ k) top. intros a b c t.
  intros. assert (b * a <= c * a) by nia. assert (0 < c * a) by nia. assert (c * a <= m * (c * a)) by nia. lia.
Qed.
Lemma far_same m L x x' l : 0 <= m < 10 ^ L → 0 <= l <= L → L <= 9000 →
  (x' = x ∧ Z.abs x < 100000 ∨ 100000 <= x ∧ 10000 <= x' ∨ x <= -100000 ∧ x' <= -10000) →
  let r k := let b := dec_bits m k in if b <? inf_bits then Some b else None in r (x' - l) = r (x - l).
Proof.
  intros Hm Hl HL H. cbn zeta. destruct H as [[-> _]|[[H1 H2]|[H1 H2]]]; [done| |].
  - destruct (decide (m = 0)) as [-> |H0].
    + assert (∀ k, dec_bits 0 k = 0) as Hz; [|by rewrite !Hz]. intros k. apply dec_iff; [lia|]. apply rounds_zero; [apply dn_pos|lia|]. pose proof (dn_pos k). lia.
    + pose proof (far_big m (x - l) ltac:(lia) ltac:(lia)). pose proof (far_big m (x' - l) ltac:(lia) ltac:(lia)).
      destruct (Z.ltb_spec (dec_bits m (x - l)) inf_bits); [lia|]. destruct (Z.ltb_spec (dec_bits m (x' - l)) inf_bits); [lia|done].
  - rewrite !(far_small m L) by lia. done.
Qed.

Lemma tok_exp_digits t neg ip ds e : TokText (Token neg ip ds e) t → ∀ sg es, e = Some (sg, es) → all_digits es = true.
Proof. intros H sg es ->. inversion H as [? ? ? ? ? ? ? _ _ _ Hep]; subst. by inversion Hep. Qed.
Lemma number_alone' t neg ip ds x : NumberText t neg ip ds x → ∃ e, number_in t = Some (Token neg ip ds e) ∧ exp_of e = Some x ∧ ∀ sg es, e = Some (sg, es) → all_digits es = true.
Proof.
  intros H. apply number_token in H as (e & H & He). pose proof (tok_exp_digits _ _ _ _ _ H) as Hd. exists e. split; [|done]. unfold number_in.
  assert (scan_number t = Some (Token neg ip ds e, "")) as Hs.
  { apply scan_iff. exists t. split_and!; [by rewrite app_nil_r_s|done|apply noword_nil|]. intros sg E. cbn in E. by destruct (exp_of_complete e x He sg). }
  pose proof (toktext_ascii _ _ H) as Ha. destruct (toktext_end _ _ H) as (s & c & -> & Hc). rewrite ends_last by done. by rewrite Hs.
Qed.
Definition dbl (neg : bool) (m k : Z) : option f64 :=
  let b := dec_bits m k in if b <? inf_bits then Some (with_low neg b) else None.
Lemma dbl_iff neg m k x : 0 <= m → dbl neg m k = Some x ↔ StandsFor neg m k x.
Proof.
  intros Hm. rewrite stands_iff by done. unfold dbl. cbn zeta. destruct (Z.ltb_spec (dec_bits m k) inf_bits) as [H|H].
  - split; [intros [= <-]; by eexists|]. by intros (b & <- & _ & ->).
  - split; [done|]. intros (b & <- & ? & _). lia.
Qed.
Lemma read_dbl t neg ip ds x : NumberText t neg ip ds x → Z.abs x < 100000 ∨ (String.length (ip +:+ ds) <= N.to_nat 9000)%nat →
  read_double t = dbl neg (value 0 (ip +:+ ds)) (Places ds x).
Proof.
  intros H Hx. pose proof (number_parts _ _ _ _ _ H) as [P1 P2]. apply first_nonzero_digits in P1 as [P1 _].
  destruct (number_alone' _ _ _ _ _ H) as (e & Ht & He & Hd). unfold read_double. rewrite Ht. cbn [mbind option_bind nt_exp nt_int nt_frac nt_neg].
  destruct (exp_float_of e x He Hd) as (x' & -> & Hx'). cbn [mbind option_bind]. change (slen ds) with (Z.of_nat (String.length ds)).
  fold (Places ds x'). unfold dbl. cbn zeta. change (Z.to_N (?b + (if neg then sign_bit else 0))) with (with_low neg b).
  assert (0 <= value 0 (ip +:+ ds) < 10 ^ slen (ip +:+ ds)) as Hm by (apply value_bound; by rewrite all_digits_app, P1, P2).
  destruct Hx as [Hx|Hx]; [by assert (x' = x) as -> by lia|].
  assert (0 <= Z.of_nat (String.length ds) <= slen (ip +:+ ds)) as Hl by (rewrite slen_app; pose proof (slen_nonneg ip); unfold slen in *; lia).
  assert (slen (ip +:+ ds) <= 9000) as HL by (unfold slen; lia).
  pose proof (far_same _ _ x x' _ Hm Hl HL Hx') as Hs. cbn zeta beta in Hs. unfold Places. revert Hs.
  destruct (Z.ltb_spec (dec_bits (value 0 (ip +:+ ds)) (x' - Z.of_nat (String.length ds))) inf_bits),
    (Z.ltb_spec (dec_bits (value 0 (ip +:+ ds)) (x - Z.of_nat (String.length ds))) inf_bits); [|done|done|done].
  by intros [= ->].
Qed.
Lemma double_number t neg ip ds x m y : NumberText t neg ip ds x → Mantissa ip ds m →
  Z.abs x < 100000 ∨ (String.length (ip +:+ ds) <= N.to_nat 9000)%nat →
  read_double t = Some y ↔ StandsFor neg m (Places ds x) y.
Proof.
  intros H Hm Hx. apply (mantissa_value _ _ _ _ _ _ H) in Hm as ->. rewrite (read_dbl _ _ _ _ _ H Hx). apply dbl_iff.
  pose proof (number_parts _ _ _ _ _ H) as [P1 P2]. apply first_nonzero_digits in P1 as [P1 _]. apply value_bound. by rewrite all_digits_app, P1, P2.
Qed.
