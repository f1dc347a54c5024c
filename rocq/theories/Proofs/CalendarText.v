(** Lemmas for C141: times as texts. *)
From Coq Require Import Ascii String ZArith NArith Lia.
From stdpp Require Import prelude strings.
From Verif.Model Require Import GoStrings Types Calendar.
From Verif.Spec Require Import CalendarSpec.
From Verif.Proofs Require Import StringLemmas CalendarDays.
Local Open Scope string_scope.
Local Open Scope Z_scope.
Local Arguments String.append _ _ : simpl nomatch.

(** ** Numbers *)
Lemma is_digit_iff c d : IsDigit c d ↔ is_digit c = true ∧ dig c = d.
Proof.
  unfold IsDigit, is_digit, dig, digit_val. rewrite andb_true_iff, !N.leb_le. split.
  - intros [H E]. assert (Z.of_N (N_of_ascii c) = 48 + d) by done. split; [lia|]. lia.
  - intros [H <-]. lia.
Qed.
Lemma value_app acc s t : value acc (s +:+ t) = value (value acc s) t.
Proof. revert acc. induction s as [|c s IH]; intros acc; [done|]. cbn. apply IH. Qed.
Lemma value_acc acc s : value acc s = acc * 10 ^ Z.of_nat (String.length s) + value 0 s.
Proof.
  revert acc. induction s as [|c s IH]; intros acc; [cbn; lia|]. cbn [value String.length]. rewrite IH, (IH (10 * 0 + dig c)).
  rewrite Nat2Z.inj_succ, Z.pow_succ_r by lia. lia.
Qed.
Lemma string_snoc s : s = "" ∨ ∃ s' c, s = s' +:+ String c "".
Proof.
  induction s as [|c s [->|(s' & c' & ->)]]; [by left| |]; right; [by exists "", c|by exists (String c s'), c'].
Qed.
Lemma num_iff w n s : Num w n s ↔ String.length s = w ∧ all_digits s = true ∧ value 0 s = n.
Proof.
  split.
  - induction 1 as [|w n s c d _ (IH1 & IH2 & IH3) Hd]; [done|]. apply is_digit_iff in Hd as [Hd <-].
    rewrite app_length_s, all_digits_app, value_app, IH1, IH2, IH3. cbn. rewrite Hd. split_and!; [lia|done|lia].
  - revert n s. induction w as [|w IH]; intros n s (Hl & Hd & Hv).
    + destruct s; [|done]. cbn in Hv. subst n. constructor.
    + destruct (string_snoc s) as [->|(s' & c & ->)]; [done|].
      rewrite app_length_s, all_digits_app, value_app in *. cbn in *. rewrite andb_true_r in Hd. apply andb_true_iff in Hd as [Hd Hc].
      rewrite <-Hv. constructor; [apply IH; split_and!; [lia|done|done]|by apply is_digit_iff].
Qed.
Lemma dig_range c : is_digit c = true → 0 <= dig c <= 9.
Proof. intros H. assert (IsDigit c (dig c)) as [? _]; [by apply is_digit_iff|done]. Qed.
Lemma num_range w n s : Num w n s → 0 <= n < 10 ^ Z.of_nat w.
Proof.
  induction 1 as [|w n s c d _ IH [Hd _]]; [cbn; lia|]. rewrite Nat2Z.inj_succ, Z.pow_succ_r by lia. lia.
Qed.
Lemma num_app w1 n1 s1 w2 n2 s2 : Num w1 n1 s1 → Num w2 n2 s2 → Num (w1 + w2) (n1 * 10 ^ Z.of_nat w2 + n2) (s1 +:+ s2).
Proof.
  rewrite !num_iff. intros (H1 & H2 & H3) (H4 & H5 & H6). rewrite app_length_s, all_digits_app, value_app, H2, H5, H3, value_acc, H6, H4.
  split_and!; [lia|done|done].
Qed.
Fixpoint stake (n : nat) (s : string) : string :=
  match n, s with S n, String c r => String c (stake n r) | _, _ => "" end.
Fixpoint sdrop (n : nat) (s : string) : string :=
  match n, s with S n, String c r => sdrop n r | _, _ => s end.
Lemma stake_sdrop n s : stake n s +:+ sdrop n s = s.
Proof. revert s. induction n as [|n IH]; intros [|c s]; try done. cbn. by rewrite IH. Qed.
Lemma stake_length n s : (n <= String.length s)%nat → String.length (stake n s) = n.
Proof. revert s. induction n as [|n IH]; intros [|c s]; cbn; try lia. intros H. rewrite IH; lia. Qed.
Lemma num_split w1 w2 n s : Num (w1 + w2) n s → ∃ s1 s2 n1 n2, s = s1 +:+ s2 ∧ Num w1 n1 s1 ∧ Num w2 n2 s2 ∧ n = n1 * 10 ^ Z.of_nat w2 + n2.
Proof.
  rewrite num_iff. intros (Hl & Hd & Hv). exists (stake w1 s), (sdrop w1 s), (value 0 (stake w1 s)), (value 0 (sdrop w1 s)).
  pose proof (stake_sdrop w1 s) as E. pose proof (stake_length w1 s ltac:(lia)) as E1.
  assert (String.length (sdrop w1 s) = w2) as E2 by (rewrite <-E, app_length_s in Hl; lia).
  rewrite <-E in Hd, Hv. rewrite all_digits_app in Hd. apply andb_true_iff in Hd as [Hd1 Hd2].
  split_and!; [done|by apply num_iff|by apply num_iff|]. rewrite <-Hv, value_app, value_acc, E2. done.
Qed.
Lemma digits_num w n : 0 <= n < 10 ^ Z.of_nat w → Num w n (digits w n).
Proof.
  revert n. induction w as [|w IH]; intros n H.
  - assert (n = 0) as -> by (cbn in H; lia). constructor.
  - rewrite Nat2Z.inj_succ, Z.pow_succ_r in H by lia. cbn [digits]. rewrite (Z.div_mod n 10) at 1 by done. constructor.
    + apply IH. pose proof (Z.div_mod n 10 ltac:(done)). pose proof (Z.mod_pos_bound n 10 ltac:(done)). lia.
    + pose proof (Z.mod_pos_bound n 10 ltac:(done)) as Hm. apply is_digit_iff. split; [apply digit_char_is_digit; lia|].
      unfold dig. rewrite digit_val_char by lia. lia.
Qed.
Lemma digits_length w n : String.length (digits w n) = w.
Proof. revert n. induction w as [|w IH]; intros n; [done|]. cbn [digits]. rewrite app_length_s, IH. cbn. lia. Qed.
Lemma digits_app w1 w2 n : digits (w1 + w2) n = digits w1 (n / 10 ^ Z.of_nat w2) +:+ digits w2 n.
Proof.
  revert n. induction w2 as [|w2 IH]; intros n.
  - rewrite Nat.add_0_r. cbn [digits]. rewrite app_nil_r_s. f_equal. cbn. by rewrite Z.div_1_r.
  - rewrite Nat.add_succ_r. cbn [digits]. rewrite IH, <-app_assoc_s. f_equal. f_equal. f_equal.
    rewrite Nat2Z.inj_succ, Z.pow_succ_r by lia. rewrite Z.div_div by lia. done.
Qed.
Lemma digits_mod w n : digits w n = digits w (n mod 10 ^ Z.of_nat w).
Proof.
  revert n. induction w as [|w IH]; intros n; [done|]. cbn [digits]. rewrite (IH (n / 10)), (IH (n mod _ / 10)).
  rewrite Nat2Z.inj_succ, Z.pow_succ_r by lia. set (p := 10 ^ Z.of_nat w). assert (0 < p) by (subst p; lia).
  rewrite (Z.rem_mul_r n 10 p) by lia. assert (((n mod 10 + 10 * ((n / 10) mod p)) / 10) = (n / 10) mod p) as ->.
  { generalize ((n / 10) mod p). intros a. Z.to_euclidean_division_equations. lia. }
  rewrite Z.mod_mod by lia. do 4 f_equal. rewrite (Z.mul_comm 10), Z.mod_add by done. by rewrite Z.mod_mod.
Qed.

(** ** The readers *)
Lemma num2_iff s n r : num2 s = Some (n, r) ↔ ∃ a, Num 2 n a ∧ s = a +:+ r.
Proof.
  split.
  - destruct s as [|a [|b s]]; try done. cbn. destruct (is_digit a && is_digit b) eqn:E; [|done]. intros [= <- <-].
    apply andb_true_iff in E as [E1 E2]. exists (String a (String b "")). split; [|done]. apply num_iff. cbn. rewrite E1, E2. split_and!; [done|done|lia].
  - intros (a & H & ->). apply num_iff in H as (Hl & Hd & <-). destruct a as [|x [|y [|z a]]]; try done. cbn in *.
    rewrite andb_true_r in Hd. rewrite Hd. done.
Qed.
Lemma num4_iff s n r : num4 s = Some (n, r) ↔ ∃ a, Num 4 n a ∧ s = a +:+ r.
Proof.
  unfold num4. split.
  - destruct (num2 s) as [[a s1]|] eqn:E1; [|done]. cbn. destruct (num2 s1) as [[b s2]|] eqn:E2; [|done]. cbn. intros [= <- <-].
    apply num2_iff in E1 as (x & Hx & ->), E2 as (y & Hy & ->). exists (x +:+ y). split; [|by rewrite app_assoc_s].
    pose proof (num_app _ _ _ _ _ _ Hx Hy) as H. cbn in H. replace (100 * a + b) with (a * 100 + b) by lia. exact H.
  - intros (x & H & ->). apply (num_split 2 2) in H as (x1 & x2 & n1 & n2 & -> & H1 & H2 & ->). rewrite app_assoc_s.
    assert (num2 (x1 +:+ x2 +:+ r) = Some (n1, x2 +:+ r)) as -> by (apply num2_iff; eauto). cbn.
    assert (num2 (x2 +:+ r) = Some (n2, r)) as -> by (apply num2_iff; eauto). cbn. do 2 f_equal. lia.
Qed.
Definition digit_first (s : string) : bool := match s with String c _ => is_digit c | "" => false end.
Lemma num12_iff s n r : num12 s = Some (n, r) ↔ ∃ w a, Num w n a ∧ s = a +:+ r ∧ (w = 2%nat ∨ w = 1%nat ∧ digit_first r = false).
Proof.
  split.
  - destruct s as [|a s]; [done|]. cbn. destruct (is_digit a) eqn:E1; [|done].
    assert (Num 1 (dig a) (String a "")) as H1 by (apply num_iff; cbn; rewrite E1; split_and!; [done|done|lia]).
    destruct s as [|b s].
    + intros [= <- <-]. exists 1%nat, (String a ""). split; [done|]. split; [done|]. by right.
    + destruct (is_digit b) eqn:E2; intros [= <- <-].
      * exists 2%nat, (String a (String b "")). split; [|split; [done|by left]]. apply num_iff. cbn. rewrite E1, E2. split_and!; [done|done|lia].
      * exists 1%nat, (String a ""). split; [done|]. split; [done|]. by right.
  - intros (w & a & H & -> & Hw). apply num_iff in H as (Hl & Hd & <-). destruct Hw as [->|[-> Hr]].
    + destruct a as [|x [|y [|z a]]]; try done. cbn in *. rewrite andb_true_r in Hd. apply andb_true_iff in Hd as [-> ->]. done.
    + destruct a as [|x [|y a]]; try done. cbn in *. rewrite andb_true_r in Hd. rewrite Hd. destruct r as [|c r]; [done|].
      cbn in Hr. rewrite Hr. done.
Qed.
Lemma literal_iff c s r : literal c s = Some r ↔ s = String c r.
Proof.
  destruct s as [|x s]; [done|]. cbn. destruct (Ascii.eqb_spec x c) as [->|Hn]; split; intros H; [by injection H as ->|by injection H as ->|done|].
  by injection H as -> ->.
Qed.
Lemma span_app ds r : all_digits ds = true → digit_first r = false → span_digits (ds +:+ r) = (ds, r).
Proof.
  induction ds as [|c ds IH]; intros Hd Hr.
  - destruct r as [|c r]; [done|]. cbn in *. by rewrite Hr.
  - cbn in *. apply andb_true_iff in Hd as [-> Hd]. by rewrite IH.
Qed.
Lemma span_spec s : s = (span_digits s).1 +:+ (span_digits s).2 ∧ all_digits (span_digits s).1 = true ∧ digit_first (span_digits s).2 = false.
Proof.
  induction s as [|c s IH]; [done|]. cbn. destruct (is_digit c) eqn:Ec; [|by cbn; rewrite Ec].
  destruct (span_digits s) as [a b]. cbn in *. destruct IH as (-> & H1 & H2). by rewrite Ec.
Qed.

(** ** The fraction and the zone *)
Lemma substring_app a b : String.substring 0 (String.length a) (a +:+ b) = a.
Proof. induction a as [|c a IH]; [by destruct b|]. cbn. by rewrite IH. Qed.
Lemma substring_all n s : (String.length s <= n)%nat → String.substring 0 n s = s.
Proof. revert n. induction s as [|c s IH]; intros [|n] H; cbn in *; try done; try lia. rewrite IH; [done|lia]. Qed.
Lemma nanos_short w n ds : Num w n ds → (w <= 9)%nat → nanos_of ds = n * 10 ^ (9 - Z.of_nat w).
Proof.
  intros H Hw. apply num_iff in H as (Hl & _ & Hv). unfold nanos_of. rewrite substring_all by lia. by rewrite Hv, Hl.
Qed.
Lemma nanos_long n ds ds' : Num 9 n ds → nanos_of (ds +:+ ds') = n.
Proof.
  intros H. apply num_iff in H as (Hl & _ & Hv). unfold nanos_of. rewrite <-Hl at 1 2. rewrite substring_app, Hl, Hv. cbn. lia.
Qed.
Lemma zone_iff s off r : read_zone s = Some (off, r) ↔ ∃ z, ZoneText z off ∧ s = z +:+ r.
Proof.
  split.
  - destruct s as [|c s]; [done|]. destruct (Ascii.eqb_spec c "Z") as [->|Hc].
    { intros [= <- <-]. exists "Z". split; [constructor|done]. }
    assert (read_zone (String c s) = '(h, r) ← num2 s; r ← literal ":" r; '(m, r) ← num2 r;
      if Ascii.eqb c "+" then Some ((h * 60 + m) * 60, r) else if Ascii.eqb c "-" then Some (- ((h * 60 + m) * 60), r) else None) as ->.
    { clear -Hc. unfold read_zone. destruct c as [[] [] [] [] [] [] [] []]; try reflexivity. by destruct Hc. }
    destruct (num2 s) as [[h s1]|] eqn:E1; [|done]. cbn. destruct (literal ":" s1) as [s2|] eqn:E2; [|done]. cbn.
    destruct (num2 s2) as [[m s3]|] eqn:E3; [|done]. cbn.
    apply num2_iff in E1 as (hs & Hh & ->), E3 as (ms & Hm & ->). apply literal_iff in E2 as ->.
    destruct (Ascii.eqb_spec c "+") as [->|]; [|destruct (Ascii.eqb_spec c "-") as [->|]; [|done]]; intros [= <- <-].
    + exists ("+" +:+ hs +:+ ":" +:+ ms). split; [|cbn; by rewrite !app_assoc_s]. replace ((h * 60 + m) * 60) with (h * 3600 + m * 60) by lia. by constructor.
    + exists ("-" +:+ hs +:+ ":" +:+ ms). split; [|cbn; by rewrite !app_assoc_s]. replace ((h * 60 + m) * 60) with (h * 3600 + m * 60) by lia. by constructor.
  - intros (z & H & ->). destruct H as [|h m hs ms Hh Hm|h m hs ms Hh Hm]; [done| |]; cbn [String.append]; rewrite !app_assoc_s; cbn.
    + assert (num2 (hs +:+ String ":" (ms +:+ r)) = Some (h, String ":" (ms +:+ r))) as -> by (apply num2_iff; eauto). cbn.
      assert (num2 (ms +:+ r) = Some (m, r)) as -> by (apply num2_iff; eauto). cbn. do 2 f_equal. lia.
    + assert (num2 (hs +:+ String ":" (ms +:+ r)) = Some (h, String ":" (ms +:+ r))) as -> by (apply num2_iff; eauto). cbn.
      assert (num2 (ms +:+ r) = Some (m, r)) as -> by (apply num2_iff; eauto). cbn. do 2 f_equal. lia.
Qed.
