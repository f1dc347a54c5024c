(** Lemmas for C143: whole numbers in JSON. *)
From Coq Require Import Ascii String ZArith NArith Lia.
From stdpp Require Import prelude strings.
From Verif.Model Require Import GoStrings Types HttpStream JsonText JsonBytes Calendar JsonNumber.
From Verif.Spec Require Import CalendarSpec HttpSpec JsonSpec JsonTextSpec JsonBytesSpec NumberSpec.
From Verif.Proofs Require Import StringLemmas HttpLemmas Utf8TextLemmas JsonBytesLemmas CalendarText CalendarWrite NumberScan.
Local Open Scope string_scope.
Local Open Scope Z_scope.
Local Arguments String.append _ _ : simpl nomatch.

(** ** Digits and zeros *)
Lemma slen_app a b : slen (a +:+ b) = slen a + slen b.
Proof. unfold slen. rewrite app_length_s. lia. Qed.
Lemma slen_nonneg s : 0 <= slen s.
Proof. unfold slen. lia. Qed.
Lemma slen_zero s : slen s = 0 → s = "".
Proof. unfold slen. destruct s; [done|]. cbn. lia. Qed.
Lemma value_cat a b : value 0 (a +:+ b) = value 0 a * 10 ^ slen b + value 0 b.
Proof. by rewrite value_app, value_acc. Qed.
Lemma value_bound s : all_digits s = true → 0 <= value 0 s < 10 ^ slen s.
Proof. intros H. apply (num_range (String.length s) _ s). by apply num_iff. Qed.
Lemma zeros_spec n : all_digits (zeros n) = true ∧ value 0 (zeros n) = 0 ∧ slen (zeros n) = Z.of_nat n.
Proof.
  induction n as [|n (IH1 & IH2 & IH3)]; [done|]. cbn [zeros]. split_and!; [by cbn; rewrite IH1|by cbn|].
  unfold slen in *. cbn. lia.
Qed.
Lemma digit_zero c : is_digit c = true → dig c = 0 → c = "0"%char.
Proof.
  intros H1 H2. assert (IsDigit c 0) as [_ H] by by apply is_digit_iff. rewrite <- (ascii_N_embedding c).
  by replace (N_of_ascii c) with 48%N by lia.
Qed.
Lemma trim_spec s : ∃ j, s = trim_zeros s +:+ zeros j ∧
  (trim_zeros s = "" ∨ ∃ s' c, trim_zeros s = s' +:+ String c "" ∧ c ≠ "0"%char).
Proof.
  induction s as [|c s (j & E & H)]; [exists 0%nat; split; [done|by left]|]. cbn [trim_zeros].
  destruct (Ascii.eqb_spec c "0") as [-> |Hc]; cbn [andb].
  - destruct (String.eqb_spec (trim_zeros s) "") as [Ht|Ht].
    + exists (S j). rewrite Ht in E. cbn in E. split; [by cbn; rewrite <- E|by left].
    + exists j. split; [cbn; by rewrite <- E|]. right. destruct H as [H|(s' & c & H & Hc)]; [done|]. exists (String "0" s'), c. by rewrite H.
  - exists j. split; [cbn; by rewrite <- E|]. right. destruct H as [H|(s' & c' & H & Hc')].
    + exists "", c. by rewrite H.
    + exists (String c s'), c'. by rewrite H.
Qed.
Lemma trim_digits s : all_digits s = true → all_digits (trim_zeros s) = true.
Proof.
  intros H. destruct (trim_spec s) as (j & E & _). rewrite E, all_digits_app in H. by apply andb_true_iff in H as [H _].
Qed.
Lemma last_nonzero s c : all_digits (s +:+ String c "") = true → c ≠ "0"%char → value 0 (s +:+ String c "") mod 10 ≠ 0.
Proof.
  intros Hd Hc. rewrite all_digits_app in Hd. apply andb_true_iff in Hd as [_ Hd]. cbn in Hd. rewrite andb_true_r in Hd.
  rewrite value_cat. change (slen (String c "")) with 1. change (value 0 (String c "")) with (dig c).
  rewrite Z.pow_1_r, Z.add_comm, Z.mod_add by done. pose proof (dig_range c Hd). intros E. apply Hc. apply digit_zero; [done|].
  rewrite Z.mod_small in E; lia.
Qed.
Lemma trim_nil s : all_digits s = true → trim_zeros s = "" ↔ value 0 s = 0.
Proof.
  intros Hd. destruct (trim_spec s) as (j & E & H). destruct (zeros_spec j) as (Z1 & Z2 & Z3). split.
  - intros Ht. rewrite E, Ht. exact Z2.
  - intros Hv. destruct H as [H|(s' & c & H & Hc)]; [done|]. exfalso. pose proof (trim_digits s Hd) as Ht. rewrite H in Ht.
    apply (last_nonzero s' c Ht Hc). rewrite <- H. rewrite E, value_cat, Z2 in Hv.
    assert (value 0 (trim_zeros s) = 0) as -> by (assert (0 < 10 ^ slen (zeros j)) by (apply Z.pow_pos_nonneg; [lia|apply slen_nonneg]); nia). done.
Qed.
Lemma value_lower c s : all_digits (String c s) = true → c ≠ "0"%char → 10 ^ slen s <= value 0 (String c s).
Proof.
  intros Hd Hc. change (String c s) with (String c "" +:+ s). rewrite value_cat. change (value 0 (String c "")) with (dig c).
  cbn in Hd. apply andb_true_iff in Hd as [H1 H2]. pose proof (dig_range c H1). pose proof (value_bound s H2).
  assert (dig c ≠ 0) by (intros E; apply Hc; by apply digit_zero). nia.
Qed.

(** ** The digits of the whole number *)
Definition NoLead (ip : string) : Prop := ip = "" ∨ ∃ c r, ip = String c r ∧ c ≠ "0"%char.
Definition NoTrail (fp : string) : Prop := fp = "" ∨ ∃ s c, fp = s +:+ String c "" ∧ c ≠ "0"%char.
Lemma no_tens z M n : 0 < n → z * 10 ^ n = M → M mod 10 = 0.
Proof.
  intros Hn <-. replace n with (Z.succ (n - 1)) by lia. rewrite Z.pow_succ_r by lia. rewrite Z.mul_assoc, (Z.mul_comm z), <- Z.mul_assoc, Z.mul_comm.
  apply Z.mod_mul. done.
Qed.
Lemma trail_mod ip fp : all_digits ip = true → all_digits fp = true → NoTrail fp → fp ≠ "" → value 0 (ip +:+ fp) mod 10 ≠ 0.
Proof.
  intros H1 H2 [-> |(s & c & -> & Hc)] Hne; [done|]. rewrite <- app_assoc_s. apply last_nonzero; [|done].
  by rewrite app_assoc_s, all_digits_app, H1, H2.
Qed.
Lemma substring_drop a b n : (String.length b <= n)%nat → String.substring (String.length a) n (a +:+ b) = b.
Proof. intros Hn. induction a as [|y a IH]; [by apply substring_all|exact IH]. Qed.
Lemma int_digits_spec ip fp x z : all_digits ip = true → all_digits fp = true → NoLead ip → NoTrail fp → ¬ (ip = "" ∧ fp = "") →
  (∃ ds, int_digits ip fp x = Some ds ∧ value 0 ds = z) ↔
  IsDecimal z (value 0 (ip +:+ fp)) (x - slen fp) ∧ (0 <= x → slen ip + x <= 20).
Proof.
  intros Hi Hf Hl Ht Hne. unfold int_digits, IsDecimal. set (M := value 0 (ip +:+ fp)).
  pose proof (slen_nonneg ip) as Li. pose proof (slen_nonneg fp) as Lf. destruct (Z.leb_spec 0 x) as [Hx|Hx].
  - destruct (Z.ltb_spec x (slen fp)) as [H1|H1]; cbn [orb].
    + split; [by intros (ds & ? & _)|]. intros [E _]. exfalso. apply (trail_mod ip fp Hi Hf Ht); [intros E0; rewrite E0 in H1; change (slen "") with 0 in H1; lia|].
      apply (no_tens z _ (slen fp - x)); [lia|]. rewrite (Z.max_l 0 (x - slen fp)), Z.pow_0_r, Z.mul_1_r in E by lia.
      rewrite Z.max_r in E by lia. replace (- (x - slen fp)) with (slen fp - x) in E by lia. exact E.
    + rewrite (Z.max_l 0 (- (x - slen fp))), Z.pow_0_r, Z.mul_1_r by lia. rewrite Z.max_r by lia.
      destruct (Z.ltb_spec 20 (slen ip + x)) as [H2|H2].
      * split; [by intros (ds & ? & _)|]. intros [_ H]. lia.
      * destruct (zeros_spec (Z.to_nat (x - slen fp))) as (Z1 & Z2 & Z3).
        assert (value 0 (ip +:+ fp +:+ zeros (Z.to_nat (x - slen fp))) = M * 10 ^ (x - slen fp)) as Ev.
        { rewrite <- app_assoc_s, value_cat, Z2, Z3, Z2Nat.id by lia. unfold M. lia. }
        split; [intros (ds & [= <-] & <-); split; [exact Ev|lia]|]. intros [-> _]. by eexists.
  - rewrite (Z.max_l 0 (x - slen fp)), Z.pow_0_r, Z.mul_1_r, Z.max_r by lia. replace (- (x - slen fp)) with (slen fp - x) by lia.
    destruct (String.eqb_spec fp "") as [Ef|Ef]; cbn [negb].
    + subst fp. change (slen "") with 0 in *. rewrite Z.sub_0_l. unfold M. rewrite app_nil_r_s. clear M.
      destruct Hl as [-> |(c & r & Eip & Hc)]; [by destruct Hne|].
      assert (0 < value 0 ip) as Hpos.
      { rewrite Eip in Hi |- *. pose proof (value_lower c r Hi Hc). pose proof (slen_nonneg r). assert (0 < 10 ^ slen r) by (by apply Z.pow_pos_nonneg). lia. }
      pose proof (value_bound ip Hi) as Hub.
      destruct (Z.ltb_spec (slen ip + x) 0) as [H1|H1].
      * split; [by intros (ds & ? & _)|]. intros [E _]. exfalso. assert (10 ^ slen ip <= 10 ^ (- x)) by (apply Z.pow_le_mono_r; lia).
        assert (0 < z) by nia. nia.
      * pose proof (stake_sdrop (Z.to_nat (slen ip + x)) ip) as E. pose proof (stake_length (Z.to_nat (slen ip + x)) ip ltac:(unfold slen in *; lia)) as El.
        set (a := stake _ ip) in *. set (b := sdrop _ ip) in *.
        assert (String.length b = Z.to_nat (- x)) as Eb by (rewrite <- E, slen_app in H1; unfold slen in *; rewrite <- E, app_length_s in *; lia).
        assert (String.substring (Z.to_nat (slen ip + x)) (String.length ip) ip = b) as ->.
        { rewrite <- El. transitivity (String.substring (String.length a) (String.length ip) (a +:+ b)); [by rewrite E|].
          apply substring_drop. rewrite <- E, app_length_s. lia. }
        assert (String.substring 0 (Z.to_nat (slen ip + x)) ip = a) as ->.
        { rewrite <- El. transitivity (String.substring 0 (String.length a) (a +:+ b)); [by rewrite E|]. apply substring_app. }
        assert (all_digits a = true ∧ all_digits b = true) as [Ha Hb].
        { rewrite <- E, all_digits_app in Hi. by apply andb_true_iff in Hi. }
        assert (value 0 ip = value 0 a * 10 ^ (- x) + value 0 b) as Ev.
        { rewrite <- E at 1. rewrite value_cat. unfold slen. rewrite Eb, Z2Nat.id by lia. done. }
        pose proof (value_bound b Hb) as Bb. unfold slen in Bb at 1. rewrite Eb, Z2Nat.id in Bb by lia.
        destruct (String.eqb_spec (trim_zeros b) "") as [Et|Et].
        -- apply (trim_nil b Hb) in Et. rewrite Ev, Et. assert (0 < 10 ^ (- x)) by (apply Z.pow_pos_nonneg; lia).
           split; [intros (ds & [= <-] & <-); split; lia|]. intros [Ez _]. exists a. split; [done|]. nia.
        -- split; [by intros (ds & ? & _)|]. intros [Ez _]. exfalso. apply Et. apply (trim_nil b Hb). rewrite Ev in Ez.
           assert (0 < 10 ^ (- x)) by (apply Z.pow_pos_nonneg; lia). assert (z = value 0 a) by nia. nia.
    + split; [by intros (ds & ? & _)|]. intros [E _]. exfalso. apply (trail_mod ip fp Hi Hf Ht Ef). apply (no_tens z _ (slen fp - x)); [lia|done].
Qed.

(** ** Whole numbers *)
Definition int_core (n : token) : option Z :=
  if match nt_exp n with Some (String _ _, "") => true | _ => false end then None
  else
    let ip := if String.eqb (nt_int n) "0" then "" else nt_int n in
    let fp := trim_zeros (nt_frac n) in
    if String.eqb ip "" && String.eqb fp "" then Some 0
    else
      e ← exp_int (nt_exp n);
      ds ← int_digits ip fp e;
      let z := signed (nt_neg n) (value 0 ds) in
      if fits32 z then Some z else None.
Lemma read_int_core s : read_int s = number_in s ≫= int_core.
Proof. done. Qed.
Lemma fits32_iff z : fits32 z = true ↔ Fits32 z.
Proof. unfold fits32, Fits32. rewrite andb_true_iff, Z.leb_le, Z.ltb_lt. done. Qed.
Lemma exp_int_of e x : exp_of e = Some x → exp_int e = if fits32 x then Some x else None.
Proof.
  destruct e as [[sg ds]|]; cbn; [|by intros [= <-]]. destruct ds as [|c ds]; [done|]. by intros [= <-].
Qed.
Lemma isdecimal_signed neg z m k : IsDecimal (WithSign neg z) (WithSign neg m) k ↔ IsDecimal z m k.
Proof. unfold IsDecimal, WithSign. destruct neg; [|done]. lia. Qed.
Lemma withsign_invol neg z : WithSign neg (WithSign neg z) = z.
Proof. unfold WithSign. destruct neg; lia. Qed.
Lemma isdecimal_shift z M j k : 0 <= j → IsDecimal z (M * 10 ^ j) k ↔ IsDecimal z M (k + j).
Proof.
  intros Hj. unfold IsDecimal.
  assert (∀ a b, 0 <= a → 0 <= b → (10 : Z) ^ (a + b) = 10 ^ a * 10 ^ b) as Hp by (intros; by apply Z.pow_add_r).
  destruct (decide (0 <= k)) as [Hk|Hk].
  - rewrite (Z.max_l 0 (- k)), (Z.max_r 0 k), (Z.max_l 0 (- (k + j))), (Z.max_r 0 (k + j)), Hp by lia. rewrite <- Z.mul_assoc, (Z.mul_comm (10 ^ j)). done.
  - rewrite (Z.max_r 0 (- k)), (Z.max_l 0 k) by lia. destruct (decide (0 <= k + j)) as [Hkj|Hkj].
    + rewrite (Z.max_l 0 (- (k + j))), (Z.max_r 0 (k + j)) by lia. rewrite !Z.pow_0_r, !Z.mul_1_r.
      assert ((10 : Z) ^ j = 10 ^ (k + j) * 10 ^ (- k)) as -> by (rewrite <- Hp by lia; f_equal; lia).
      rewrite Z.mul_assoc. assert (0 < 10 ^ (- k)) by (apply Z.pow_pos_nonneg; lia). split; [intros H1; by apply Z.mul_reg_r in H1; [|lia]|by intros ->].
    + rewrite (Z.max_r 0 (- (k + j))), (Z.max_l 0 (k + j)) by lia. rewrite !Z.pow_0_r, !Z.mul_1_r.
      assert ((10 : Z) ^ (- k) = 10 ^ (- (k + j)) * 10 ^ j) as -> by (rewrite <- Hp by lia; f_equal; lia).
      rewrite Z.mul_assoc. assert (0 < 10 ^ j) by (apply Z.pow_pos_nonneg; lia). split; [intros H1; by apply Z.mul_reg_r in H1; [|lia]|by intros ->].
Qed.
Lemma isdecimal_zero z k : IsDecimal z 0 k ↔ z = 0.
Proof. unfold IsDecimal. assert (0 < 10 ^ Z.max 0 (- k)) by (apply Z.pow_pos_nonneg; lia). split; [nia|intros ->; lia]. Qed.

Lemma int_core_spec neg ip ds e x z : first_nonzero ip → all_digits ds = true → exp_of e = Some x →
  int_core (Token neg ip ds e) = Some z ↔
  IsDecimal z (WithSign neg (value 0 (ip +:+ ds))) (Places ds x) ∧ Fits32 z ∧
  (value 0 (ip +:+ ds) = 0 ∨ Fits32 x ∧ (ip = "0" → x <= 20)).
Proof.
  intros Hip Hds He. unfold int_core. cbn [nt_exp nt_int nt_frac nt_neg].
  assert (match e with Some (String _ _, "") => true | _ => false end = false) as ->.
  { destruct e as [[[|? ?] [|? ?]]|]; try done. }
  set (ip' := if String.eqb ip "0" then "" else ip).
  assert (all_digits ip' = true ∧ NoLead ip' ∧ value 0 ip' = value 0 ip ∧ (ip' = "" ↔ ip = "0")) as (Hi & Hl & Hv & H0).
  { subst ip'. destruct (String.eqb_spec ip "0") as [-> |Hn]; [split_and!; [done|by left|done|done]|].
    destruct Hip as [-> |(Hd & Hne & Hz)]; [done|]. split_and!; [done| |done|done]. right. destruct ip as [|c r]; [done|]. exists c, r. split; [done|].
    intros ->. by apply (Hz r). }
  destruct (trim_spec ds) as (j & Ed & Ht). pose proof (trim_digits ds Hds) as Hf. destruct (zeros_spec j) as (Z1 & Z2 & Z3).
  set (fp := trim_zeros ds) in *.
  assert (value 0 (ip +:+ ds) = value 0 (ip' +:+ fp) * 10 ^ Z.of_nat j) as EM.
  { rewrite !value_cat, Hv. rewrite Ed at 1 2. rewrite slen_app, value_cat, Z2, Z3.
    rewrite Z.pow_add_r by (apply slen_nonneg || lia). ring. }
  assert (Places ds x = (x - slen fp) - Z.of_nat j) as EP.
  { unfold Places. change (Z.of_nat (String.length ds)) with (slen ds). rewrite Ed, slen_app, Z3. lia. }
  assert (0 < 10 ^ Z.of_nat j) as Hj by (apply Z.pow_pos_nonneg; lia).
  destruct (String.eqb_spec ip' "") as [E1|E1], (String.eqb_spec fp "") as [E2|E2]; cbn [andb].
  1: { rewrite E1, E2 in EM. change (value 0 ("" +:+ "")) with 0 in EM. rewrite Z.mul_0_l in EM. rewrite EM. assert (WithSign neg 0 = 0) as -> by (by destruct neg). rewrite isdecimal_zero.
       split; [intros [= <-]; split; [done|]; split; [unfold Fits32; lia|by left]|]. by intros [-> _]. }
  all: assert (value 0 (ip' +:+ fp) ≠ 0) as HM.
  1: { intros E. apply (trail_mod ip' fp Hi Hf Ht E2). by rewrite E. }
  2: { destruct Hl as [Hl|(c & r & Hl & Hc)]; [done|]. rewrite value_cat. rewrite Hl in *. pose proof (value_lower c r Hi Hc). pose proof (value_bound fp Hf).
       pose proof (slen_nonneg r). assert (0 < 10 ^ slen r) by (by apply Z.pow_pos_nonneg). pose proof (slen_nonneg fp). assert (0 < 10 ^ slen fp) by (by apply Z.pow_pos_nonneg). nia. }
  3: { intros E. apply (trail_mod ip' fp Hi Hf Ht E2). by rewrite E. }
  all: rewrite (exp_int_of e x He).
  all: assert (value 0 (ip +:+ ds) ≠ 0) as HM' by (rewrite EM; nia).
  all: assert (∀ z, IsDecimal z (WithSign neg (value 0 (ip +:+ ds))) (Places ds x) ↔ IsDecimal (WithSign neg z) (value 0 (ip' +:+ fp)) (x - slen fp)) as HD.
  1,3,5: intros y; rewrite <- (withsign_invol neg y) at 1; rewrite isdecimal_signed, EM, isdecimal_shift by lia; rewrite EP, Z.sub_add; done.
  all: pose proof (λ y, int_digits_spec ip' fp x y Hi Hf Hl Ht ltac:(naive_solver)) as HS.
  all: assert (IsDecimal (WithSign neg z) (value 0 (ip' +:+ fp)) (x - slen fp) → Fits32 z → ip' ≠ "" → 0 <= x → slen ip' + x <= 20) as H20.
  1,3,5: intros HI [HF1 HF2] Hne Hx; destruct Hl as [Hl|(c & r & Hl & Hc)]; [done|]; rewrite Hl in *;
    pose proof (value_lower c r Hi Hc) as HL; pose proof (value_bound fp Hf) as [HB _]; pose proof (slen_nonneg fp); pose proof (slen_nonneg r);
    assert (slen (String c r) = slen r + 1) as -> by (unfold slen; cbn; lia);
    destruct (decide (slen r + 1 + x <= 20)) as [|Hgt]; [done|]; exfalso;
    rewrite value_cat in HI;
    assert (10 ^ (slen r + x) <= WithSign neg z) as HG;
    [|assert (10 ^ 20 <= (10 : Z) ^ (slen r + x)) by (apply Z.pow_le_mono_r; lia); unfold WithSign in *; destruct neg; lia];
    unfold IsDecimal in HI; destruct (decide (slen fp <= x)) as [Hfx|Hfx];
    [rewrite (Z.max_l 0 (- _)), (Z.max_r 0) in HI by lia; rewrite Z.pow_0_r, Z.mul_1_r in HI; rewrite HI, Z.pow_add_r by lia;
       assert ((10 : Z) ^ x = 10 ^ slen fp * 10 ^ (x - slen fp)) as -> by (rewrite <- Z.pow_add_r by lia; f_equal; lia);
       assert (0 < 10 ^ (x - slen fp)) by (apply Z.pow_pos_nonneg; lia); assert (0 < 10 ^ slen fp) by (by apply Z.pow_pos_nonneg); nia
    |rewrite (Z.max_r 0 (- _)), (Z.max_l 0) in HI by lia; rewrite Z.pow_0_r, Z.mul_1_r in HI;
       assert (0 < 10 ^ (- (x - slen fp))) by (apply Z.pow_pos_nonneg; lia);
       apply (Z.mul_le_mono_pos_r _ _ (10 ^ (- (x - slen fp)))); [done|]; rewrite HI, Z.pow_add_r by lia;
       assert ((10 : Z) ^ slen fp = 10 ^ x * 10 ^ (- (x - slen fp))) as -> by (rewrite <- Z.pow_add_r by lia; f_equal; lia);
       assert (0 < 10 ^ x) by (by apply Z.pow_pos_nonneg); nia].
  all: rewrite HD; destruct (fits32 x) eqn:Ex; cbn [mbind option_bind];
    [apply fits32_iff in Ex|apply not_true_iff_false in Ex; rewrite fits32_iff in Ex; split; [done|naive_solver]].
  all: split;
    [destruct (int_digits ip' fp x) as [es|] eqn:Ei; [|done]; cbn [mbind option_bind]; change (signed neg (value 0 es)) with (WithSign neg (value 0 es));
      destruct (fits32 (WithSign neg (value 0 es))) eqn:Ez; [|done]; intros [= <-]; apply fits32_iff in Ez; rewrite withsign_invol;
      destruct (HS (value 0 es)) as [HS1 _]; destruct HS1 as [G1 G2]; [by exists es|]; split; [done|]; split; [done|]; right; split; [done|];
      intros E0; apply H0 in E0; unfold slen in G2 at 1; rewrite E0 in G2; cbn in G2; lia
    |intros (HI & HF & [? |[_ Hx]]); [done|]; destruct (HS (WithSign neg z)) as [_ HS2]; destruct HS2 as (es & -> & Hes);
      [split; [done|]; intros Hx0; destruct (decide (ip' = "")) as [E|E]; [unfold slen; rewrite E; cbn; apply H0 in E; by apply Hx in E|by apply H20]
      |cbn [mbind option_bind]; change (signed neg (value 0 es)) with (WithSign neg (value 0 es)); rewrite Hes, withsign_invol;
       apply fits32_iff in HF; by rewrite HF]].
Qed.
