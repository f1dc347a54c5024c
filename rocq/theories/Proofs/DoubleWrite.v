(** Lemmas for C144: writing doubles in JSON. *)
From Coq Require Import Ascii String ZArith NArith Lia.
From stdpp Require Import prelude strings.
From Verif.Model Require Import GoStrings Types Calendar JsonNumber.
From Verif.Spec Require Import CalendarSpec HttpSpec JsonSpec JsonTextSpec JsonBytesSpec NumberSpec.
From Verif.Proofs Require Import StringLemmas CalendarText CalendarWrite CalendarStamp DoubleBits DoubleShort NumberScan NumberInt NumberRead DoubleRead.
Local Open Scope string_scope.
Local Open Scope Z_scope.
Local Arguments String.append _ _ : simpl nomatch.

(** ** Scaling *)
Lemma rounds_same n d n' d' b : 0 < d → 0 < d' → n * d' = n' * d → Rounds n d b → Rounds n' d' b.
Proof. intros Hd Hd' E H. apply (rounds_between n' d' b n d n d); [done|done|done|done|done|lia|lia]. Qed.
Lemma dec_scale m e j : 0 <= m → 0 <= j → dec_bits (m * 10 ^ j) (e - j) = dec_bits m e.
Proof.
  intros Hm Hj. pose proof (pow10_pos j Hj). apply dec_iff; [nia|]. pose proof (eq_refl (dec_bits m e)) as H1. apply dec_iff in H1; [|done].
  eapply rounds_same; [apply dn_pos|apply dn_pos| |exact H1]. pose proof (scale (e - j) j Hj) as E. replace (e - j + j) with e in E by lia.
  transitivity (m * (up e * dn (e - j))); [ring|rewrite E; ring].
Qed.
Lemma dec_small m e L : 0 < dec_bits m e → 0 <= m < 10 ^ L → 0 <= L → -400 < L + e.
Proof. intros Hb Hm HL. destruct (decide (-400 < L + e)) as [|H]; [done|]. rewrite (far_small m L e Hm HL) in Hb; lia. Qed.
Lemma dec_big m e L : dec_bits m e < inf_bits → 10 ^ L <= m → 0 <= L → L + e < 400.
Proof.
  intros Hb Hm HL. destruct (decide (L + e < 400)) as [|H]; [done|]. exfalso.
  pose proof (pow10_pos L HL) as HP.
  pose proof (far_big 1 (L + e) ltac:(lia) ltac:(lia)) as H1. rewrite <- (dec_scale 1 (L + e) L) in H1 by lia. replace (L + e - L) with e in H1 by lia.
  rewrite Z.mul_1_l in H1. pose proof (eq_refl (dec_bits (10 ^ L) e)) as R1. pose proof (eq_refl (dec_bits m e)) as R2.
  apply dec_iff in R1; [|lia]. apply dec_iff in R2; [|lia]. pose proof (up_pos e). pose proof (dn_pos e).
  set (b := dec_bits m e) in *. set (c := dec_bits (10 ^ L) e) in *. destruct R1 as (_ & R1 & _), R2 as (? & _ & R2).
  destruct R1 as [|R1]; [change inf_bits with (2047 * p52) in *; pose proof p52_pos; lia|].
  assert ((mag (c - 1) + mag c) * dn e <= 2 * (10 ^ L * up e)) as Q1 by lia. assert (2 * (m * up e) <= (mag b + mag (b + 1)) * dn e) as Q2 by lia.
  assert (10 ^ L * up e <= m * up e) as Q3 by nia.
  pose proof (mag_le b (c - 1) ltac:(lia) ltac:(lia)). pose proof (mag_le (b + 1) c ltac:(lia) ltac:(lia)). pose proof (mag_next b ltac:(lia)) as Q4.
  assert ((mag b + mag (b + 1)) * dn e <= (mag (c - 1) + mag c) * dn e) by nia.
  (* then all are equal, but b is below c *)
  assert (mag (b + 1) = mag c) as E1 by nia. assert (mag b = mag (c - 1)) as E2 by nia.
  assert (c = b + 1) as Ec. { destruct (Z.lt_trichotomy c (b + 1)) as [?|[?|?]]; [lia|done|]. pose proof (mag_lt (b + 1) c ltac:(lia) ltac:(lia)). lia. }
  destruct R1 as [R1|[_ R1]]; [lia|]. destruct R2 as [R2|[_ R2]]; [lia|]. rewrite Ec, Z.even_add, R2 in R1. done.
Qed.

Lemma rounds_mono n1 d1 b1 n2 d2 b2 : 0 < d1 → 0 < d2 → n1 * d2 <= n2 * d1 → Rounds n1 d1 b1 → Rounds n2 d2 b2 → b1 <= b2.
Proof.
  intros Hd1 Hd2 Hle R1 R2. destruct (Z.le_gt_cases b1 b2) as [|Hlt]; [done|]. exfalso.
  destruct R2 as (Hb2 & _ & R2). destruct R1 as (Hb1 & [|R1] & _); [lia|].
  pose proof (mag_le b2 (b1 - 1) ltac:(lia) ltac:(lia)) as M1. pose proof (mag_le (b2 + 1) b1 ltac:(lia) ltac:(lia)) as M2.
  assert ((mag (b1 - 1) + mag b1) * d1 <= 2 * n1) as Q1 by lia. assert (2 * n2 <= (mag b2 + mag (b2 + 1)) * d2) as Q2 by lia.
  assert ((mag (b1 - 1) + mag b1) * d1 * d2 <= 2 * n1 * d2) as Q3 by nia. assert (2 * n2 * d1 <= (mag b2 + mag (b2 + 1)) * d2 * d1) as Q4 by nia.
  pose proof (mag_next b2 Hb2) as M3. pose proof (mag_next (b1 - 1) ltac:(lia)) as M4. replace (b1 - 1 + 1) with b1 in M4 by lia.
  assert (0 < d1 * d2) as Hdd by nia.
  assert (mag (b1 - 1) + mag b1 <= mag b2 + mag (b2 + 1)) as Q5 by (apply (Z.mul_le_mono_pos_r _ _ (d1 * d2)); [done|]; lia).
  assert (b1 = b2 + 1) as E1. { destruct (Z.lt_trichotomy b1 (b2 + 1)) as [?|[?|?]]; [lia|done|]. pose proof (mag_lt (b2 + 1) b1 ltac:(lia) ltac:(lia)). lia. }
  subst b1. replace (b2 + 1 - 1) with b2 in * by lia.
  set (S := mag b2 + mag (b2 + 1)) in *. assert (S * d1 * d2 <= S * d2 * d1) as Q6 by lia.
  destruct R1 as [R1|[_ R1]].
  { assert (S * d1 * d2 < 2 * n1 * d2) by (by apply Z.mul_lt_mono_pos_r). lia. }
  destruct R2 as [R2|[_ R2]].
  { assert (2 * n2 * d1 < S * d2 * d1) by (by apply Z.mul_lt_mono_pos_r). lia. }
  rewrite Z.even_add, R2 in R1. done.
Qed.

(** ** Texts *)
Lemma substring_take a b : String.substring 0 (String.length a) (a +:+ b) = a.
Proof. apply substring_app. Qed.
Lemma split_at ds n : (n <= String.length ds)%nat → ∃ a b, ds = a +:+ b ∧ String.length a = n.
Proof. intros H. exists (stake n ds), (sdrop n ds). split; [by rewrite stake_sdrop|by apply stake_length]. Qed.
Lemma take_drop a b : String.substring 0 (String.length a) (a +:+ b) = a ∧
  String.substring (String.length a) (String.length (a +:+ b)) (a +:+ b) = b.
Proof. split; [apply substring_app|]. apply substring_drop. rewrite app_length_s. lia. Qed.

Definition Head (ds : string) : Prop := all_digits ds = true ∧ ∃ c r, ds = String c r ∧ c ≠ "0"%char.
Lemma head_first ds a b : Head ds → ds = a +:+ b → a ≠ "" → first_nonzero a ∧ Head a.
Proof.
  intros [Hd (c & r & E & Hc)] -> Ha. rewrite all_digits_app in Hd. apply andb_true_iff in Hd as [Hd _].
  destruct a as [|x a]; [done|]. cbn in E. injection E as -> _. split; [|split; [done|by exists c, a]]. right. split; [done|]. split; [done|]. by intros r' [= -> _].
Qed.
Lemma format_head m : 0 < m → Head (format_Z m) ∧ value 0 (format_Z m) = m.
Proof.
  intros Hm. rewrite format_Z_nonneg by lia. destruct (format_first (Z.to_N m)) as (H1 & H2 & H3). split; [|lia].
  destruct H1 as [H1|(Hd & Hne & Hz)]; [by destruct (H3 ltac:(lia))|]. split; [done|]. destruct (format_N (Z.to_N m)) as [|c r]; [done|].
  exists c, r. split; [done|]. intros ->. by apply (Hz r).
Qed.
Lemma digits_frac ds : all_digits ds = true → ds ≠ "" → FracPart (String "." ds) ds.
Proof. intros H1 H2. destruct (num_digits ds) as [_ (w & n & H)]; [done|]. by apply (FP_some w n). Qed.

Lemma fixed_text neg sg ds e : SignText sg neg → Head ds →
  ∃ ip fr, NumberText (sg +:+ fixed ds e) neg ip fr 0 ∧ value 0 (ip +:+ fr) = value 0 ds * 10 ^ Z.max 0 e ∧
    Places fr 0 = Z.min 0 e ∧ (fr = "" ∨ ∃ a, ds = a +:+ fr ∨ ∃ z, fr = zeros z +:+ ds) ∧
    (e < 0 → fr ≠ "").
Proof.
  intros Hs Hds. pose proof Hds as [Hd (c & r & E & Hc)]. unfold fixed. cbn zeta. destruct (Z.leb_spec 0 e) as [He|He].
  - destruct (zeros_spec (Z.to_nat e)) as (Z1 & Z2 & Z3). exists (ds +:+ zeros (Z.to_nat e)), "". split_and!.
    + pose proof (NT sg neg (ds +:+ zeros (Z.to_nat e)) "" "" "" 0 Hs) as H. rewrite !app_nil_r_s in H. apply H; [|constructor|constructor].
      apply int_text_iff. right. split; [by rewrite all_digits_app, Hd, Z1|]. rewrite E. split; [done|]. by intros r' [= -> _].
    + rewrite app_nil_r_s, value_cat, Z2, Z3, Z2Nat.id, Z.max_r by lia. lia.
    + unfold Places. cbn. lia.
    + by left.
    + lia.
  - destruct (Z.ltb_spec 0 (slen ds + e)) as [H1|H1].
    + destruct (split_at ds (Z.to_nat (slen ds + e))) as (a & b & Eab & Ha); [unfold slen in *; lia|]. rewrite <- Ha, Eab. destruct (take_drop a b) as [-> ->].
      assert (a ≠ "") as Hna by (intros ->; change (String.length "") with 0%nat in Ha; lia). destruct (head_first ds a b Hds Eab Hna) as [Hf _].
      assert (slen b = - e) as Hb by (rewrite Eab, slen_app in *; unfold slen in *; lia).
      assert (b ≠ "") as Hnb by (intros ->; change (slen "") with 0 in Hb; lia).
      assert (all_digits b = true) as Hdb by (rewrite Eab, all_digits_app in Hd; by apply andb_true_iff in Hd as [_ ?]).
      exists a, b. split_and!.
      * pose proof (NT sg neg a (String "." b) b "" 0 Hs) as H. rewrite !app_nil_r_s in H.
        apply H; [by apply int_text_iff|by apply digits_frac|constructor].
      * rewrite Z.max_l, Z.pow_0_r, Z.mul_1_r by lia. done.
      * unfold Places. change (Z.of_nat (String.length b)) with (slen b). lia.
      * right. exists a. by left.
      * done.
    + destruct (zeros_spec (Z.to_nat (- (slen ds + e)))) as (Z1 & Z2 & Z3). set (z := zeros _) in *.
      assert (all_digits (z +:+ ds) = true) as Hzd by (by rewrite all_digits_app, Z1, Hd).
      assert (z +:+ ds ≠ "") as Hnz by (rewrite E; by destruct z).
      exists "0", (z +:+ ds). split_and!.
      * pose proof (NT sg neg "0" (String "." (z +:+ ds)) (z +:+ ds) "" 0 Hs) as H. rewrite !app_nil_r_s in H.
        apply H; [by left|by apply digits_frac|constructor].
      * rewrite value_cat, value_cat, Z2, Z.max_l, Z.pow_0_r by lia. change (value 0 "0") with 0. lia.
      * unfold Places. change (Z.of_nat (String.length (z +:+ ds))) with (slen (z +:+ ds)). rewrite slen_app, Z3, Z2Nat.id by lia. lia.
      * right. exists "". right. by eexists.
      * done.
Qed.

(** [clean_exp] *)
Lemma clean_cases s : clean_exp s = s ∨ ∃ a c, s = a +:+ "e-0" +:+ String c "" ∧ clean_exp s = a +:+ "e-" +:+ String c "".
Proof.
  unfold clean_exp. cbn zeta. destruct (Nat.leb_spec 4 (String.length s)) as [H4|H4]; cbn [andb]; [|by left].
  destruct (split_at s (String.length s - 4)) as (a & b & E & Ha); [lia|].
  assert (String.length b = 4%nat) as Hb by (rewrite E, app_length_s in *; lia).
  destruct b as [|b1 [|b2 [|b3 [|b4 [|b5 b]]]]]; try done.
  assert (String.substring (String.length s - 4) 3 s = String b1 (String b2 (String b3 ""))) as ->.
  { rewrite <- Ha, E. clear. induction a as [|x a IH]; [done|exact IH]. }
  destruct (String.eqb_spec (String b1 (String b2 (String b3 ""))) "e-0") as [E0|E0]; [|by left]. injection E0 as -> -> ->. right.
  exists a, b4. split; [exact E|].
  assert (String.substring 0 (String.length s - 2) s = a +:+ "e-") as ->.
  { replace (String.length s - 2)%nat with (String.length (a +:+ "e-")) by (rewrite app_length_s; cbn; lia).
    rewrite E. change (String "e" (String "-" (String "0" (String b4 "")))) with ("e-" +:+ String "0" (String b4 "")). rewrite <- app_assoc_s. apply substring_app. }
  assert (String.substring (String.length s - 1) 1 s = String b4 "") as ->.
  { replace (String.length s - 1)%nat with (String.length (a +:+ "e-0")) by (rewrite app_length_s; cbn; lia).
    rewrite E. change (String "e" (String "-" (String "0" (String b4 "")))) with ("e-0" +:+ String b4 ""). rewrite <- app_assoc_s. apply substring_drop. cbn. lia. }
  by rewrite app_assoc_s.
Qed.
Fixpoint has_e (s : string) : bool := match s with String c r => Ascii.eqb c "e" || has_e r | "" => false end.
Lemma has_e_app a b : has_e (a +:+ b) = has_e a || has_e b.
Proof. induction a as [|c a IH]; [done|]. cbn. by rewrite IH, orb_assoc. Qed.
Lemma only_e a r a' r' : has_e a = false → has_e r = false → a +:+ String "e" r = a' +:+ String "e" r' → a = a' ∧ r = r'.
Proof.
  revert a'. induction a as [|x a IH]; intros a' Ha Hr E.
  - destruct a' as [|y a']; [by injection E as ->|]. cbn in E. injection E as <- E. rewrite E, has_e_app in Hr. cbn in Hr. by rewrite orb_true_r in Hr.
  - destruct a' as [|y a']; [cbn in E; injection E as -> _; done|]. cbn in E. injection E as <- E. cbn in Ha. apply orb_false_iff in Ha as [_ Ha].
    destruct (IH a' Ha Hr E) as [-> ->]. done.
Qed.
Lemma digits_no_e ds : all_digits ds = true → has_e ds = false.
Proof.
  induction ds as [|c ds IH]; [done|]. cbn. rewrite andb_true_iff. intros [Hc Hd]. rewrite (IH Hd), orb_false_r. apply Ascii.eqb_neq. by intros ->.
Qed.

Lemma head_length ds : Head ds → 10 ^ (slen ds - 1) <= value 0 ds < 10 ^ slen ds ∧ 1 <= slen ds.
Proof.
  intros [Hd (c & r & E & Hc)]. pose proof (value_bound ds Hd). rewrite E in *. pose proof (value_lower c r Hd Hc) as H1.
  assert (slen (String c r) = slen r + 1) as E1 by (unfold slen; cbn [String.length]; lia). pose proof (slen_nonneg r). split; [|lia].
  split; [|lia]. rewrite E1. replace (slen r + 1 - 1) with (slen r) by lia. done.
Qed.

Lemma scientific_text neg sg ds e : SignText sg neg → Head ds →
  ∃ ip fr x, NumberText (sg +:+ clean_exp (scientific ds e)) neg ip fr x ∧ ip +:+ fr = ds ∧ String.length ip = 1%nat ∧
    Places fr x = e ∧ x = e + slen ds - 1 ∧
    (x < 0 ∨ 10 <= x → ∃ a es, sg +:+ clean_exp (scientific ds e) = a +:+ "e" +:+ (if x <? 0 then "-" else "+") +:+ es ∧ ∀ r, es ≠ String "0" r).
Proof.
  intros Hs Hds. pose proof Hds as [Hd (c & r & E & Hc)]. unfold scientific. cbn zeta. set (x := e + slen ds - 1).
  assert (Head (String c "")) as Hh by (apply (head_first ds (String c "") r Hds E); done).
  assert (first_nonzero (String c "")) as Hf by (apply (head_first ds (String c "") r Hds E); done).
  assert (all_digits r = true) as Hr by (rewrite E in Hd; cbn in Hd; by apply andb_true_iff in Hd as [_ ?]).
  assert (String.substring 0 1 ds = String c "") as -> by (rewrite E; by destruct r).
  assert (∃ fp, (if (1 <? String.length ds)%nat then "." +:+ String.substring 1 (String.length ds) ds else "") = fp ∧ FracPart fp r ∧ has_e fp = false) as (fp & -> & Hfp & Hfe).
  { rewrite E. cbn [String.length]. destruct (Nat.ltb_spec 1 (S (String.length r))) as [H1|H1].
    - assert (String.substring 1 (S (String.length r)) (String c r) = r) as -> by (cbn; apply substring_all; lia).
      exists (String "." r). split; [done|]. split; [apply digits_frac; [done|by intros ->; cbn in H1; lia]|]. cbn. by rewrite digits_no_e.
    - exists "". destruct r; [split; [done|split; [constructor|done]]|cbn in H1; lia]. }
  set (D := (if Z.abs x <? 10 then "0" else "") +:+ format_Z (Z.abs x)).
  assert (all_digits D = true ∧ D ≠ "" ∧ value 0 D = Z.abs x) as (D1 & D2 & D3).
  { assert (all_digits (format_Z (Z.abs x)) = true ∧ value 0 (format_Z (Z.abs x)) = Z.abs x) as [F1 F2].
    { rewrite format_Z_nonneg by lia. destruct (format_first (Z.to_N (Z.abs x))) as (_ & H & _). split; [apply format_N_digits|lia]. }
    assert (format_Z (Z.abs x) ≠ "") as F3 by (rewrite format_Z_nonneg by lia; apply format_N_nonempty).
    unfold D. destruct (Z.abs x <? 10); [|done]. split; [cbn; by rewrite F1|]. split; [done|]. rewrite value_cat. change (value 0 "0") with 0. lia. }
  set (sx := if x <? 0 then "-" else "+").
  assert (∀ D', all_digits D' = true → D' ≠ "" → value 0 D' = Z.abs x → ExpText (String "e" (sx +:+ D')) x) as HE.
  { intros D' E1 E2 E3. destruct (num_digits D') as [_ (w & n & Hn)]; [done|]. pose proof Hn as (_ & _ & Hv)%num_iff. rewrite E3 in Hv.
    unfold sx. destruct (Z.ltb_spec x 0).
    - pose proof (ET_minus "e" w n D' ltac:(by left) Hn) as HX. replace (- n) with x in HX by lia. exact HX.
    - pose proof (ET_plus "e" "+" w n D' ltac:(by left) ltac:(by right) Hn) as HX. replace n with x in HX by lia. exact HX. }
  enough (NumberText (sg +:+ clean_exp (String c "" +:+ fp +:+ "e" +:+ sx +:+ D)) neg (String c "") r x ∧
    (x < 0 ∨ 10 <= x → ∃ a es, sg +:+ clean_exp (String c "" +:+ fp +:+ "e" +:+ sx +:+ D) = a +:+ "e" +:+ sx +:+ es ∧ ∀ q, es ≠ String "0" q)) as [HN1 HN2].
  { exists (String c ""), r, x. split_and!; [exact HN1|by rewrite E|done| |done|exact HN2].
    unfold Places, x. assert (slen ds = Z.of_nat (String.length r) + 1) by (rewrite E; unfold slen; cbn [String.length]; lia). lia. }
  - set (A := String c "" +:+ fp). change ("e" +:+ sx +:+ D) with (String "e" (sx +:+ D)).
    replace (String c "" +:+ fp +:+ String "e" (sx +:+ D)) with (A +:+ String "e" (sx +:+ D)) by (unfold A; by rewrite app_assoc_s).
    assert (has_e A = false) as HA.
    { unfold A. rewrite has_e_app, Hfe, orb_false_r. apply digits_no_e. apply Hh. }
    assert (has_e (sx +:+ D) = false) as HD by (rewrite has_e_app, (digits_no_e D) by done; unfold sx; by destruct (x <? 0)).
    assert (∀ D', all_digits D' = true → D' ≠ "" → value 0 D' = Z.abs x → NumberText (sg +:+ A +:+ String "e" (sx +:+ D')) neg (String c "") r x) as HN.
    { intros D' E1 E2 E3. unfold A. rewrite (app_assoc_s (String c "")). constructor; [done|by apply int_text_iff|done|by apply HE]. }
    assert (∀ q, D = String "0" q → Z.abs x < 10 ∧ q = format_Z (Z.abs x)) as H0.
    { intros q ED. unfold D in ED. destruct (Z.ltb_spec (Z.abs x) 10) as [Hlt|Hge]; [cbn in ED; by injection ED as <-|]. exfalso. cbn in ED.
      destruct (format_head (Z.abs x) ltac:(lia)) as [[_ (y & r' & E' & Hy)] _]. rewrite ED in E'. by injection E' as <- _. }
    destruct (clean_cases (A +:+ String "e" (sx +:+ D))) as [Ec|(a & y & Ea & ->)].
    + split; [rewrite Ec; by apply HN|]. intros Hx. rewrite Ec. exists (sg +:+ A), D. split; [by rewrite app_assoc_s|]. intros q ED.
      destruct (H0 q ED) as [Hlt Eq]. assert (x < 0) as Hneg by lia.
      assert (sx = "-") as Esx by (unfold sx; destruct (Z.ltb_spec x 0); [done|lia]).
      assert (∃ y, q = String y "") as (y & ->).
      { pose proof (format_head (Z.abs x) ltac:(lia)) as [Hh' Hv']. pose proof (head_length _ Hh') as [[L1 L2] L3]. rewrite Hv' in L1.
        clear L2 Hv' Hh'. rewrite <- Eq in L1, L3. clear ED. destruct q as [|y [|y' q]]; [change (slen "") with 0 in L3; lia|by exists y|]. exfalso.
        assert (10 ^ 1 <= 10 ^ (slen (String y (String y' q)) - 1)) by (apply Z.pow_le_mono_r; [lia|unfold slen; cbn [String.length]; lia]). lia. }
      rewrite ED, Esx in Ec. exfalso. revert Ec. clear. unfold clean_exp. cbn zeta.
      change (String "e" ("-" +:+ String "0" (String y ""))) with ("e-0" +:+ String y "").
      assert (String.length (A +:+ "e-0" +:+ String y "") = String.length A + 4)%nat as El by (rewrite !app_length_s; done).
      rewrite El. destruct (Nat.leb_spec 4 (String.length A + 4)); [|lia]. cbn [andb].
      assert (String.substring (String.length A + 4 - 4) 3 (A +:+ "e-0" +:+ String y "") = "e-0") as ->.
      { replace (String.length A + 4 - 4)%nat with (String.length A) by lia. generalize A. intros B. induction B as [|z B IH]; [done|exact IH]. }
      rewrite String.eqb_refl. intros E. apply (f_equal String.length) in E. rewrite El in E.
      rewrite app_length_s in E.
      assert (String.substring 0 (String.length A + 4 - 2) (A +:+ "e-0" +:+ String y "") = A +:+ "e-") as E1.
      { replace (String.length A + 4 - 2)%nat with (String.length (A +:+ "e-")) by (rewrite app_length_s; cbn; lia).
        change ("e-0" +:+ String y "") with ("e-" +:+ String "0" (String y "")). rewrite <- app_assoc_s. apply substring_app. }
      rewrite E1, app_length_s in E.
      assert (String.substring (String.length A + 4 - 1) 1 (A +:+ "e-0" +:+ String y "") = String y "") as E2.
      { replace (String.length A + 4 - 1)%nat with (String.length (A +:+ "e-0")) by (rewrite app_length_s; cbn; lia).
        rewrite <- app_assoc_s. apply substring_drop. cbn. lia. }
      rewrite E2 in E. cbn in E. lia.
    + change ("e-0" +:+ String y "") with (String "e" ("-0" +:+ String y "")) in Ea. destruct (only_e _ _ _ _ HA HD Ea) as [<- E2].
      assert (sx = "-" ∧ D = String "0" (String y "")) as [Esx ED].
      { unfold sx in *. destruct (x <? 0); [by injection E2 as ->|done]. }
      change ("e-" +:+ String y "") with (String "e" ("-" +:+ String y "")). rewrite <- Esx. split.
      * apply HN; [|done|]; [rewrite ED in D1; cbn in D1 |- *; exact D1|rewrite <- D3, ED; done].
      * intros Hx. exists (sg +:+ A), (String y ""). split; [by rewrite app_assoc_s|]. intros q [= Ey _].
        destruct (H0 _ ED) as [_ Eq]. destruct (format_head (Z.abs x)) as [[_ (y' & r' & E' & Hy)] _].
        { destruct Hx as [Hx|Hx]; [lia|]. unfold sx in Esx. destruct (Z.ltb_spec x 0); [lia|done]. }
        rewrite <- Eq in E'. by injection E' as <- _.
Qed.

(** ** What is written *)
Definition small_or_big (b : Z) : bool := (b <? dec_bits 1 (-6)) || (dec_bits 1 21 <=? b).
Lemma sign_text x : SignText (if f64_sign x then "-" else "") (f64_sign x).
Proof. destruct (f64_sign x); constructor. Qed.
Lemma written_zero x : low x = 0 → NumberText (json_double x) (f64_sign x) "0" "" 0.
Proof.
  intros H. unfold json_double. cbn zeta. fold (low x). rewrite H. change (0 =? 0) with true. cbv iota.
  pose proof (NT _ _ "0" "" "" "" 0 (sign_text x) ltac:(by left) ltac:(constructor) ltac:(constructor)) as HN. by rewrite !app_nil_r_s in HN.
Qed.
Lemma dec_mono m1 k1 m2 k2 : 0 <= m1 → 0 <= m2 → m1 * up k1 * dn k2 <= m2 * up k2 * dn k1 → dec_bits m1 k1 <= dec_bits m2 k2.
Proof.
  intros H1 H2 Hle. pose proof (eq_refl (dec_bits m1 k1)) as R1. pose proof (eq_refl (dec_bits m2 k2)) as R2.
  apply dec_iff in R1; [|done]. apply dec_iff in R2; [|done]. exact (rounds_mono _ _ _ _ _ _ (dn_pos k1) (dn_pos k2) Hle R1 R2).
Qed.
Lemma up_dn a b j : 0 <= j → a = b + j → up a * dn b = 10 ^ j * (up b * dn a).
Proof. intros Hj ->. rewrite (scale b j Hj). ring. Qed.
Lemma ten_le a m e L : 10 ^ L <= m → 0 <= L → a <= e + L → 1 * up a * dn e <= m * up e * dn a.
Proof.
  intros Hm HL Ha. pose proof (up_pos a). pose proof (up_pos e). pose proof (dn_pos a). pose proof (dn_pos e). rewrite Z.mul_1_l.
  assert (0 < up e * dn a) by nia. destruct (Z.le_gt_cases e a) as [Hle|Hgt].
  - rewrite (up_dn a e (a - e)) by lia. assert (10 ^ (a - e) <= 10 ^ L) by (apply Z.pow_le_mono_r; lia). nia.
  - assert (up e * dn a = 10 ^ (e - a) * (up a * dn e)) as E by (apply up_dn; lia). rewrite <- Z.mul_assoc, E.
    assert (0 < 10 ^ L) by (by apply Z.pow_pos_nonneg). assert (0 < 10 ^ (e - a)) by (apply Z.pow_pos_nonneg; lia). assert (0 < up a * dn e) by nia. 
    assert (1 <= m * 10 ^ (e - a)) by nia. nia.
Qed.
Lemma ten_ge a m e L : 0 <= m < 10 ^ L → 0 <= L → e + L <= a → m * up e * dn a <= 1 * up a * dn e.
Proof.
  intros Hm HL Ha. pose proof (up_pos a). pose proof (up_pos e). pose proof (dn_pos a). pose proof (dn_pos e). rewrite Z.mul_1_l.
  assert (0 < up e * dn a) by nia. rewrite (up_dn a e (a - e)) by lia.
  assert (10 ^ L <= 10 ^ (a - e)) by (apply Z.pow_le_mono_r; lia). nia.
Qed.
Lemma written_number x : 0 < low x < inf_bits → ∃ ip fr ex m k j,
  NumberText (json_double x) (f64_sign x) ip fr ex ∧ Z.abs ex < 500 ∧
  0 < m ∧ 0 <= j ∧ value 0 (ip +:+ fr) = m * 10 ^ j ∧ Places fr ex = k - j ∧
  (if small_or_big (low x) then String.length ip = 1%nat ∧ j = 0 ∧
     (∃ a es, json_double x = a +:+ "e" +:+ (if ex <? 0 then "-" else "+") +:+ es ∧ ∀ r, es ≠ String "0" r) else ex = 0 ∧ j = Z.max 0 k) ∧
  (j ≠ 0 → fr = "") ∧
  shortest_decimal (low x) = (m, k).
Proof.
  intros Hb. destruct (shortest_decimal_spec (low x) Hb) as (m & e & Es & Hm & Hdec & _).
  destruct (format_head m Hm) as [Hh Hv]. pose proof (head_length _ Hh) as [[HL1 HL2] HL3]. rewrite Hv in HL1, HL2.
  unfold json_double. cbn zeta. fold (low x). destruct (Z.eqb_spec (low x) 0); [lia|]. rewrite Es. fold (small_or_big (low x)).
  destruct (small_or_big (low x)) eqn:Esb.
  - destruct (scientific_text _ _ _ e (sign_text x) Hh) as (ip & fr & ex & HN & H1 & H2 & H3 & H4 & H5).
    assert (ex < 0 ∨ 10 <= ex) as Hex.
    { apply orb_true_iff in Esb as [Esb|Esb].
      - apply Z.ltb_lt in Esb. left. destruct (Z.lt_ge_cases ex 0) as [|Hge]; [done|]. exfalso.
        assert (dec_bits 1 (-6) <= low x); [|lia]. rewrite <- Hdec. apply (dec_mono 1 (-6) m e); [lia|lia|].
        apply (ten_le (-6) m e (slen (format_Z m) - 1)); [done|lia|lia].
      - apply Z.leb_le in Esb. right. destruct (Z.le_gt_cases 10 ex) as [|Hlt]; [done|]. exfalso.
        assert (low x <= dec_bits 1 20). { rewrite <- Hdec. apply dec_mono; [lia|lia|]. apply (ten_ge 20 m e (slen (format_Z m))); [lia|lia|lia]. }
        assert (dec_bits 1 20 < dec_bits 1 21) by (vm_compute; reflexivity). lia. }
    exists ip, fr, ex, m, e, 0. split; [exact HN|].
    assert (-400 < slen (format_Z m) + e) by (apply (dec_small m); [rewrite Hdec; lia|lia|lia]).
    assert (slen (format_Z m) - 1 + e < 400) by (apply (dec_big m); [rewrite Hdec; lia|done|lia]).
    split_and!; [lia|done|lia|rewrite H1, Hv; lia|lia|done|done|exact (H5 Hex)|done|done].
  - destruct (fixed_text _ _ _ e (sign_text x) Hh) as (ip & fr & HN & H1 & H2 & H3 & H4).
    exists ip, fr, 0, m, e, (Z.max 0 e). split; [exact HN|]. split_and!; [done|done|lia|by rewrite H1, Hv|lia|done|done| |done].
    intros Hj. unfold Places in H2. destruct fr; [done|]. cbn [String.length] in H2. lia.
Qed.
Lemma written_read x z : (x < 2 ^ 64)%N → f64_val x = FFin z → read_double (json_double x) = Some x.
Proof.
  intros Hx Hz. apply finite_iff in Hz as [Hi _]. pose proof (low_bound x) as Hl. destruct (decide (low x = 0)) as [E0|E0].
  - rewrite (read_dbl _ _ _ _ _ (written_zero x E0)) by (left; done). unfold dbl. cbn zeta. change (value 0 ("0" +:+ "")) with 0. change (Places "" 0) with 0.
    assert (dec_bits 0 0 = 0) as -> by (apply dec_iff; [lia|]; apply rounds_zero; [apply dn_pos|lia|pose proof (dn_pos 0); lia]).
    change (0 <? inf_bits) with true. cbv iota. rewrite <- E0, with_low_of by done. done.
  - destruct (written_number x ltac:(lia)) as (ip & fr & ex & m & k & j & HN & Hex & Hm & Hj & Hv & Hp & _ & _ & Hs).
    rewrite (read_dbl _ _ _ _ _ HN) by (left; lia). rewrite Hv, Hp. unfold dbl. cbn zeta. rewrite dec_scale by lia.
    destruct (shortest_decimal_spec (low x) ltac:(lia)) as (m' & e' & Es & _ & Hdec & _). rewrite Hs in Es. injection Es as <- <-. rewrite Hdec.
    destruct (Z.ltb_spec (low x) inf_bits); [|lia]. by rewrite with_low_of.
Qed.
