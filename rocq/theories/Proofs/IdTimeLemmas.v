(** Lemmas for C94. *)
From Coq Require Import Ascii String ZArith NArith Lia.
From stdpp Require Import prelude strings.
From Verif.Model Require Import GoStrings ParseBase0.
From Verif.Spec Require Import IdTimeSpec.
From Verif.Proofs Require Import StringLemmas WatchLemmas.
Local Open Scope string_scope.
Local Open Scope N_scope.

Lemma digit_cases c v : DigitVal c v → v < 16 →
  c = ascii_of_N (48 + v) ∧ v <= 9 ∨ c = ascii_of_N (87 + v) ∧ 10 <= v ∨ c = ascii_of_N (55 + v) ∧ 10 <= v.
Proof.
  intros [[H1 H2]|[H1 [H2|H2]]] _; [left|right; left|right; right]; (split; [|exact H1]);
    rewrite <-H2; symmetry; apply ascii_N_embedding.
Qed.

Lemma digit_any_val c v : DigitVal c v → v < 16 → digit_any c = Some v ∧ Ascii.eqb c "_" = false ∧
  Ascii.eqb c "-" = false ∧ (v <= 9 → is_digit c = true ∧ digit_val c = v).
Proof.
  intros Hd Hv. pose proof (digit_cases c v Hd Hv) as Hc. clear Hd.
  assert (v = 0 ∨ v = 1 ∨ v = 2 ∨ v = 3 ∨ v = 4 ∨ v = 5 ∨ v = 6 ∨ v = 7 ∨ v = 8 ∨ v = 9 ∨ v = 10 ∨ v = 11 ∨
          v = 12 ∨ v = 13 ∨ v = 14 ∨ v = 15) as Hcase by lia.
  destruct Hc as [[-> Hc]|[[-> Hc]|[-> Hc]]];
    repeat (destruct Hcase as [Hcase|Hcase]; [subst v|]); try subst v;
    try (exfalso; lia);
    (split; [reflexivity|]; split; [reflexivity|]; split; [reflexivity|]; intros H9;
      first [exfalso; lia|split; reflexivity]).
Qed.

Lemma parse_digits_app b s1 s2 : ∀ acc, parse_digits b acc (s1 +:+ s2) =
  match parse_digits b acc s1 with PRok m => parse_digits b m s2 | r => r end.
Proof.
  induction s1 as [|c s1 IH]; intros acc; [reflexivity|]. cbn [String.append].
  change (String c s1 +:+ s2) with (String c (s1 +:+ s2)). cbn [parse_digits].
  destruct (Ascii.eqb c "_"); [apply IH|].
  destruct (digit_any c) as [d|]; [|done]. destruct (b <=? d); [done|].
  destruct (_ <=? acc); [done|]. cbv zeta. destruct (_ <? _); [done|]. apply IH.
Qed.

Lemma parse_one b acc c v : 2 <= b <= 16 → v < b → DigitVal c v → acc * b + v <= max_u64 →
  parse_digits b acc (String c "") = PRok (acc * b + v).
Proof.
  intros Hb Hv Hd Hm. destruct (digit_any_val c v Hd) as (E1 & E2 & _); [lia|].
  cbn [parse_digits]. rewrite E1, E2.
  destruct (N.leb_spec b v); [lia|].
  assert (max_u64 / b + 1 <=? acc = false) as ->.
  { apply N.leb_gt. assert (acc <= max_u64 / b); [|lia].
    apply N.div_le_lower_bound; lia. }
  cbv zeta. destruct (N.ltb_spec max_u64 (acc * b + v)); [lia|]. reflexivity.
Qed.

Lemma numeral_parse b s n : 2 <= b <= 16 → Numeral b s n → n <= max_u64 → parse_digits b 0 s = PRok n.
Proof.
  intros Hb. induction 1 as [c v Hv Hd|s n c v Hn IH Hv Hd]; intros Hm.
  - rewrite (parse_one b 0 c v); [f_equal; lia|done|done|done|lia].
  - rewrite parse_digits_app, IH by nia. by apply parse_one.
Qed.

(** The same digits read in base eight. *)
Lemma numeral_octal s n : Numeral 10 s n → n <= max_u64 →
  match parse_digits 8 0 s with
  | PRok m => m <= n ∧ (n < 8 → m = n) ∧ (8 <= n → m < n)
  | PRsyntax => 8 <= n
  | PRrange _ => False
  end.
Proof.
  induction 1 as [c v Hv Hd|s n c v Hn IH Hv Hd]; intros Hm.
  - destruct (N.ltb_spec v 8).
    + rewrite (parse_one 8 0 c v); [lia|lia|done|done|lia].
    + destruct (digit_any_val c v Hd) as (E1 & E2 & _); [lia|].
      cbn [parse_digits]. rewrite E1, E2. destruct (N.leb_spec 8 v); lia.
  - assert (n <= max_u64) as Hn' by lia. specialize (IH Hn'). rewrite parse_digits_app.
    destruct (parse_digits 8 0 s) as [m| |]; [|lia|done].
    destruct IH as (I1 & I2 & I3). destruct (N.ltb_spec v 8).
    + rewrite (parse_one 8 m c v); [|lia|done|done|lia]. split; [lia|]. split; [|lia].
      intros H8. assert (n = 0) as -> by lia. lia.
    + destruct (digit_any_val c v Hd) as (E1 & E2 & _); [lia|].
      cbn [parse_digits]. rewrite E1, E2. destruct (N.leb_spec 8 v); lia.
Qed.

Lemma all_digits_app s1 s2 : all_digits (s1 +:+ s2) = all_digits s1 && all_digits s2.
Proof.
  induction s1 as [|c s1 IH]; [reflexivity|]. change (String c s1 +:+ s2) with (String c (s1 +:+ s2)).
  cbn [all_digits]. by rewrite IH, andb_assoc.
Qed.
Lemma numeral_all_digits s n : Numeral 10 s n → all_digits s = true.
Proof.
  induction 1 as [c v Hv Hd|s n c v Hn IH Hv Hd].
  - destruct (digit_any_val c v Hd) as (_ & _ & _ & E); [lia|]. cbn. by rewrite (proj1 (E ltac:(lia))).
  - rewrite all_digits_app, IH. destruct (digit_any_val c v Hd) as (_ & _ & _ & E); [lia|]. cbn. by rewrite (proj1 (E ltac:(lia))).
Qed.
Lemma numeral_nonempty b s n : Numeral b s n → s ≠ "".
Proof. destruct 1 as [c v|s n c v]; [done|]. destruct s; done. Qed.

(** ** What precedes the dash *)
Fixpoint no_dash (s : string) : bool :=
  match s with "" => true | String c s => negb (Ascii.eqb c "-") && no_dash s end.
Lemma before_dash_app s k : no_dash s = true → before_dash (s +:+ "-" +:+ k) = s.
Proof.
  induction s as [|c s IH]; intros H; [reflexivity|].
  change (String c s +:+ "-" +:+ k) with (String c (s +:+ "-" +:+ k)). cbn [before_dash no_dash] in *.
  apply andb_true_iff in H as [Hc Hs]. destruct (Ascii.eqb c "-"); [done|]. f_equal. by apply IH.
Qed.
Lemma no_dash_app s1 s2 : no_dash (s1 +:+ s2) = no_dash s1 && no_dash s2.
Proof.
  induction s1 as [|c s1 IH]; [reflexivity|]. change (String c s1 +:+ s2) with (String c (s1 +:+ s2)).
  cbn [no_dash]. by rewrite IH, andb_assoc.
Qed.
Lemma numeral_no_dash b s n : b <= 16 → Numeral b s n → no_dash s = true.
Proof.
  intros Hb. induction 1 as [c v Hv Hd|s n c v Hn IH Hv Hd].
  - destruct (digit_any_val c v Hd) as (_ & _ & E & _); [lia|]. cbn. by rewrite E.
  - rewrite no_dash_app, IH. destruct (digit_any_val c v Hd) as (_ & _ & E & _); [lia|]. cbn. by rewrite E.
Qed.
Lemma numeral_no_underscore b s n : b <= 16 → Numeral b s n → has_underscore s = false.
Proof.
  intros Hb. assert (∀ s1 s2, has_underscore (s1 +:+ s2) = has_underscore s1 || has_underscore s2) as Happ.
  { intros s1 s2. induction s1 as [|c s1 IH]; [reflexivity|]. change (String c s1 +:+ s2) with (String c (s1 +:+ s2)).
    cbn [has_underscore]. by rewrite IH, orb_assoc. }
  induction 1 as [c v Hv Hd|s n c v Hn IH Hv Hd].
  - destruct (digit_any_val c v Hd) as (_ & E & _); [lia|]. cbn. by rewrite E.
  - rewrite Happ, IH. destruct (digit_any_val c v Hd) as (_ & E & _); [lia|]. cbn. by rewrite E.
Qed.

(** ** The two readings *)
Lemma decimal_ten s n : Numeral 10 s n → n < 2 ^ 63 → parse_int s = PRok (Z.of_N n).
Proof.
  intros H Hn. pose proof (numeral_all_digits s n H) as Hd. pose proof (numeral_nonempty _ _ _ H) as Hne.
  assert (parse_uint s = PRok n) as Hu.
  { unfold parse_uint. destruct s as [|c s]; [done|]. rewrite <-(parse_digits_ten 0 _ Hd).
    apply numeral_parse; [lia|done|]. assert (2 ^ 63 <= max_u64) by (vm_compute; discriminate). lia. }
  destruct s as [|c s]; [done|]. assert (is_digit c = true) as Hc by (cbn in Hd; by apply andb_true_iff in Hd as [? _]).
  destruct (digit_not_sign c Hc) as [E1 E2]. unfold parse_int. rewrite E1, E2, Hu. unfold parse_int_signed.
  cbn [negb andb]. destruct (Z.leb_spec (2 ^ 63) (Z.of_N n)) as [Hle|_]; [|done].
  exfalso. change (2 ^ 63)%Z with (Z.of_N (2 ^ 63)) in Hle. lia.
Qed.

Lemma unsigned0 s r : (∃ c s', s = String c s' ∧ Ascii.eqb c "+" = false ∧ Ascii.eqb c "-" = false) → parse_uint0 s = r →
  match r with PRok n | PRrange n => n < 2 ^ 63 | PRsyntax => True end →
  parse_val (parse_int0 s) = match r with PRok n | PRrange n => Z.of_N n | PRsyntax => 0%Z end.
Proof.
  intros (c & s' & -> & E1 & E2) Hu Hr. unfold parse_int0. rewrite E1, E2, Hu. unfold parse_int_signed. cbn [negb andb].
  destruct r as [n| |n]; [| done|];
    (destruct (Z.leb_spec (2 ^ 63) (Z.of_N n)) as [Hle|_]; [exfalso; change (2 ^ 63)%Z with (Z.of_N (2 ^ 63)) in Hle; lia|done]).
Qed.

Lemma decimal_zero s n : Numeral 10 s n → n < 2 ^ 63 →
  parse_val (parse_int0 s) = Z.of_N n ↔ ¬ LeadingZero s ∨ n < 8.
Proof.
  intros H Hn. pose proof (numeral_all_digits s n H) as Hd. pose proof (numeral_nonempty _ _ _ H) as Hne.
  pose proof (numeral_no_underscore 10 s n ltac:(lia) H) as Hun.
  assert (2 ^ 63 <= max_u64) as Hmax by (vm_compute; discriminate).
  pose proof (numeral_octal s n H ltac:(lia)) as Ho. pose proof (numeral_parse 10 s n ltac:(lia) H ltac:(lia)) as Hp.
  destruct s as [|c s]; [done|]. assert (is_digit c = true) as Hc by (cbn in Hd; by apply andb_true_iff in Hd as [? _]).
  destruct (digit_not_sign c Hc) as [E1 E2].
  destruct (Ascii.eqb c "0") eqn:E0.
  - apply Ascii.eqb_eq in E0 as ->.
    assert (base_prefix (String "0" s) = (8, s)) as Hb.
    { cbn [base_prefix]. change (Ascii.eqb "0" "0") with true. cbv iota. destruct s as [|x [|y s3]]; [done|done|].
      cbn [all_digits] in Hd. apply andb_true_iff in Hd as [_ Hd]. apply andb_true_iff in Hd as [Hx _].
      assert (lower_bit x =? 98 = false ∧ lower_bit x =? 111 = false ∧ lower_bit x =? 120 = false) as (-> & -> & ->); [|done].
      clear -Hx. destruct x as [[] [] [] [] [] [] [] []]; vm_compute in Hx |- *; try discriminate Hx; repeat split. }
    change (parse_digits 8 0 (String "0" s)) with (parse_digits 8 0 s) in Ho.
    assert (parse_uint0 (String "0" s) = parse_digits 8 0 s) as Hu.
    { unfold parse_uint0. rewrite Hb. cbn [has_underscore] in Hun. apply orb_false_iff in Hun as [_ ->]. cbn [andb].
      by destruct (parse_digits 8 0 s). }
    rewrite (unsigned0 (String "0" s) (parse_digits 8 0 s));
      [|by eexists _, _|done|destruct (parse_digits 8 0 s); lia].
    assert (LeadingZero (String "0" s)) as Hz by (exists s; reflexivity).
    destruct (parse_digits 8 0 s) as [m| |]; [| |done].
    + split; [intros Hm; right; apply N2Z.inj in Hm; lia|]. intros [?|?]; [done|]. f_equal. lia.
    + split; [intros Hm; exfalso; lia|]. intros [?|?]; [done|lia].
  - assert (¬ LeadingZero (String c s)) as Hz.
    { intros [r Hr]. apply Ascii.eqb_neq in E0. apply E0. by injection Hr. }
    assert (parse_uint0 (String c s) = PRok n) as Hu.
    { unfold parse_uint0. cbn [base_prefix]. rewrite E0, Hp, Hun. reflexivity. }
    rewrite (unsigned0 (String c s) (PRok n)); [|by eexists _, _|done|done]. split; [intros _; by left|done].
Qed.

Lemma agree_decimal s n k : Numeral 10 s n → n < 2 ^ 63 →
  id_time (s +:+ "-" +:+ k) = Z.of_N n ∧ (id_time0 (s +:+ "-" +:+ k) = Z.of_N n ↔ ¬ LeadingZero s ∨ n < 8).
Proof.
  intros H Hn. pose proof (numeral_no_dash 10 s n ltac:(lia) H) as Hd. unfold id_time, id_time0.
  rewrite before_dash_app by done. split; [|by apply decimal_zero]. by rewrite (decimal_ten s n).
Qed.

Lemma prefix_reads pre b s n k : LiteralPrefix pre b → Numeral b s n → n < 2 ^ 63 →
  id_time0 (pre +:+ s +:+ "-" +:+ k) = Z.of_N n ∧ id_time (pre +:+ s +:+ "-" +:+ k) = 0%Z.
Proof.
  intros Hpre H Hn. assert (2 <= b <= 16) as Hb by (unfold LiteralPrefix in Hpre; lia).
  assert (2 ^ 63 <= max_u64) as Hmax by (vm_compute; discriminate).
  pose proof (numeral_no_dash b s n ltac:(lia) H) as Hd. pose proof (numeral_no_underscore b s n ltac:(lia) H) as Hun.
  pose proof (numeral_nonempty _ _ _ H) as Hne. pose proof (numeral_parse b s n Hb H ltac:(lia)) as Hp.
  destruct s as [|y s]; [done|].
  assert (∃ x, pre = String "0" (String x "") ∧ Ascii.eqb x "-" = false ∧ is_digit x = false ∧
    base_prefix (String "0" (String x (String y s))) = (b, String y s)) as (x & -> & Ex & Exd & Hbp).
  { destruct Hpre as [[-> [->| ->]]|[[-> [->| ->]]|[-> [->| ->]]]]; eexists; (split; [reflexivity|]); repeat split. }
  change (String "0" (String x "") +:+ String y s +:+ "-" +:+ k)
    with (String "0" (String x (String y s)) +:+ "-" +:+ k).
  unfold id_time0, id_time. rewrite before_dash_app; [|cbn [no_dash] in *; rewrite Ex; exact Hd].
  split.
  - rewrite (unsigned0 _ (PRok n)); [done|by eexists _, _| |done].
    unfold parse_uint0. rewrite Hbp, Hp, Hun. reflexivity.
  - unfold parse_int. change (Ascii.eqb "0" "+") with false. change (Ascii.eqb "0" "-") with false. cbv iota.
    unfold parse_uint. cbn [parse_uint_loop]. rewrite Exd. reflexivity.
Qed.

Lemma agree_issued t k : (0 <= t <= max_i64)%Z →
  id_time (format_Z t +:+ "-" +:+ format_Z k) = t ∧ id_time0 (format_Z t +:+ "-" +:+ format_Z k) = t.
Proof.
  intros H. split; [|by apply id_time0_format]. unfold id_time. rewrite before_dash_id by lia. by rewrite parse_int_format.
Qed.
