(** Reading the configuration. *)
From Coq Require Import Ascii String ZArith NArith Lia ZifyBool.
From stdpp Require Import prelude strings.
From Verif.Model Require Import GoStrings Types ParseBase0 Logging Filter Settings.
From Verif.Spec Require Import StringSpec MiscSpec SettingsSpec.
From Verif.Proofs Require Import StringLemmas MiscLemmas WatchLemmas.
Local Open Scope string_scope.

(** ** Trailing zeros *)
Lemma trim_none found r : "."%char ∉ r → trim_loop found r = None.
Proof.
  revert found. induction r as [|c r IH]; intros found H; cbn [trim_loop]; [done|].
  apply not_elem_of_cons in H as [Hc H]. destruct (Ascii.eqb_spec c "."); [congruence|].
  destruct (Ascii.eqb c "0"); [by apply IH|done].
Qed.
Lemma trim_no_dot s : "."%char ∉ list_ascii_of_string s → trim_zero_decimal s = s.
Proof.
  intros H. unfold trim_zero_decimal. rewrite trim_none; [done|].
  intros Hi. apply H. apply elem_of_list_In, in_rev. by apply elem_of_list_In.
Qed.
Lemma list_ascii_app s t :
  list_ascii_of_string (s +:+ t) = (list_ascii_of_string s ++ list_ascii_of_string t)%list.
Proof. induction s as [|c s IH]; [done|].
  change (c :: list_ascii_of_string (s +:+ t) = c :: (list_ascii_of_string s ++ list_ascii_of_string t)%list).
  f_equal. exact IH.
Qed.
Lemma trim_zeros found n r :
  (found = true ∨ n ≠ 0) →
  trim_loop found (rev (list_ascii_of_string (zeros n)) ++ "."%char :: r)%list = Some r.
Proof.
  assert (rev (list_ascii_of_string (zeros n)) = replicate n "0"%char) as ->.
  { induction n as [|n IH]; [done|]. cbn [zeros list_ascii_of_string rev]. rewrite IH.
    change (["0"%char]) with (replicate 1 "0"%char). rewrite <-replicate_add. by rewrite Nat.add_1_r. }
  revert found. induction n as [|n IH]; intros found H; cbn.
  - by destruct H as [->|H].
  - apply IH. by left.
Qed.
Lemma trim_point_zeros s n : trim_zero_decimal (s +:+ "." +:+ zeros (S n)) = s.
Proof.
  unfold trim_zero_decimal. rewrite list_ascii_app. rewrite rev_app_distr.
  change (list_ascii_of_string ("." +:+ zeros (S n))) with ("."%char :: list_ascii_of_string (zeros (S n))).
  change (rev ("."%char :: list_ascii_of_string (zeros (S n))))
    with (rev (list_ascii_of_string (zeros (S n))) ++ ["."%char])%list.
  rewrite <-app_assoc. cbn [app]. rewrite trim_zeros by (right; lia).
  by rewrite rev_involutive, string_of_list_ascii_of_string.
Qed.
Lemma trim_sub s c : c ∈ list_ascii_of_string s → c ≠ "."%char → c ≠ "0"%char →
  c ∈ list_ascii_of_string (trim_zero_decimal s).
Proof.
  intros Hc H1 H2. unfold trim_zero_decimal.
  assert (Hr : c ∈ rev (list_ascii_of_string s)).
  { apply elem_of_list_In, in_rev. rewrite rev_involutive. by apply elem_of_list_In. }
  assert (∀ r f r', c ∈ r → trim_loop f r = Some r' → c ∈ r') as Hl.
  { clear -H1 H2. induction r as [|d r IH]; intros f r' Hi; cbn [trim_loop]; [done|].
    apply elem_of_cons in Hi. destruct (Ascii.eqb_spec d ".") as [->|].
    - destruct Hi as [->|Hi]; [done|]. destruct f; [intros [= ->]; done|by apply IH].
    - destruct (Ascii.eqb_spec d "0") as [->|]; [|done].
      destruct Hi as [->|Hi]; [done|]. by apply IH. }
  destruct (trim_loop _ _) as [r'|] eqn:E; [|done].
  rewrite list_ascii_of_string_of_list_ascii.
  apply elem_of_list_In, in_rev. rewrite rev_involutive. apply elem_of_list_In. by eapply Hl.
Qed.

(** ** Decimal numbers *)
Lemma digits_no_dot s : all_digits s = true → "."%char ∉ list_ascii_of_string s.
Proof.
  induction s as [|c s IH]; intros H; [by apply not_elem_of_nil|]. cbn in *.
  apply andb_true_iff in H as [Hc H]. apply not_elem_of_cons. split; [|by apply IH].
  intros <-. by vm_compute in Hc.
Qed.
Lemma parse_uint0_plain ds : all_digits ds = true → Plain ds → parse_uint0 ds = parse_uint ds.
Proof.
  intros Hd [->|Hp]; [done|]. unfold parse_uint0, parse_uint. destruct ds as [|c s]; [done|].
  assert (base_prefix (String c s) = (10%N, String c s)) as ->.
  { cbn [base_prefix]. destruct (Ascii.eqb_spec c "0") as [->|]; [by destruct (Hp s)|done]. }
  rewrite (parse_digits_ten 0 _ Hd), (digits_no_underscore _ Hd). cbn [andb].
  by destruct (parse_uint_loop 0 (String c s)).
Qed.
Lemma plain_signed s z : PlainDecimal s z → SignedDecimal s z.
Proof. intros (ds & n & Hv & _ & H). by exists ds, n. Qed.
Lemma plain_no_dot s z : PlainDecimal s z → "."%char ∉ list_ascii_of_string s.
Proof.
  intros (ds & n & (_ & Hd & _)%has_value_iff & _ & H). apply digits_no_dot in Hd.
  destruct H as [[[->| ->] _]|[-> _]]; [done| |]; cbn; by apply not_elem_of_cons.
Qed.
Lemma parse_int0_plain s z : PlainDecimal s z → FitsInt64 z → parse_int0 s = PRok z.
Proof.
  intros Hp Hz.
  assert (parse_int s = PRok z) as <- by (apply parse_int_ok; split; [by apply plain_signed|done]).
  destruct Hp as (ds & n & Hv & Hp & H). pose proof Hv as (Hne & Hd & _)%has_value_iff.
  destruct (has_value_head _ _ Hv) as (c & s' & -> & Hc). destruct (digit_not_sign c Hc) as [E1 E2].
  destruct H as [[[->| ->] _]|[-> _]].
  - unfold parse_int0, parse_int. rewrite E1, E2. by rewrite parse_uint0_plain.
  - change (parse_int_signed (2 ^ 63) false (parse_uint0 (String c s')) = parse_int_signed (2 ^ 63) false (parse_uint (String c s'))).
    by rewrite parse_uint0_plain.
  - change (parse_int_signed (2 ^ 63) true (parse_uint0 (String c s')) = parse_int_signed (2 ^ 63) true (parse_uint (String c s'))).
    by rewrite parse_uint0_plain.
Qed.
Lemma to_int_plain s z : PlainDecimal s z → FitsInt64 z → to_int s = z.
Proof.
  intros Hp Hz. unfold to_int. rewrite trim_no_dot by by eapply plain_no_dot. by rewrite (parse_int0_plain s z).
Qed.
Lemma to_int_point s z n : PlainDecimal s z → FitsInt64 z → to_int (s +:+ "." +:+ zeros (S n)) = z.
Proof. intros Hp Hz. unfold to_int. rewrite trim_point_zeros. by rewrite (parse_int0_plain s z). Qed.

(** Too big. *)
Lemma to_int_too_big s z : PlainDecimal s z → ¬ FitsInt64 z → to_int s = 0%Z.
Proof.
  intros Hp Hz. unfold to_int. rewrite trim_no_dot by by eapply plain_no_dot.
  destruct (parse_int0 s) as [z'| |] eqn:E; [|done|done]. exfalso.
  assert (parse_int s = PRok z') as E'.
  { rewrite <-E. destruct Hp as (ds & n & Hv & Hp & H). pose proof Hv as (Hne & Hd & _)%has_value_iff.
    destruct (has_value_head _ _ Hv) as (c & s' & -> & Hc). destruct (digit_not_sign c Hc) as [E1 E2].
    destruct H as [[[->| ->] _]|[-> _]].
    - unfold parse_int0, parse_int. rewrite E1, E2. by rewrite parse_uint0_plain.
    - change (parse_int_signed (2 ^ 63) false (parse_uint (String c s')) = parse_int_signed (2 ^ 63) false (parse_uint0 (String c s'))).
      by rewrite parse_uint0_plain.
    - change (parse_int_signed (2 ^ 63) true (parse_uint (String c s')) = parse_int_signed (2 ^ 63) true (parse_uint0 (String c s'))).
      by rewrite parse_uint0_plain. }
  apply parse_int_ok in E' as [(ds' & n' & Hv' & H') Hr].
  destruct Hp as (ds & n & Hv & _ & H). pose proof Hv as (_ & Hd & <-)%has_value_iff. pose proof Hv' as (_ & Hd' & <-)%has_value_iff.
  apply Hz. unfold FitsInt64.
  destruct (has_value_head _ _ Hv) as (c & t & -> & Hc). destruct (has_value_head _ _ Hv') as (c' & t' & -> & Hc').
  destruct H as [[[->| ->] ->]|[-> ->]]; destruct H' as [[[H'|H'] ->]|[H' ->]];
    try (injection H' as ? ?; subst; first [done|by vm_compute in Hc|by vm_compute in Hc']).
Qed.

(** ** Leading zeros *)
Fixpoint below (b : N) (s : string) : bool :=
  match s with "" => true | String c s' => is_digit c && (digit_val c <? b)%N && below b s' end.
Fixpoint bval (b acc : N) (s : string) : N :=
  match s with "" => acc | String c s' => bval b (acc * b + digit_val c) s' end.
Lemma below_app b s t : below b (s +:+ t) = below b s && below b t.
Proof. induction s as [|c s IH]; [done|].
  change (is_digit c && (digit_val c <? b)%N && below b (s +:+ t) = is_digit c && (digit_val c <? b)%N && below b s && below b t).
  rewrite IH. apply andb_assoc.
Qed.
Lemma bval_app b acc s t : bval b acc (s +:+ t) = bval b (bval b acc s) t.
Proof. revert acc. induction s as [|c s IH]; intros acc; [done|]. simpl. apply IH. Qed.
Lemma bval_ge b acc s : (1 <= b)%N → (acc <= bval b acc s)%N.
Proof. intros Hb. revert acc. induction s as [|c s IH]; intros acc; cbn; [lia|]. specialize (IH (acc * b + digit_val c)%N). nia. Qed.
Lemma value_in_iff b s n : (b <= 10)%N → ValueIn b s n → s ≠ "" ∧ below b s = true ∧ bval b 0 s = n.
Proof.
  intros Hb. assert (∀ d, (d < b)%N → below b (digit_of d) = true ∧ ∀ acc, bval b acc (digit_of d) = (acc * b + d)%N) as Hd.
  { intros d Hd. unfold digit_of. change (ascii_of_N (48 + d)) with (digit_char d). cbn [below bval].
    rewrite digit_char_is_digit by lia.
    rewrite (digit_val_char d) by lia. split; [|done]. cbn. rewrite andb_true_r. lia. }
  induction 1 as [d Hl|s n d _ (IH1 & IH2 & IH3) Hl].
  - destruct (Hd d Hl) as [H1 H2]. split; [done|]. split; [done|]. rewrite H2. lia.
  - destruct (Hd d Hl) as [H1 H2]. split; [by destruct s|]. split; [by rewrite below_app, IH2, H1|].
    rewrite bval_app, H2, IH3. lia.
Qed.
Lemma digit_facts c : is_digit c = true →
  Ascii.eqb c "_" = false ∧ digit_any c = Some (digit_val c) ∧
  (lower_bit c =? 98)%N = false ∧ (lower_bit c =? 111)%N = false ∧ (lower_bit c =? 120)%N = false.
Proof. destruct c as [[] [] [] [] [] [] [] []]; vm_compute; intros; (discriminate || auto). Qed.
Lemma parse_digits_below b acc s : (1 <= b)%N → below b s = true → (bval b acc s <= max_u64)%N →
  parse_digits b acc s = PRok (bval b acc s).
Proof.
  intros Hb. revert acc. induction s as [|c s IH]; intros acc Hd Hle; cbn [parse_digits below bval] in *; [done|].
  apply andb_true_iff in Hd as [[Hc Hlt]%andb_true_iff Hs].
  destruct (digit_facts c Hc) as (-> & -> & _). replace (b <=? digit_val c)%N with false by lia.
  pose proof (bval_ge b (acc * b + digit_val c) s Hb) as Hge.
  assert (acc <= max_u64 / b)%N as Ha by (apply N.div_le_lower_bound; lia).
  replace (max_u64 / b + 1 <=? acc)%N with false by lia. cbv zeta.
  replace (max_u64 <? acc * b + digit_val c)%N with false by lia. by apply IH.
Qed.
Lemma below_no_underscore b s : below b s = true → has_underscore s = false.
Proof.
  induction s as [|c s IH]; intros H; cbn in *; [done|]. apply andb_true_iff in H as [[Hc _]%andb_true_iff Hs].
  destruct (digit_facts c Hc) as (-> & _). by apply IH.
Qed.
Lemma base_zero b ds : ds ≠ "" → below b ds = true → base_prefix (String "0" ds) = (8%N, ds).
Proof.
  intros Hne H. cbn [base_prefix]. change (Ascii.eqb "0" "0") with true. cbv iota.
  destruct ds as [|x [|y s]]; [done|done|]. cbn [below] in H.
  apply andb_true_iff in H as [[Hc _]%andb_true_iff _].
  destruct (digit_facts x Hc) as (_ & _ & -> & -> & ->). done.
Qed.
Lemma octal ds n : ValueIn 8 ds n → (Z.of_N n < 2 ^ 63)%Z → to_int (String "0" ds) = Z.of_N n.
Proof.
  intros Hv Hn. apply value_in_iff in Hv as (Hne & Hb & Hv); [|lia]. unfold to_int.
  rewrite trim_no_dot.
  2:{ cbn. apply not_elem_of_cons. split; [done|]. apply digits_no_dot. clear -Hb.
      induction ds as [|c s IH]; [done|]. cbn in *. apply andb_true_iff in Hb as [[-> _]%andb_true_iff Hs]. by apply IH. }
  change (parse_int0 (String "0" ds)) with (parse_int_signed (2 ^ 63) false (parse_uint0 (String "0" ds))).
  unfold parse_uint0. rewrite (base_zero 8) by done.
  change (2 ^ 63)%Z with 9223372036854775808%Z in *.
  rewrite parse_digits_below; [|lia|done|]; rewrite Hv; [|change max_u64 with 18446744073709551615%N; lia].
  rewrite (below_no_underscore 8) by done. cbn [andb]. unfold parse_int_signed. cbn [negb andb].
  by replace (9223372036854775808 <=? Z.of_N n)%Z with false by lia.
Qed.

(** ** Anything else *)
Lemma not_numeric_facts c : NotNumeric c →
  digit_any c = None ∨ ∃ d, digit_any c = Some d ∧ (16 <= d)%N.
Proof.
  unfold NotNumeric. destruct c as [[] [] [] [] [] [] [] []]; intros H;
    first [left; reflexivity
          | right; eexists; split; [reflexivity|vm_compute; discriminate]
          | exfalso; apply H; apply elem_of_list_In; cbn; tauto ].
Qed.
Lemma not_numeric_ne c : NotNumeric c →
  c ≠ "."%char ∧ c ≠ "0"%char ∧ c ≠ "+"%char ∧ c ≠ "-"%char ∧ c ≠ "_"%char ∧
  (lower_bit c =? 98)%N = false ∧ (lower_bit c =? 111)%N = false ∧ (lower_bit c =? 120)%N = false.
Proof.
  unfold NotNumeric. intros H.
  repeat split; try (intros ->; apply H; apply elem_of_list_In; cbn; tauto);
    revert H; destruct c as [[] [] [] [] [] [] [] []]; intros H;
    first [reflexivity | exfalso; apply H; apply elem_of_list_In; cbn; tauto].
Qed.
Lemma parse_digits_unit b acc s : (b <= 16)%N → HasUnit s → ∀ n, parse_digits b acc s ≠ PRok n.
Proof.
  intros Hb (c & Hi & Hc). revert acc. induction s as [|d s IH]; intros acc n; cbn [parse_digits].
  { by apply elem_of_nil in Hi. }
  cbn [list_ascii_of_string] in Hi. apply elem_of_cons in Hi as [->|Hi].
  - destruct (not_numeric_ne d Hc) as (_ & _ & _ & _ & Hu & _).
    destruct (Ascii.eqb_spec d "_"); [done|].
    destruct (not_numeric_facts d Hc) as [->|(k & -> & Hk)]; [done|].
    by replace (b <=? k)%N with true by lia.
  - destruct (Ascii.eqb d "_"); [by apply IH|]. destruct (digit_any d) as [k|]; [|done].
    destruct (b <=? k)%N; [done|]. destruct (_ <=? _)%N; [done|]. cbv zeta. destruct (_ <? _)%N; [done|]. by apply IH.
Qed.
Lemma base_prefix_unit s : HasUnit s → HasUnit (base_prefix s).2 ∧ ((base_prefix s).1 <= 16)%N.
Proof.
  intros (c & Hi & Hc). destruct (not_numeric_ne c Hc) as (_ & H0 & _ & _ & _ & Hb & Ho & Hx).
  destruct s as [|a s1]; [by apply elem_of_nil in Hi|]. cbn [base_prefix].
  destruct (Ascii.eqb_spec a "0") as [->|]; [|split; [by exists c|done]].
  cbn [list_ascii_of_string] in Hi. apply elem_of_cons in Hi as [->|Hi]; [done|].
  destruct s1 as [|x [|y s3]]; [by apply elem_of_nil in Hi|split; [by exists c|done]|].
  assert (∀ b, (lower_bit c =? b)%N = false → (lower_bit x =? b)%N = true → HasUnit (String y s3)) as Hdrop.
  { intros b E1 E2. exists c. split; [|done]. cbn [list_ascii_of_string] in Hi.
    apply elem_of_cons in Hi as [->|Hi]; [congruence|done]. }
  destruct (lower_bit x =? 98)%N eqn:E1; [split; [exact (Hdrop _ Hb E1)|done]|].
  destruct (lower_bit x =? 111)%N eqn:E2; [split; [exact (Hdrop _ Ho E2)|done]|].
  destruct (lower_bit x =? 120)%N eqn:E3; [split; [exact (Hdrop _ Hx E3)|done]|].
  split; [by exists c|done].
Qed.
Lemma parse_uint0_unit s : HasUnit s → ∀ n, parse_uint0 s ≠ PRok n.
Proof.
  intros H n. destruct (base_prefix_unit s H) as [H1 H2]. unfold parse_uint0. destruct s as [|c s]; [done|].
  destruct (base_prefix (String c s)) as [b rest]. cbn [fst snd] in *.
  pose proof (parse_digits_unit b 0 rest H2 H1) as Hn. destruct (parse_digits b 0 rest) as [m| |]; [by destruct (Hn m)|done|done].
Qed.
Lemma parse_uint0_range s v : parse_uint0 s = PRrange v → v = max_u64.
Proof.
  assert (∀ b acc t, parse_digits b acc t = PRrange v → v = max_u64) as Hl.
  { intros b acc t. revert acc. induction t as [|c t IH]; intros acc H; cbn [parse_digits] in *; [done|].
    destruct (Ascii.eqb c "_"); [by eapply IH|]. destruct (digit_any c); [|done]. destruct (_ <=? _)%N; [done|].
    destruct (_ <=? _)%N; [by simplify_eq|]. cbv zeta in H. destruct (_ <? _)%N; [by simplify_eq|]. by eapply IH. }
  unfold parse_uint0. destruct s as [|c s]; [done|]. destruct (base_prefix (String c s)) as [b rest].
  destruct (parse_digits b 0 rest) eqn:E; [by destruct (_ && _)|done|]. intros [= ->]. by eapply Hl.
Qed.
Lemma signed_unit neg s : HasUnit s → ∀ z, parse_int_signed (2 ^ 63) neg (parse_uint0 s) ≠ PRok z.
Proof.
  intros H z. pose proof (parse_uint0_unit s H) as Hn. destruct (parse_uint0 s) as [u| |u] eqn:E; [by destruct (Hn u)|done|].
  apply parse_uint0_range in E as ->. unfold parse_int_signed. by destruct neg.
Qed.
Lemma to_int_unit s : HasUnit s → to_int s = 0%Z.
Proof.
  intros (c & Hi & Hc). destruct (not_numeric_ne c Hc) as (H1 & H2 & H3 & H4 & _).
  assert (HasUnit (trim_zero_decimal s)) as Ht by (exists c; split; [by apply trim_sub|done]).
  unfold to_int. destruct (trim_zero_decimal s) as [|a t] eqn:E; [done|].
  assert (∀ z, parse_int0 (String a t) ≠ PRok z) as Hz; [|by destruct (parse_int0 (String a t)); [edestruct Hz|..]].
  intros z. cbn [parse_int0].
  assert (HasUnit t ∨ a = c) as Hr.
  { destruct Ht as (c' & Hi' & Hc'). assert (c ∈ list_ascii_of_string (String a t)) as Hx.
    { rewrite <-E. by apply trim_sub. }
    cbn [list_ascii_of_string] in Hx. apply elem_of_cons in Hx as [->|Hx]; [by right|]. left. by exists c. }
  destruct (Ascii.eqb_spec a "+") as [->|]; [|destruct (Ascii.eqb_spec a "-") as [->|]].
  - apply signed_unit. destruct Hr as [?|Hr]; [done|congruence].
  - apply signed_unit. destruct Hr as [?|Hr]; [done|congruence].
  - by apply signed_unit.
Qed.

(** ** Redis *)
Lemma format_plain z : PlainDecimal (format_Z z) z.
Proof.
  assert (∀ n, HasValue (format_N n) n ∧ Plain (format_N n)) as Hf.
  { intros n. split.
    - apply has_value_iff. split; [apply format_N_nonempty|]. split; [apply format_N_digits|apply dv_format_N].
    - destruct (decide (n = 0%N)) as [->|Hn]; [by left|]. right. intros s E.
      destruct (fmt_head (S (N.size_nat n)) n "") as (c & s' & E' & Hc); [lia|apply size_bound|].
      fold (format_N n) in E'. rewrite E' in E. by injection E as -> ->. }
  unfold format_Z. destruct (z <? 0)%Z eqn:E.
  - destruct (Hf (Z.to_N (- z))) as [H1 H2]. exists (format_N (Z.to_N (- z))), (Z.to_N (- z)).
    split; [done|]. split; [done|]. right. split; [done|]. lia.
  - destruct (Hf (Z.to_N z)) as [H1 H2]. exists (format_N (Z.to_N z)), (Z.to_N z).
    split; [done|]. split; [done|]. left. split; [by left|]. lia.
Qed.
Lemma redis_int_iff s z : redis_int s = Some z ↔ s = format_Z z ∧ FitsInt64 z.
Proof.
  unfold redis_int. split.
  - destruct (parse_int s) as [z'| |] eqn:E; [|done|done]. apply parse_int_ok in E as [_ Hr].
    destruct (String.eqb_spec (format_Z z') s) as [<-|]; [|done]. by intros [= ->].
  - intros [-> Hr]. assert (parse_int (format_Z z) = PRok z) as ->.
    { apply parse_int_ok. split; [|done]. apply plain_signed, format_plain. }
    by rewrite String.eqb_refl.
Qed.
Lemma redis_agrees s z : redis_int s = Some z → to_int s = z.
Proof. intros [-> Hr]%redis_int_iff. apply to_int_plain; [apply format_plain|done]. Qed.

(** ** Start-up *)
Lemma env_value_some env k s : env_value env k = Some s ↔ env k = Some s ∧ s ≠ "".
Proof.
  unfold env_value. destruct (env k) as [v|]; [|naive_solver]. destruct (String.eqb_spec v "") as [->|]; naive_solver.
Qed.
Lemma env_value_none env k : env_value env k = None ↔ env k = None ∨ env k = Some "".
Proof.
  unfold env_value. destruct (env k) as [v|]; [|naive_solver]. destruct (String.eqb_spec v "") as [->|]; naive_solver.
Qed.
Lemma get_default env k : env k = None ∨ env k = Some "" →
  (∀ d, get_int env k d = d) ∧ (∀ d, get_bool env k d = d) ∧ (∀ d, get_string env k d = d).
Proof. intros H%env_value_none. unfold get_int, get_bool, get_string. by rewrite H. Qed.
Lemma get_int_set env k s d : env k = Some s → s ≠ "" → get_int env k d = to_int s.
Proof. intros H1 H2. unfold get_int. assert (env_value env k = Some s) as -> by by apply env_value_some. done. Qed.
Lemma plain_nonempty s z : PlainDecimal s z → s ≠ "".
Proof.
  intros (ds & n & (Hne & _)%has_value_iff & _ & H). destruct H as [[[->| ->] _]|[-> _]]; done.
Qed.
Lemma get_int_plain env k s z d : env k = Some s → PlainDecimal s z → FitsInt64 z → get_int env k d = z.
Proof. intros H Hp Hz. rewrite (get_int_set _ _ s) by (done || by eapply plain_nonempty). by apply to_int_plain. Qed.
Lemma get_int_point env k s z n d :
  env k = Some (s +:+ "." +:+ zeros (S n)) → PlainDecimal s z → FitsInt64 z → get_int env k d = z.
Proof. intros H Hp Hz. rewrite (get_int_set _ _ _ _ H) by by destruct s. by apply to_int_point. Qed.
Lemma get_int_too_big env k s z d : env k = Some s → PlainDecimal s z → ¬ FitsInt64 z → get_int env k d = 0%Z.
Proof. intros H Hp Hz. rewrite (get_int_set _ _ s) by (done || by eapply plain_nonempty). by eapply to_int_too_big. Qed.
Lemma get_int_unit env k s d : env k = Some s → HasUnit s → get_int env k d = 0%Z.
Proof.
  intros H Hu. rewrite (get_int_set _ _ s); [by apply to_int_unit|done|].
  intros ->. destruct Hu as (c & Hi & _). by apply elem_of_nil in Hi.
Qed.
Lemma get_int_octal env k ds n d :
  env k = Some (String "0" ds) → ValueIn 8 ds n → FitsInt64 (Z.of_N n) → get_int env k d = Z.of_N n.
Proof. intros H Hv [_ Hn]. rewrite (get_int_set _ _ _ _ H) by done. by apply octal. Qed.
Lemma get_bool_spec env k s d : env k = Some s → s ≠ "" →
  get_bool env k d = true ↔ s ∈ ["1"; "t"; "T"; "true"; "TRUE"; "True"].
Proof.
  intros H1 H2. unfold get_bool. assert (env_value env k = Some s) as -> by by apply env_value_some.
  unfold to_bool. rewrite existsb_exists. setoid_rewrite String.eqb_eq. split.
  - intros (x & Hx & <-). apply elem_of_list_In in Hx. set_solver.
  - intros H. exists s. split; [|done]. apply elem_of_list_In. set_solver.
Qed.

Lemma start_some env st cfg : start env = Done (st, cfg) →
  cfg_ticket_ttl cfg = ticket_ttl env ∧ cfg_assign_ttl cfg = assign_ttl env ∧ cfg_max_updates cfg = max_updates env ∧
  cfg_out_threshold cfg = out_threshold env ∧ Z.of_nat (cfg_in_max cfg) = in_max env ∧
  cfg_wait_deactivation cfg = wait_deactivation env.
Proof.
  unfold start. destruct (in_max env <? 0)%Z eqn:E; [done|]. destruct (storage_of env); [|done].
  intros [= <- <-]. cbn. split_and!; try done. lia.
Qed.
Lemma storage_cases env : storage_of env = None ↔
  ∃ s, env "OM_STATE_STORAGE_TYPE" = Some s ∧ s ∉ [""; "redis"; "memory"].
Proof.
  unfold storage_of, get_string. destruct (env_value env "OM_STATE_STORAGE_TYPE") as [s|] eqn:E.
  - apply env_value_some in E as [E Hne]. destruct (String.eqb_spec s "redis") as [->|H1].
    + split; [done|]. intros (s & E' & Hs). rewrite E in E'. injection E' as <-. exfalso. apply Hs. set_solver.
    + destruct (String.eqb_spec s "memory") as [->|H2].
      * split; [done|]. intros (s & E' & Hs). rewrite E in E'. injection E' as <-. exfalso. apply Hs. set_solver.
      * split; [|done]. intros _. exists s. split; [done|]. set_solver.
  - cbn. split; [done|]. intros (s & E' & Hs). apply env_value_none in E as [E|E]; [congruence|].
    rewrite E in E'. injection E' as <-. exfalso. apply Hs. set_solver.
Qed.
Lemma start_panics env : start env = Panic ↔
  (in_max env < 0)%Z ∨ ∃ s, env "OM_STATE_STORAGE_TYPE" = Some s ∧ s ∉ [""; "redis"; "memory"].
Proof.
  rewrite <-storage_cases. unfold start. destruct (in_max env <? 0)%Z eqn:E.
  - split; [|done]. intros _. left. lia.
  - destruct (storage_of env); split; try done; [|by right]. intros [?|?]; [lia|done].
Qed.
Lemma start_defaults env :
  (∀ k, k ∈ ["OM_STATE_STORAGE_TYPE"; "OM_CACHE_TICKET_TTL_SECS"; "OM_CACHE_ASSIGNMENT_ADDITIONAL_TTL_SECS";
             "OM_MAX_STATE_UPDATES_PER_CALL"; "OM_CACHE_OUT_MAX_QUEUE_THRESHOLD";
             "OM_CACHE_IN_MAX_UPDATES_PER_POLL"; "OM_MATCH_TICKET_DEACTIVATION_WAIT"] → env k = None ∨ env k = Some "") →
  start env = Done (SRedis, Config 600 600 500 50 (Z.to_nat 10000) false).
Proof.
  intros H. unfold start, storage_of, in_max, ticket_ttl, assign_ttl, max_updates, out_threshold, wait_deactivation.
  assert (∀ k d, k ∈ ["OM_STATE_STORAGE_TYPE"; "OM_CACHE_TICKET_TTL_SECS"; "OM_CACHE_ASSIGNMENT_ADDITIONAL_TTL_SECS";
             "OM_MAX_STATE_UPDATES_PER_CALL"; "OM_CACHE_OUT_MAX_QUEUE_THRESHOLD";
             "OM_CACHE_IN_MAX_UPDATES_PER_POLL"; "OM_MATCH_TICKET_DEACTIVATION_WAIT"] → get_int env k d = d) as Hi.
  { intros k d Hk. by apply get_default, H. }
  rewrite !Hi by set_solver.
  destruct (get_default env "OM_STATE_STORAGE_TYPE") as (_ & _ & ->); [apply H; set_solver|].
  destruct (get_default env "OM_MATCH_TICKET_DEACTIVATION_WAIT") as (_ & -> & _); [apply H; set_solver|].
  reflexivity.
Qed.
