(** Lemmas about Model/GoStrings.v. *)
From Coq Require Import Ascii String ZArith NArith Lia ZifyBool ZifyN ZifyNat.
From stdpp Require Import prelude strings.
From Verif.Model Require Import GoStrings.
From Verif.Spec Require Import StringSpec.
Local Open Scope string_scope.
Local Arguments String.append _ _ : simpl nomatch.

(** ** Generic string facts *)

Lemma app_nil_r_s s : s +:+ "" = s.
Proof. induction s; simpl; congruence. Qed.

Lemma app_assoc_s a b c : (a +:+ b) +:+ c = a +:+ (b +:+ c).
Proof. induction a; simpl; congruence. Qed.

Lemma app_length_s a b : String.length (a +:+ b) = String.length a + String.length b.
Proof. induction a; simpl; lia. Qed.

Lemma app_inj_l_s a b c : a +:+ b = a +:+ c → b = c.
Proof. induction a; simpl; intros; simplify_eq; auto. Qed.

Lemma app_eq_len_s a a' b b' :
  String.length a = String.length a' → a +:+ b = a' +:+ b' → a = a' ∧ b = b'.
Proof.
  revert a'. induction a as [|x a IH]; intros [|y a']; simpl; intros Hl He; try lia; auto.
  injection He as -> He. destruct (IH a') as [-> ->]; auto.
Qed.

Lemma list_ascii_app s t :
  list_ascii_of_string (s +:+ t) = (list_ascii_of_string s ++ list_ascii_of_string t)%list.
Proof. induction s; simpl; congruence. Qed.

(** ** Digits *)

Lemma is_digit_Digit c : is_digit c = true ↔ Digit c.
Proof.
  unfold Digit. split.
  - destruct c as [[] [] [] [] [] [] [] []]; vm_compute; intros H; try discriminate;
      repeat (first [apply elem_of_list_here | apply elem_of_list_further]).
  - intros H. repeat (apply elem_of_cons in H as [->|H]; [reflexivity|]).
    by apply elem_of_nil in H.
Qed.

Lemma digit_cases (d : N) :
  (d < 10)%N → d = 0%N ∨ d = 1%N ∨ d = 2%N ∨ d = 3%N ∨ d = 4%N ∨ d = 5%N ∨ d = 6%N ∨ d = 7%N
               ∨ d = 8%N ∨ d = 9%N.
Proof. lia. Qed.

Lemma digit_char_is_digit d : (d < 10)%N → is_digit (digit_char d) = true.
Proof. intros H. destruct (digit_cases d H) as [->|[->|[->|[->|[->|[->|[->|[->|[->| ->]]]]]]]]]; reflexivity. Qed.

Lemma digit_val_char d : (d < 10)%N → digit_val (digit_char d) = d.
Proof. intros H. destruct (digit_cases d H) as [->|[->|[->|[->|[->|[->|[->|[->|[->| ->]]]]]]]]]; reflexivity. Qed.

(** Executable "all digits". *)
Fixpoint all_digits (s : string) : bool :=
  match s with "" => true | String c s' => is_digit c && all_digits s' end.

Lemma all_digits_spec s : all_digits s = true ↔ AllDigits s.
Proof.
  unfold AllDigits. induction s as [|c s IH]; simpl.
  - split; auto.
  - rewrite andb_true_iff, IH, is_digit_Digit, Forall_cons. done.
Qed.

Lemma all_digits_app s t : all_digits (s +:+ t) = all_digits s && all_digits t.
Proof. induction s; simpl; [done|]. rewrite IHs. by rewrite andb_assoc. Qed.

(** Value of a digit string. *)
Fixpoint dv (acc : N) (s : string) : N :=
  match s with "" => acc | String c s' => dv (acc * 10 + digit_val c)%N s' end.

Lemma dv_ge acc s : (acc <= dv acc s)%N.
Proof. revert acc. induction s as [|c s IH]; intros acc; simpl; [lia|]. specialize (IH (acc * 10 + digit_val c)%N). lia. Qed.

Lemma dv_fmt fuel n acc :
  (n < 10 ^ N.of_nat fuel)%N → dv 0 (fmt_fuel fuel n acc) = dv n acc.
Proof.
  revert n acc. induction fuel as [|fuel IH]; intros n acc Hn.
  - change (10 ^ N.of_nat 0)%N with 1%N in Hn. assert (n = 0%N) as -> by lia. done.
  - cbn [fmt_fuel].
    assert (Hd : (n mod 10 < 10)%N) by (apply N.mod_lt; lia).
    destruct (n <? 10)%N eqn:E.
    + cbn [dv]. rewrite digit_val_char by done.
      rewrite N.mod_small by lia. f_equal.
    + rewrite IH.
      * cbn [dv]. rewrite digit_val_char by done. f_equal.
        rewrite N.mul_comm. symmetry. apply N.div_mod. lia.
      * replace (N.of_nat (S fuel)) with (N.succ (N.of_nat fuel)) in Hn by lia.
        rewrite N.pow_succ_r in Hn by lia. apply N.div_lt_upper_bound; lia.
Qed.

Lemma fmt_fuel_digits fuel n acc :
  all_digits acc = true → all_digits (fmt_fuel fuel n acc) = true.
Proof.
  revert n acc. induction fuel as [|fuel IH]; intros n acc Ha; cbn [fmt_fuel]; [done|].
  assert (Hd : is_digit (digit_char (n mod 10)) = true).
  { apply digit_char_is_digit. apply N.mod_lt. lia. }
  destruct (n <? 10)%N.
  - cbn [all_digits]. by rewrite Hd, Ha.
  - apply IH. cbn [all_digits]. by rewrite Hd, Ha.
Qed.

Lemma pos_size_bound p : (Npos p < 10 ^ N.of_nat (Pos.size_nat p))%N.
Proof.
  assert (H : ∀ p, (Npos p < 2 ^ N.of_nat (Pos.size_nat p))%N).
  { clear p. intros p. induction p as [p IH|p IH|]; cbn [Pos.size_nat]; [| |reflexivity];
    rewrite Nat2N.inj_succ, N.pow_succ_r by lia; lia. }
  eapply N.lt_le_trans; [apply H|]. apply N.pow_le_mono_l. lia.
Qed.

Lemma size_bound n : (n < 10 ^ N.of_nat (S (N.size_nat n)))%N.
Proof.
  destruct n as [|p]; [reflexivity|]. cbn [N.size_nat].
  eapply N.lt_trans; [apply pos_size_bound|].
  apply N.pow_lt_mono_r; lia.
Qed.

Lemma dv_format_N n : dv 0 (format_N n) = n.
Proof. unfold format_N. by rewrite dv_fmt by apply size_bound. Qed.

Lemma format_N_digits n : all_digits (format_N n) = true.
Proof. by apply fmt_fuel_digits. Qed.

Lemma fmt_fuel_nonempty fuel n acc : fmt_fuel (S fuel) n acc ≠ "".
Proof.
  revert n acc. induction fuel as [|f IH]; intros n acc.
  - simpl. by destruct (n <? 10)%N.
  - cbn [fmt_fuel]. destruct (n <? 10)%N; [done|]. apply IH.
Qed.

Lemma format_N_nonempty n : format_N n ≠ "".
Proof. apply fmt_fuel_nonempty. Qed.

Lemma format_N_inj m n : format_N m = format_N n → m = n.
Proof. intros H. rewrite <-(dv_format_N m), H. apply dv_format_N. Qed.

(** Parsing a digit string that fits in 64 bits gives its value. *)
Lemma parse_uint_loop_digits acc s :
  all_digits s = true → (dv acc s <= max_u64)%N →
  parse_uint_loop acc s = PRok (dv acc s).
Proof.
  revert acc. induction s as [|c s IH]; intros acc Hd Hle; simpl in *; [done|].
  apply andb_true_iff in Hd as [Hc Hs]. rewrite Hc.
  pose proof (dv_ge (acc * 10 + digit_val c) s) as Hge.
  assert (Hacc : (acc <= max_u64 / 10)%N).
  { apply N.div_le_lower_bound; lia. }
  destruct (max_u64 / 10 + 1 <=? acc)%N eqn:E1; [lia|].
  destruct (max_u64 <? acc * 10 + digit_val c)%N eqn:E2; [lia|].
  auto.
Qed.

Lemma digit_not_sign c : is_digit c = true → Ascii.eqb c "+" = false ∧ Ascii.eqb c "-" = false.
Proof. destruct c as [[] [] [] [] [] [] [] []]; vm_compute; intros; (discriminate || auto). Qed.

Lemma parse_int_digits s :
  all_digits s = true → s ≠ "" → (Z.of_N (dv 0 s) <= max_i64)%Z →
  parse_int s = PRok (Z.of_N (dv 0 s)).
Proof.
  intros Hd Hne Hle. destruct s as [|c s]; [done|].
  pose proof Hd as Hd'. simpl in Hd'. apply andb_true_iff in Hd' as [Hc _].
  destruct (digit_not_sign c Hc) as [E1 E2].
  unfold parse_int. rewrite E1, E2. unfold parse_uint.
  assert (Hu : (dv 0 (String c s) <= max_u64)%N).
  { unfold max_i64 in Hle. unfold max_u64. change (2 ^ 64)%N with 18446744073709551616%N.
    change (2 ^ 63)%Z with 9223372036854775808%Z in Hle. lia. }
  rewrite parse_uint_loop_digits by done.
  unfold parse_int_signed. unfold max_i64 in Hle.
  change (2 ^ 63)%Z with 9223372036854775808%Z in *. cbn [negb andb].
  destruct (9223372036854775808 <=? Z.of_N (dv 0 (String c s)))%Z eqn:E; [lia|done].
Qed.

Lemma parse_int_format n : (0 <= n <= max_i64)%Z → parse_int (format_Z n) = PRok n.
Proof.
  intros [H0 H1]. unfold format_Z.
  destruct (n <? 0)%Z eqn:E; [lia|].
  rewrite parse_int_digits; rewrite ?dv_format_N.
  - f_equal. lia.
  - apply format_N_digits.
  - apply format_N_nonempty.
  - lia.
Qed.

Lemma format_Z_nonneg n : (0 <= n)%Z → format_Z n = format_N (Z.to_N n).
Proof. unfold format_Z. destruct (n <? 0)%Z eqn:E; [lia|done]. Qed.

Lemma before_dash_digits a b : all_digits a = true → before_dash (a +:+ "-" +:+ b) = a.
Proof.
  induction a as [|c a IH]; simpl; [done|].
  intros [Hc Ha]%andb_true_iff. destruct (digit_not_sign c Hc) as [_ ->].
  f_equal. auto.
Qed.

Lemma before_dash_id t k :
  (0 <= t)%Z → before_dash (format_Z t +:+ "-" +:+ format_Z k) = format_Z t.
Proof. intros H. rewrite format_Z_nonneg by done. apply before_dash_digits, format_N_digits. Qed.

(** What the cache reads out of an issued id. *)
Lemma id_time_format t k :
  (0 <= t <= max_i64)%Z → id_time (format_Z t +:+ "-" +:+ format_Z k) = t.
Proof.
  intros H. unfold id_time. rewrite before_dash_id by lia. by rewrite parse_int_format.
Qed.

Lemma format_Z_inj_nonneg m n : (0 <= m)%Z → (0 <= n)%Z → format_Z m = format_Z n → m = n.
Proof.
  intros Hm Hn. rewrite !format_Z_nonneg by done. intros H%format_N_inj. lia.
Qed.

Lemma format_id_inj t k t' k' :
  (0 <= t)%Z → (0 <= k)%Z → (0 <= t')%Z → (0 <= k')%Z →
  format_Z t +:+ "-" +:+ format_Z k = format_Z t' +:+ "-" +:+ format_Z k' → t = t' ∧ k = k'.
Proof.
  intros Ht Hk Ht' Hk' He.
  pose proof (before_dash_id t k Ht) as H1. rewrite He, before_dash_id in H1 by done.
  apply format_Z_inj_nonneg in H1; auto. subst t'.
  apply app_inj_l_s in He. injection He as He.
  apply format_Z_inj_nonneg in He; auto.
Qed.

(** ** Regular expressions *)

Lemma re_nullable_spec r : re_nullable r = true ↔ Lang r "".
Proof.
  induction r as [| | |c|a IHa b IHb|a IHa b IHb|a IHa]; simpl.
  - split; [done|inversion 1].
  - split; [constructor|done].
  - split; [done|inversion 1].
  - split; [done|inversion 1].
  - rewrite andb_true_iff, IHa, IHb. split.
    + intros [H1 H2]. apply (L_seq a b "" ""); done.
    + inversion 1 as [| | |? ? s t H1 H2 E| | | |]; subst.
      destruct s; [|discriminate]. simpl in *. subst. done.
  - rewrite orb_true_iff, IHa, IHb. split.
    + intros [H|H]; [by apply L_alt_l|by apply L_alt_r].
    + inversion 1; subst; auto.
  - split; [intros _; apply L_star_nil|done].
Qed.

Lemma lang_seq_inv a b w :
  Lang (RSeq a b) w → ∃ u v, w = u +:+ v ∧ Lang a u ∧ Lang b v.
Proof. inversion 1; subst; eauto. Qed.

Lemma lang_star_cons_inv a c s :
  Lang (RStar a) (String c s) → ∃ u v, s = u +:+ v ∧ Lang a (String c u) ∧ Lang (RStar a) v.
Proof.
  intros H. remember (RStar a) as r eqn:Er. remember (String c s) as w eqn:Ew.
  revert c s Ew. induction H as [| | | | | | |a' s' t' H1 IH1 H2 IH2]; intros c0 s0 Ew; simplify_eq.
  destruct s' as [|x s']; simpl in Ew.
  - subst t'. eauto.
  - injection Ew as -> <-. eauto 10.
Qed.

Lemma re_deriv_spec c r s : Lang (re_deriv c r) s ↔ Lang r (String c s).
Proof.
  revert s. induction r as [| | |d|a IHa b IHb|a IHa b IHb|a IHa]; intros s; simpl.
  - split; inversion 1.
  - split; inversion 1.
  - destruct (is_digit c) eqn:E.
    + split.
      * inversion 1; subst. constructor. by apply is_digit_Digit.
      * inversion 1; subst. constructor.
    + split; [inversion 1|]. inversion 1 as [|? Hdg| | | | | |]; subst.
      apply is_digit_Digit in Hdg. congruence.
  - destruct (Ascii.eqb c d) eqn:E.
    + apply Ascii.eqb_eq in E. subst. split; inversion 1; subst; constructor.
    + apply Ascii.eqb_neq in E. split; inversion 1; subst; done.
  - assert (Hseq : Lang (RSeq a b) (String c s) ↔
        (∃ u v, s = u +:+ v ∧ Lang a (String c u) ∧ Lang b v) ∨ (Lang a "" ∧ Lang b (String c s))).
    { split.
      - intros (u & v & E & H1 & H2)%lang_seq_inv. destruct u as [|x u]; simpl in *.
        + subst. right. auto.
        + injection E as -> ->. left. eauto.
      - intros [(u & v & -> & H1 & H2)|[H1 H2]].
        + by apply (L_seq a b (String c u) v).
        + by apply (L_seq a b "" (String c s)). }
    assert (Hd : Lang (RSeq (re_deriv c a) b) s ↔ ∃ u v, s = u +:+ v ∧ Lang a (String c u) ∧ Lang b v).
    { split.
      - intros (u & v & -> & H1 & H2)%lang_seq_inv. apply IHa in H1. eauto.
      - intros (u & v & -> & H1 & H2). apply L_seq; [by apply IHa|done]. }
    rewrite Hseq. destruct (re_nullable a) eqn:E.
    + apply re_nullable_spec in E. split.
      * inversion 1; subst; [left; by apply Hd|right; split; [done|by apply IHb]].
      * intros [H|[_ H]]; [apply L_alt_l; by apply Hd|apply L_alt_r; by apply IHb].
    + rewrite Hd. split; [auto|]. intros [H|[H _]]; [done|].
      apply re_nullable_spec in H. congruence.
  - split; inversion 1; subst.
    + by apply L_alt_l, IHa. + by apply L_alt_r, IHb.
    + by apply L_alt_l, IHa. + by apply L_alt_r, IHb.
  - split.
    + intros (u & v & -> & H1 & H2)%lang_seq_inv.
      apply (L_star_cons a (String c u) v); [by apply IHa|done].
    + intros (u & v & -> & H1 & H2)%lang_star_cons_inv.
      apply L_seq; [by apply IHa|done].
Qed.

Lemma re_prefix_spec r s : re_prefix r s = true ↔ ∃ u v, s = u +:+ v ∧ Lang r u.
Proof.
  revert r. induction s as [|c s IH]; intros r; simpl.
  - rewrite orb_false_r, re_nullable_spec. split.
    + intros H. by exists "", "".
    + intros (u & v & E & H). by destruct u.
  - rewrite orb_true_iff, re_nullable_spec, IH. split.
    + intros [H|(u & v & -> & H)].
      * by exists "", (String c s).
      * exists (String c u), v. split; [done|]. by apply re_deriv_spec.
    + intros ([|x u] & v & E & H); simpl in E.
      * auto.
      * injection E as -> ->. right. exists u, v. split; [done|]. by apply re_deriv_spec.
Qed.

(** The executable search is "some substring is in the language". *)
Lemma re_search_spec r s : re_search r s = true ↔ ∃ a m b, s = a +:+ m +:+ b ∧ Lang r m.
Proof.
  induction s as [|c s IH]; cbn [re_search]; rewrite orb_true_iff, re_prefix_spec.
  - split.
    + intros [(u & v & E & H)|]; [|done]. by exists "", u, v.
    + intros (a & m & b & E & H). left. destruct a; [|done]. by exists m, b.
  - rewrite IH. split.
    + intros [(u & v & E & H)|(a & m & b & -> & H)].
      * by exists "", u, v.
      * by exists (String c a), m, b.
    + intros ([|x a] & m & b & E & H); simpl in E.
      * left. by exists m, b.
      * injection E as -> ->. right. by exists a, m, b.
Qed.

Lemma lang_digits s : Lang (RStar RDigit) s ↔ AllDigits s.
Proof.
  unfold AllDigits. split.
  - intros H. remember (RStar RDigit) as r eqn:E. induction H as [| | | | | | |a s t H1 _ H2 IH2]; simplify_eq.
    + constructor.
    + rewrite list_ascii_app. apply Forall_app. split; [|auto].
      inversion H1; subst. simpl. by apply Forall_singleton.
  - induction s as [|c s IH]; simpl; [constructor|].
    intros [H1 H2]%Forall_cons. apply (L_star_cons RDigit (String c "") s); [by constructor|auto].
Qed.

Lemma lang_repl_id s : Lang repl_id_regex s ↔ WellFormedId s.
Proof.
  unfold repl_id_regex, WellFormedId. split.
  - intros (u & v & -> & H1 & H2)%lang_seq_inv.
    apply lang_seq_inv in H2 as (u' & v' & -> & H3 & H4). inversion H3; subst.
    exists u, v'. by rewrite <-!lang_digits.
  - intros (a & b & -> & Ha & Hb). rewrite <-lang_digits in Ha, Hb.
    apply L_seq; [done|]. apply L_seq; [constructor|done].
Qed.

Lemma valid_ticket_id_spec s : valid_ticket_id s = true ↔ HasDash s.
Proof.
  unfold valid_ticket_id, HasDash. rewrite re_search_spec. split.
  - intros (a & m & b & -> & (u & v & -> & _ & _)%lang_repl_id).
    exists (a +:+ u), (v +:+ b). by rewrite !app_assoc_s.
  - intros (a & b & ->). exists a, "-", b. split; [done|].
    apply lang_repl_id. exists "", "". split; [done|]. by split; constructor.
Qed.

Lemma formatted_id_wf t k :
  (0 <= t)%Z → (0 <= k)%Z → WellFormedId (format_Z t +:+ "-" +:+ format_Z k).
Proof.
  intros Ht Hk. exists (format_Z t), (format_Z k). split; [done|].
  rewrite !format_Z_nonneg by done. split; apply all_digits_spec, format_N_digits.
Qed.

Lemma wf_has_dash s : WellFormedId s → HasDash s.
Proof. intros (a & b & -> & _). by exists a, b. Qed.
