(** Port selection, log levels, HTTP routes. *)
From Coq Require Import Ascii String ZArith NArith Lia ZifyBool.
From stdpp Require Import prelude strings.
From Verif.Model Require Import GoStrings Chunk Port Logging Gateway.
From Verif.Spec Require Import StringSpec MiscSpec.
From Verif.Proofs Require Import StringLemmas ChunkLemmas.
Local Open Scope string_scope.

(** ** Numbers *)
Lemma dv_app acc s t : dv acc (s +:+ t) = dv (dv acc s) t.
Proof. revert acc. induction s as [|c s IH]; intros acc; simpl; [done|]. apply IH. Qed.
Lemma dv_digit acc d : (d < 10)%N → dv acc (digit_of d) = (acc * 10 + d)%N.
Proof. intros Hd. unfold digit_of. cbn [dv]. f_equal. exact (digit_val_char d Hd). Qed.
Lemma digits_digit d : (d < 10)%N → all_digits (digit_of d) = true.
Proof.
  intros Hd. unfold digit_of. change (ascii_of_N (48 + d)) with (digit_char d). cbn [all_digits].
  by rewrite digit_char_is_digit.
Qed.
Lemma digit_inv c : is_digit c = true → ∃ d, (d < 10)%N ∧ String c "" = digit_of d.
Proof.
  intros H. exists (digit_val c). unfold is_digit in H. unfold digit_of, digit_val. split; [lia|].
  f_equal. replace (48 + (N_of_ascii c - 48))%N with (N_of_ascii c) by lia. by rewrite ascii_N_embedding.
Qed.
Lemma string_snoc s : s = "" ∨ ∃ s' c, s = s' +:+ String c "".
Proof.
  induction s as [|c s [->|(s' & d & ->)]]; [by left| |]; right.
  - by exists "", c.
  - by exists (String c s'), d.
Qed.

Lemma has_value_iff s n : HasValue s n ↔ s ≠ "" ∧ all_digits s = true ∧ dv 0 s = n.
Proof.
  split.
  - induction 1 as [d Hd|s n d _ (H1 & H2 & H3) Hd].
    + split; [done|]. split; [by apply digits_digit|]. rewrite dv_digit by done. lia.
    + split; [by destruct s|]. split; [by rewrite all_digits_app, H2, digits_digit|].
      rewrite dv_app, H3, dv_digit by done. lia.
  - intros (Hne & Hd & <-). remember (String.length s) as k eqn:Hk. revert s Hk Hne Hd.
    induction k as [|k IH]; intros s Hk Hne Hd; [by destruct s|].
    destruct (string_snoc s) as [->|(s' & c & ->)]; [done|].
    rewrite all_digits_app in Hd. apply andb_true_iff in Hd as [Hd1 Hd2]. cbn [all_digits] in Hd2.
    rewrite andb_true_r in Hd2. destruct (digit_inv c Hd2) as (d & Hlt & Hc). rewrite Hc.
    rewrite dv_app, dv_digit by done.
    rewrite app_length_s in Hk. cbn [String.length] in Hk.
    destruct s' as [|c' s'].
    + cbn [String.append dv]. replace (0 * 10 + d)%N with d by lia. by constructor.
    + replace (dv 0 (String c' s') * 10 + d)%N with (10 * dv 0 (String c' s') + d)%N by lia.
      constructor; [|done]. apply IH; [lia|done|done].
Qed.

Lemma parse_uint_loop_ok acc s v : parse_uint_loop acc s = PRok v → all_digits s = true ∧ v = dv acc s.
Proof.
  revert acc. induction s as [|c s IH]; intros acc H; cbn [parse_uint_loop all_digits dv] in *; [by simplify_eq|].
  destruct (is_digit c); [|done]. destruct (_ <=? _)%N; [done|]. destruct (_ <? _)%N; [done|].
  destruct (IH _ H) as [-> ->]. done.
Qed.
Lemma parse_uint_loop_range acc s v : parse_uint_loop acc s = PRrange v → v = max_u64.
Proof.
  revert acc. induction s as [|c s IH]; intros acc H; cbn [parse_uint_loop] in *; [done|].
  destruct (is_digit c); [|done]. destruct (_ <=? _)%N; [by simplify_eq|]. destruct (_ <? _)%N; [by simplify_eq|]. by eapply IH.
Qed.
Lemma parse_uint_ok s v : (v <= max_u64)%N → parse_uint s = PRok v ↔ HasValue s v.
Proof.
  intros Hv. rewrite has_value_iff. unfold parse_uint. split.
  - destruct s as [|c s]; [done|]. intros H. apply parse_uint_loop_ok in H as [H1 ->]. done.
  - intros (Hne & Hd & <-). destruct s as [|c s]; [done|]. by apply parse_uint_loop_digits.
Qed.
Lemma parse_uint_ok_inv s v : parse_uint s = PRok v → HasValue s v.
Proof.
  intros H. apply has_value_iff. unfold parse_uint in H. destruct s as [|c s]; [done|].
  apply parse_uint_loop_ok in H as [H1 ->]. done.
Qed.
Lemma parse_uint_range s v : parse_uint s = PRrange v → v = max_u64.
Proof. unfold parse_uint. destruct s; [done|]. apply parse_uint_loop_range. Qed.

Lemma signed_ok neg s z :
  parse_int_signed (2 ^ 63) neg (parse_uint s) = PRok z ↔
  ∃ n, HasValue s n ∧ z = (if neg then - Z.of_N n else Z.of_N n)%Z ∧ (- 2 ^ 63 <= z < 2 ^ 63)%Z.
Proof.
  change (2 ^ 63)%Z with 9223372036854775808%Z. split.
  - unfold parse_int_signed. destruct (parse_uint s) as [u| |u] eqn:E; [|done|].
    + apply parse_uint_ok_inv in E. intros H. exists u. split; [done|].
      destruct (negb neg && _) eqn:E1; [done|]. destruct (neg && _) eqn:E2; [done|]. injection H as <-.
      destruct neg; simpl in E1, E2; lia.
    + apply parse_uint_range in E as ->. by destruct neg.
  - intros (n & Hn & -> & Hr).
    assert (parse_uint s = PRok n) as ->.
    { apply parse_uint_ok; [|done]. change max_u64 with 18446744073709551615%N. destruct neg; lia. }
    unfold parse_int_signed. destruct neg; cbn [negb andb].
    + replace (9223372036854775808 <? Z.of_N n)%Z with false by lia. done.
    + replace (9223372036854775808 <=? Z.of_N n)%Z with false by lia. done.
Qed.

Lemma has_value_head s n : HasValue s n → ∃ c s', s = String c s' ∧ is_digit c = true.
Proof.
  intros (Hne & Hd & _)%has_value_iff. destruct s as [|c s]; [done|]. cbn in Hd. apply andb_true_iff in Hd as [Hc _]. eauto.
Qed.

Lemma parse_int_ok s z : parse_int s = PRok z ↔ SignedDecimal s z ∧ (- 2 ^ 63 <= z < 2 ^ 63)%Z.
Proof.
  unfold SignedDecimal. destruct s as [|c s].
  { split; [done|]. intros [(ds & n & Hv & H) _]. destruct (has_value_head _ _ Hv) as (c & s & -> & _).
    destruct H as [[[H|H] _]|[H _]]; done. }
  cbn [parse_int].
  destruct (Ascii.eqb c "+") eqn:E1; [|destruct (Ascii.eqb c "-") eqn:E2].
  - apply Ascii.eqb_eq in E1 as ->. rewrite signed_ok. split.
    + intros (n & Hn & -> & Hr). split; [|done]. exists s, n. split; [done|]. left. split; [by right|done].
    + intros [(ds & n & Hv & H) Hr]. destruct (has_value_head _ _ Hv) as (c' & s' & -> & Hc').
      destruct H as [[[H|H] ->]|[H _]].
      * injection H as <- <-. done.
      * cbn in H. injection H as ->. exists n. done.
      * done.
  - apply Ascii.eqb_eq in E2 as ->. rewrite signed_ok. split.
    + intros (n & Hn & -> & Hr). split; [|done]. exists s, n. split; [done|]. right. done.
    + intros [(ds & n & Hv & H) Hr]. destruct (has_value_head _ _ Hv) as (c' & s' & -> & Hc').
      destruct H as [[[H|H] ->]|[H ->]].
      * injection H as <- <-. done.
      * done.
      * cbn in H. injection H as ->. exists n. done.
  - rewrite signed_ok. split.
    + intros (n & Hn & -> & Hr). split; [|done]. exists (String c s), n. split; [done|]. left. split; [by left|done].
    + intros [(ds & n & Hv & H) Hr]. destruct H as [[[->|H] ->]|[H ->]].
      * by exists n.
      * cbn in H. injection H as -> _. done.
      * cbn in H. injection H as -> _. done.
Qed.

Lemma port_decimal s z : SignedDecimal s z → (- 2 ^ 63 <= z < 2 ^ 63)%Z → mmf_port (Some s) = wrap32 z.
Proof.
  intros Hs Hz. unfold mmf_port, atoi. assert (parse_int s = PRok z) as -> by by apply parse_int_ok. done.
Qed.
Lemma port_default s : (¬ ∃ z, SignedDecimal s z ∧ (- 2 ^ 63 <= z < 2 ^ 63)%Z) → mmf_port (Some s) = 8081%Z.
Proof.
  intros H. unfold mmf_port, atoi. destruct (parse_int s) as [z| |z] eqn:E; [|done|done].
  exfalso. apply H. exists z. by apply parse_int_ok.
Qed.
Lemma wrap32_id z : (- 2 ^ 31 <= z < 2 ^ 31)%Z → wrap32 z = z.
Proof.
  intros H. unfold wrap32. change (2 ^ 31)%Z with 2147483648%Z in *. change (2 ^ 32)%Z with 4294967296%Z.
  rewrite Z.mod_small; lia.
Qed.
Lemma port_fits s z : SignedDecimal s z → (- 2 ^ 31 <= z < 2 ^ 31)%Z → mmf_port (Some s) = z.
Proof.
  intros Hs Hz. rewrite (port_decimal s z Hs); [by apply wrap32_id|].
  change (2 ^ 31)%Z with 2147483648%Z in *. change (2 ^ 63)%Z with 9223372036854775808%Z. lia.
Qed.

(** ** Letter case *)
Fixpoint lower_word (w : string) : bool :=
  match w with
  | "" => true
  | String d w' => ((97 <=? N_of_ascii d) && (N_of_ascii d <=? 122))%N && lower_word w'
  end.

Lemma is_byte_eq n c : is_byte n c = true → c = ascii_of_N n.
Proof. unfold is_byte. intros H. apply N.eqb_eq in H. rewrite <-H. by rewrite ascii_N_embedding. Qed.

Lemma lower_char_variant c d :
  ((97 <=? N_of_ascii d) && (N_of_ascii d <=? 122))%N = true → lower_char c = d → CaseVariant c d.
Proof.
  intros Hd H. exists (N_of_ascii d - 97)%N. split; [lia|].
  split; [replace (97 + (N_of_ascii d - 97))%N with (N_of_ascii d) by lia; by rewrite ascii_N_embedding|].
  unfold lower_char in H. destruct ((65 <=? N_of_ascii c) && (N_of_ascii c <=? 90))%N eqn:E.
  - right. subst d. assert (N_of_ascii (ascii_of_N (N_of_ascii c + 32)) = N_of_ascii c + 32)%N as Hn.
    { apply N_ascii_embedding. lia. }
    rewrite Hn. replace (65 + (N_of_ascii c + 32 - 97))%N with (N_of_ascii c) by lia. by rewrite ascii_N_embedding.
  - by left.
Qed.

Lemma variant_ascii c d : CaseVariant c d → (N_of_ascii c < 128)%N ∧ lower_char c = d.
Proof.
  intros (k & Hk & -> & H). assert (N_of_ascii (ascii_of_N (97 + k)) = 97 + k)%N as H1 by (apply N_ascii_embedding; lia).
  assert (N_of_ascii (ascii_of_N (65 + k)) = 65 + k)%N as H2 by (apply N_ascii_embedding; lia).
  unfold lower_char. destruct H as [->| ->].
  - rewrite H1. split; [lia|]. replace ((65 <=? 97 + k) && (97 + k <=? 90))%N with false by lia. done.
  - rewrite H2. split; [lia|]. replace ((65 <=? 65 + k) && (65 + k <=? 90))%N with true by lia. f_equal. lia.
Qed.

Lemma lower_ascii c s : (N_of_ascii c < 128)%N → lower (String c s) = String (lower_char c) (lower s).
Proof.
  intros H. cbn [lower]. destruct s as [|d s]; [done|].
  assert (is_byte 196 c = false) as -> by (unfold is_byte; lia).
  assert (is_byte 226 c = false) as -> by (unfold is_byte; lia). cbn [andb]. by destruct s.
Qed.

Lemma lower_folds w s : lower_word w = true → lower s = w ↔ Folds s w.
Proof.
  intros Hw. split.
  - remember (String.length s) as k eqn:Hk.
    assert (String.length s ≤ k) as Hle by lia. clear Hk. revert s w Hle Hw.
    induction k as [|k IH]; intros s w Hle Hw H.
    { destruct s; [|simpl in Hle; lia]. simpl in H. subst. constructor. }
    destruct s as [|c s1]; [simpl in H; subst; constructor|]. cbn [lower] in H.
    destruct s1 as [|d s2].
    { subst w. cbn [lower_word] in Hw. apply andb_true_iff in Hw as [Hd _]. constructor; [by apply lower_char_variant|constructor]. }
    cbn [String.length] in Hle.
    assert (String (lower_char c) (lower (String d s2)) = w → Folds (String c (String d s2)) w) as Hgen.
    { intros <-. cbn [lower_word] in Hw. apply andb_true_iff in Hw as [Hd Hw]. constructor; [by apply lower_char_variant|].
      apply IH; [cbn [String.length]; lia|done|done]. }
    destruct (is_byte 196 c && is_byte 176 d) eqn:E1.
    { apply andb_true_iff in E1 as [->%is_byte_eq ->%is_byte_eq]. subst w. cbn [lower_word] in Hw.
      apply andb_true_iff in Hw as [_ Hw]. apply F_dotted. apply IH; [lia|done|done]. }
    destruct s2 as [|e s3]; [by apply Hgen|].
    destruct (is_byte 226 c && is_byte 132 d && is_byte 170 e) eqn:E2.
    { apply andb_true_iff in E2 as [[->%is_byte_eq ->%is_byte_eq]%andb_true_iff ->%is_byte_eq]. subst w. cbn [lower_word] in Hw.
      apply andb_true_iff in Hw as [_ Hw]. apply F_kelvin. apply IH; [cbn [String.length] in Hle; lia|done|done]. }
    by apply Hgen.
  - intros H. clear Hw. induction H as [|c d s w Hv _ IH|s w _ IH|s w _ IH].
    + done.
    + apply variant_ascii in Hv as [H1 H2]. rewrite lower_ascii by done. by rewrite H2, IH.
    + change (lower (String (ascii_of_N 196) (String (ascii_of_N 176) s))) with (String "i" (lower s)). by rewrite IH.
    + change (lower (String (ascii_of_N 226) (String (ascii_of_N 132) (String (ascii_of_N 170) s)))) with (String "k" (lower s)).
      by rewrite IH.
Qed.

Lemma folds_eqb s w : lower_word w = true → String.eqb (lower s) w = true ↔ Folds s w.
Proof. intros Hw. rewrite String.eqb_eq. by apply lower_folds. Qed.

Lemma folds_fun s w w' : lower_word w = true → lower_word w' = true → Folds s w → Folds s w' → w = w'.
Proof. intros Hw Hw' H H'. apply lower_folds in H, H'; [|done..]. congruence. Qed.

Lemma to_level_spec s :
  (to_level s = LTrace ↔ Folds s "trace") ∧ (to_level s = LDebug ↔ Folds s "debug") ∧
  (to_level s = LWarn ↔ Folds s "warn" ∨ Folds s "warning") ∧ (to_level s = LError ↔ Folds s "error") ∧
  (to_level s = LFatal ↔ Folds s "fatal") ∧ (to_level s = LPanic ↔ Folds s "panic") ∧
  (to_level s = LInfo ↔ ∀ w, w ∈ ["trace"; "debug"; "warn"; "warning"; "error"; "fatal"; "panic"] → ¬ Folds s w) ∧
  (is_debug_level s = true ↔ Folds s "trace" ∨ Folds s "debug").
Proof.
  assert (∀ w, lower_word w = true → Folds s w ↔ lower s = w) as HF by (intros w Hw; by rewrite (lower_folds w s Hw)).
  assert (to_level s = LInfo ↔ lower s ∉ ["trace"; "debug"; "warn"; "warning"; "error"; "fatal"; "panic"]) as HI.
  { unfold to_level. cbv zeta. split.
    - intros H Hin. rewrite !elem_of_cons, elem_of_nil in Hin.
      destruct Hin as [E|[E|[E|[E|[E|[E|[E|[]]]]]]]]; rewrite E in H; discriminate H.
    - rewrite !not_elem_of_cons. intros (H1 & H2 & H3 & H4 & H5 & H6 & H7 & _).
      apply String.eqb_neq in H1, H2, H3, H4, H5, H6, H7. by rewrite H1, H2, H3, H4, H5, H6, H7. }
  assert ((∀ w, w ∈ ["trace"; "debug"; "warn"; "warning"; "error"; "fatal"; "panic"] → ¬ Folds s w) ↔
          lower s ∉ ["trace"; "debug"; "warn"; "warning"; "error"; "fatal"; "panic"]) as HN.
  { split.
    - intros H Hin. apply (H _ Hin). apply HF; [|done]. clear -Hin. rewrite !elem_of_cons, elem_of_nil in Hin.
      by destruct Hin as [->|[->|[->|[->|[->|[->|[->|[]]]]]]]].
    - intros H w Hin Hf. apply H. assert (lower_word w = true) as Hw.
      { clear -Hin. rewrite !elem_of_cons, elem_of_nil in Hin. by destruct Hin as [->|[->|[->|[->|[->|[->|[->|[]]]]]]]]. }
      apply (HF w Hw) in Hf. by rewrite Hf. }
  rewrite HN, <-HI, !HF by done. clear HN HF HI. unfold is_debug_level, to_level. cbv zeta.
  destruct (decide (lower s ∈ ["trace"; "debug"; "warn"; "warning"; "error"; "fatal"; "panic"])) as [Hin|Hin].
  - rewrite !elem_of_cons, elem_of_nil in Hin.
    destruct Hin as [E|[E|[E|[E|[E|[E|[E|[]]]]]]]]; rewrite !E; cbn; repeat split; intros; tauto || naive_solver.
  - rewrite !not_elem_of_cons in Hin. destruct Hin as (H1 & H2 & H3 & H4 & H5 & H6 & H7 & _).
    pose proof H1 as N1. pose proof H2 as N2. pose proof H3 as N3. pose proof H4 as N4.
    pose proof H5 as N5. pose proof H6 as N6. pose proof H7 as N7.
    apply String.eqb_neq in H1, H2, H3, H4, H5, H6, H7. rewrite H1, H2, H3, H4, H5, H6, H7. cbn.
    clear H1 H2 H3 H4 H5 H6 H7. repeat split; intros; tauto || naive_solver.
Qed.

(** ** Routes *)
Fixpoint join_slash (ws : list string) : string :=
  match ws with
  | [] => ""
  | [w] => w
  | w :: ws' => w +:+ String "/" (join_slash ws')
  end.

Lemma split_nonempty s : split_slash s ≠ [].
Proof. destruct s as [|c s]; simpl; [done|]. destruct (Ascii.eqb c "/"); [done|]. by destruct (split_slash s). Qed.

Lemma join_split s : join_slash (split_slash s) = s.
Proof.
  induction s as [|c s IH]; [done|]. cbn [split_slash]. pose proof (split_nonempty s) as Hne.
  destruct (Ascii.eqb c "/") eqn:E.
  - apply Ascii.eqb_eq in E as ->. destruct (split_slash s) as [|w ws]; [done|]. cbn [join_slash String.append] in *. by rewrite IH.
  - destruct (split_slash s) as [|w ws]; [done|]. destruct ws as [|w' ws]; cbn [join_slash String.append] in *; by rewrite <-IH.
Qed.

Lemma strip_suffix_some suf s w : strip_suffix suf s = Some w → s = w +:+ suf.
Proof.
  revert w. induction s as [|c s IH]; intros w H; cbn [strip_suffix] in H.
  - destruct (String.eqb_spec "" suf) as [<-|]; [|done]. by simplify_eq.
  - destruct (String.eqb_spec (String c s) suf) as [<-|]; [by simplify_eq|].
    destruct (strip_suffix suf s) as [w'|]; [|done]. injection H as <-. cbn. by rewrite (IH w').
Qed.

Lemma try_reaches hs init lst r : try_handlers hs init lst = Reaches r →
  ∃ pat, (pat, r) ∈ hs ∧ ∃ w, (init ++ [w])%list = pat_comps pat ∧
    lst = (if String.eqb (pat_verb pat) "" then w else w +:+ ":" +:+ pat_verb pat).
Proof.
  induction hs as [|[pat r'] hs IH]; cbn [try_handlers]; [done|]. intros H.
  assert (try_handlers hs init lst = Reaches r →
    ∃ pat0, (pat0, r) ∈ (pat, r') :: hs ∧ ∃ w, (init ++ [w])%list = pat_comps pat0 ∧
    lst = (if String.eqb (pat_verb pat0) "" then w else w +:+ ":" +:+ pat_verb pat0)) as Hrec.
  { intros Hr. destruct (IH Hr) as (p & Hp & Hw). exists p. split; [by right|done]. }
  destruct (String.eqb (pat_verb pat) "") eqn:Ev; cbn [andb] in H.
  - case_bool_decide as Ec; [|by apply Hrec]. injection H as <-. exists pat. split; [left|]. exists lst. by rewrite Ev.
  - destruct (strip_suffix (":" +:+ pat_verb pat) lst) as [w|] eqn:Es.
    + apply strip_suffix_some in Es. destruct w as [|c w]; [done|].
      case_bool_decide as Ec; [|by apply Hrec]. injection H as <-. exists pat. split; [left|].
      exists (String c w). by rewrite Ev.
    + by apply Hrec.
Qed.

Lemma handlers_reg meth pat r : (pat, r) ∈ handlers meth → (meth, pat, r) ∈ registrations.
Proof.
  unfold handlers. rewrite elem_of_reverse, elem_of_list_omap. intros ([[m p] r'] & Hin & H). cbn [fst snd] in H.
  destruct (String.eqb_spec m meth) as [->|]; [|done]. by injection H as -> ->.
Qed.

Lemma serve_spec meth path r : serve meth path = Reaches r ↔ (meth, path) = route r.
Proof.
  split.
  - unfold serve. intros H. destruct path as [|c rest]; [done|].
    destruct (Ascii.eqb_spec c "/") as [->|Hc].
    2: { exfalso. destruct c as [[] [] [] [] [] [] [] []]; try discriminate H. by apply Hc. }
    apply try_reaches in H as (pat & Hin & w & Hw & Hl). apply handlers_reg in Hin.
    rewrite <-(join_split rest). rewrite (app_removelast_last "" (split_nonempty rest)).
    set (init := removelast (split_slash rest)) in *. set (lst := List.last (split_slash rest) "") in *.
    rewrite Hl. clear Hl. unfold registrations in Hin. rewrite !elem_of_cons, elem_of_nil in Hin.
    destruct Hin as [[= -> -> ->]|[[= -> -> ->]|[[= -> -> ->]|[[= -> -> ->]|[[= -> -> ->]|[[= -> -> ->]|[]]]]]]];
      cbn [pat_comps pat_verb] in *; destruct init as [|a [|b init]]; try (by destruct init); try discriminate Hw;
      injection Hw as -> ->; reflexivity.
  - intros H. destruct r; cbn [route] in H; injection H as -> ->; vm_compute; reflexivity.
Qed.

Lemma routes_distinct r r' : route r = route r' → r = r'.
Proof. by destruct r, r'. Qed.

Lemma serve_http_spec upper m ct ov path r :
  serve_http upper m ct ov path = Reaches r ↔
  (m, path) = route r ∧ ¬ MethodOverridden m ct ov ∨ MethodOverridden m ct ov ∧ (upper ov, path) = route r.
Proof.
  unfold serve_http, effective_method, MethodOverridden. rewrite serve_spec.
  destruct (String.eqb_spec ov ""); destruct (String.eqb_spec m "POST");
    destruct (String.eqb_spec ct "application/x-www-form-urlencoded"); cbn [negb andb]; naive_solver.
Qed.
Lemma serve_http_method upper m ct ov path r :
  serve_http upper m ct ov path = Reaches r →
  path = (route r).2 ∧
  (m = (route r).1 ∨ r = DeactivateTicketsRpc ∧ MethodOverridden m ct ov ∧ upper ov = "DELETE").
Proof.
  rewrite serve_http_spec. intros [[E H]|[Ho E]].
  - destruct (route r) as [m' p']. cbn. injection E as -> ->. split; [done|by left].
  - destruct (decide (r = DeactivateTicketsRpc)) as [->|Hne].
    + injection E as E1 E2. split; [exact E2|]. right. done.
    + destruct Ho as (-> & ? & ?). destruct r; try done; injection E as E1 E2; (split; [exact E2|left; reflexivity]).
Qed.
