(** Lemmas for C143 and C144: finding numbers in texts. *)
From Coq Require Import Ascii String ZArith NArith Lia.
From stdpp Require Import prelude strings.
From Verif.Model Require Import GoStrings Types HttpStream JsonText JsonBytes Calendar JsonNumber.
From Verif.Spec Require Import CalendarSpec HttpSpec JsonSpec JsonTextSpec JsonBytesSpec NumberSpec.
From Verif.Proofs Require Import StringLemmas HttpLemmas Utf8TextLemmas JsonBytesLemmas CalendarText.
Local Open Scope string_scope.
Local Open Scope Z_scope.
Local Arguments String.append _ _ : simpl nomatch.

(** ** Tokens *)
Definition first_nonzero (ip : string) : Prop := ip = "0" ∨ all_digits ip = true ∧ ip ≠ "" ∧ ∀ r, ip ≠ String "0" r.
Inductive TokExp : option (string * string) → string → Prop :=
| TE_none : TokExp None ""
| TE_some c sg ds : ExpChar c → sg = "" ∨ sg = "+" ∨ sg = "-" → all_digits ds = true → TokExp (Some (sg, ds)) (String c (sg +:+ ds)).
Inductive TokText : token → string → Prop :=
| TokT sg neg ip fp ds e ep : SignText sg neg → first_nonzero ip → FracPart fp ds → TokExp e ep →
    TokText (Token neg ip ds e) (sg +:+ ip +:+ fp +:+ ep).

Lemma num_digits ds : (∃ w n, Num (S w) n ds) ↔ all_digits ds = true ∧ ds ≠ "".
Proof.
  split.
  - intros (w & n & H). apply num_iff in H as (Hl & Hd & _). split; [done|]. by intros ->.
  - intros [Hd Hne]. destruct ds as [|c ds]; [done|]. exists (String.length ds), (value 0 (String c ds)). by apply num_iff.
Qed.
Lemma int_text_iff ip : IntText ip ↔ first_nonzero ip.
Proof. unfold IntText, first_nonzero. rewrite num_digits. naive_solver. Qed.

Lemma not_delim_iff c : not_delim c = true ↔ WordChar c.
Proof.
  unfold not_delim, letter, is_digit, WordChar. rewrite !orb_true_iff, !andb_true_iff, !N.leb_le, !Ascii.eqb_eq. naive_solver.
Qed.
Lemma delimited_iff s : delimited s = true ↔ NoWord s.
Proof.
  unfold delimited, NoWord. destruct s as [|c r]; [split; [intros _ c r; done|done]|]. rewrite negb_true_iff, <- not_true_iff_false, not_delim_iff.
  split; [by intros H c' r' [= <- <-]|]. intros H. by apply (H c r).
Qed.
Lemma delimited_digit s : delimited s = true → digit_first s = false.
Proof.
  destruct s as [|c r]; [done|]. cbn. unfold not_delim. rewrite negb_true_iff, !orb_false_iff. naive_solver.
Qed.

Lemma word_e : WordChar "e" ∧ WordChar "E".
Proof. split; apply not_delim_iff; done. Qed.
Lemma digit_chars c : is_digit c = true → (48 <= N_of_ascii c <= 57)%N.
Proof. unfold is_digit. by rewrite andb_true_iff, !N.leb_le. Qed.
Lemma sign_scan_minus s : scan_sign ("-" +:+ s) = (true, s).
Proof. reflexivity. Qed.
Lemma scan_sign_spec s : ∃ sg, SignText sg (scan_sign s).1 ∧ s = sg +:+ (scan_sign s).2.
Proof.
  destruct s as [|c r]; cbn; [by exists ""; split; [constructor|]|]. destruct (Ascii.eqb_spec c "-") as [-> |].
  - by exists "-"; split; [constructor|].
  - by exists ""; split; [constructor|].
Qed.
Lemma scan_int_spec s ip r : scan_int s = Some (ip, r) → s = ip +:+ r ∧ first_nonzero ip ∧ (ip = "0" ∨ digit_first r = false).
Proof.
  destruct s as [|c s]; [done|]. cbn [scan_int]. destruct (Ascii.eqb_spec c "0") as [-> |Hc].
  - intros [= <- <-]. split; [done|]. by split; [left|left].
  - destruct (is_digit c) eqn:Ed; [|done]. intros E. apply (inj Some) in E. pose proof (span_spec (String c s)) as (H1 & H2 & H3). rewrite E in *. cbn [fst snd] in *.
    split; [done|]. split; [|by right]. right. split; [done|].
    assert (∃ ip', ip = String c ip') as (ip' & ->).
    { destruct ip as [|x ip']; [|injection H1 as <- _; by eexists]. cbn in H1. rewrite <- H1 in H3. cbn in H3. congruence. }
    split; [done|]. by intros r' [= ->].
Qed.
Lemma scan_int_ok ip r : first_nonzero ip → digit_first r = false → scan_int (ip +:+ r) = Some (ip, r).
Proof.
  intros [-> |(Hd & Hne & Hz)] Hr; [done|]. destruct ip as [|c ip]; [done|]. cbn [scan_int String.append].
  destruct (Ascii.eqb_spec c "0") as [-> |Hc]; [by destruct (Hz ip)|]. cbn in Hd. apply andb_true_iff in Hd as [Hc' Hd]. rewrite Hc'.
  f_equal. change (String c (ip +:+ r)) with (String c ip +:+ r). apply span_app; [|done]. cbn. by rewrite Hc', Hd.
Qed.
Lemma scan_frac_spec s : ∃ fp, FracPart fp (scan_frac s).1 ∧ s = fp +:+ (scan_frac s).2 ∧ (fp ≠ "" → digit_first (scan_frac s).2 = false).
Proof.
  destruct s as [|c r]; cbn [scan_frac]; [by exists ""; split_and!; [constructor|done|done]|].
  pose proof (span_spec r) as (H1 & H2 & H3). destruct (span_digits r) as [ds r'] eqn:E. cbn [fst snd] in *.
  destruct (Ascii.eqb_spec c ".") as [-> |Hc]; cbn [andb]; [|by exists ""; split_and!; [constructor|done|done]].
  destruct (String.eqb_spec ds "") as [-> |Hne]; cbn [negb]; [by exists ""; split_and!; [constructor|done|done]|].
  exists (String "." ds). cbn [fst snd]. split_and!; [|by rewrite H1|done]. destruct (num_digits ds) as [_ (w & n & Hn)]; [done|]. by apply (FP_some w n).
Qed.
Lemma scan_frac_ok fp ds r : FracPart fp ds → digit_first r = false → (∀ q, r ≠ String "." q) → scan_frac (fp +:+ r) = (ds, r).
Proof.
  intros [|w n ds' Hn] Hr Hdot.
  - destruct r as [|c r]; [done|]. cbn [scan_frac String.append]. destruct (span_digits r) as [a b'].
    destruct (Ascii.eqb_spec c ".") as [-> |]; [by destruct (Hdot r)|done].
  - destruct (num_digits ds') as [H _]. destruct H as [Hd Hne]; [by eexists _, _|]. cbn [scan_frac String.append]. rewrite span_app by done.
    change (Ascii.eqb "." ".") with true. cbn [andb]. by destruct (String.eqb_spec ds' "").
Qed.
Lemma exp_sign_spec s : ∃ sg, (exp_sign s).1 = sg ∧ (sg = "" ∨ sg = "+" ∨ sg = "-") ∧ s = sg +:+ (exp_sign s).2.
Proof.
  destruct s as [|c r]; cbn [exp_sign]; [by exists ""; split_and!; [|left|]|]. destruct (Ascii.eqb_spec c "+") as [-> |]; cbn [orb fst snd].
  { exists "+". split_and!; [done|by right; left|done]. }
  destruct (Ascii.eqb_spec c "-") as [-> |]; cbn [fst snd]; [exists "-"; split_and!; [done|by right; right|done]|].
  exists "". split_and!; [done|by left|done].
Qed.
Lemma exp_sign_ok sg r : (sg = "" ∨ sg = "+" ∨ sg = "-") → (sg = "" → ∀ c q, r = String c q → c ≠ "+"%char ∧ c ≠ "-"%char) → exp_sign (sg +:+ r) = (sg, r).
Proof.
  intros [-> |[-> | ->]] H; [|done|done]. destruct r as [|c r]; [done|]. cbn [exp_sign String.append].
  destruct (H eq_refl c r eq_refl) as [H1 H2]. destruct (Ascii.eqb_spec c "+"); [done|]. destruct (Ascii.eqb_spec c "-"); done.
Qed.
Lemma scan_exp_spec s e r : scan_exp s = Some (e, r) → ∃ ep, TokExp e ep ∧ s = ep +:+ r ∧
  (∀ sg, e = Some (sg, "") → r ≠ "").
Proof.
  destruct s as [|c s]; cbn [scan_exp]; [intros [= <- <-]; exists ""; split_and!; [constructor|done|done]|].
  destruct ((Ascii.eqb c "e" || Ascii.eqb c "E") && negb (String.eqb s "")) eqn:E.
  - apply andb_true_iff in E as [Ec Es]. rewrite orb_true_iff, !Ascii.eqb_eq in Ec. rewrite negb_true_iff, String.eqb_neq in Es.
    destruct (exp_sign_spec s) as (sg & Esg & Hsg & Hs). destruct (exp_sign s) as [sg' r1]. cbn [fst snd] in *. subst sg'.
    destruct (negb (String.eqb sg "") && String.eqb r1 "") eqn:E1; [done|]. pose proof (span_spec r1) as (H1 & H2 & H3).
    destruct (span_digits r1) as [ds r2]. cbn [fst snd] in *. intros [= <- <-]. exists (String c (sg +:+ ds)).
    split; [by constructor|]. split; [rewrite Hs, H1; cbn; by rewrite app_assoc_s|]. intros sg' [= <- ->] ->. cbn in H1. subst r1.
    apply andb_false_iff in E1 as [E1|E1]; [|done]. rewrite negb_false_iff, String.eqb_eq in E1. subst sg. by rewrite Hs in Es.
  - intros [= <- <-]. exists "". split_and!; [constructor|done|done].
Qed.
Lemma scan_exp_ok e ep r : TokExp e ep → delimited r = true → (∀ sg, e = Some (sg, "") → r ≠ "") → scan_exp (ep +:+ r) = Some (e, r).
Proof.
  intros [|c sg ds Hc Hsg Hd] Hr Hne.
  - destruct r as [|c r]; [done|]. cbn [scan_exp String.append]. assert (Ascii.eqb c "e" || Ascii.eqb c "E" = false) as ->; [|done].
    cbn in Hr. rewrite negb_true_iff, <- not_true_iff_false, not_delim_iff in Hr. apply not_true_iff_false. rewrite orb_true_iff, !Ascii.eqb_eq.
    intros [-> | ->]; apply Hr; apply word_e.
  - cbn [scan_exp String.append]. assert (Ascii.eqb c "e" || Ascii.eqb c "E" = true) as -> by (rewrite orb_true_iff, !Ascii.eqb_eq; done).
    cbn [andb]. rewrite app_assoc_s.
    assert (∀ x q, ds +:+ r = String x q → x ≠ "+"%char ∧ x ≠ "-"%char) as Hx.
    { intros x q E. destruct ds as [|y ds].
      - cbn in E. subst r. cbn in Hr. rewrite negb_true_iff, <- not_true_iff_false, not_delim_iff in Hr.
        split; intros ->; apply Hr; right; [by right; left|by left].
      - injection E as <- _. cbn in Hd. apply andb_true_iff in Hd as [Hd _]. split; intros ->; done. }
    assert (sg +:+ ds +:+ r ≠ "") as H0.
    { destruct Hsg as [-> |[-> | ->]]; [|done|done]. destruct ds; [|done]. cbn. by apply (Hne ""). }
    destruct (String.eqb_spec (sg +:+ ds +:+ r) ""); [done|]. cbn [negb]. rewrite exp_sign_ok; [|done|intros _; exact Hx].
    assert (negb (String.eqb sg "") && String.eqb (ds +:+ r) "" = false) as ->.
    { apply andb_false_iff. right. apply String.eqb_neq. destruct ds; [|done]. cbn. by apply (Hne sg). }
    rewrite span_app; [done|done|by apply delimited_digit].
Qed.
Lemma tokexp_first e ep r : TokExp e ep → delimited r = true → digit_first (ep +:+ r) = false ∧ ∀ q, ep +:+ r ≠ String "." q.
Proof.
  intros [|c sg ds Hc Hsg Hd] Hr.
  - cbn. split; [by apply delimited_digit|]. intros q ->. cbn in Hr. done.
  - split; [by destruct Hc as [-> | ->]|]. intros q [= -> _]. by destruct Hc.
Qed.
Lemma fracpart_first fp ds r : FracPart fp ds → digit_first r = false → digit_first (fp +:+ r) = false.
Proof. intros [|w n ds' Hn] Hr; done. Qed.

Lemma scan_iff s tok rest : scan_number s = Some (tok, rest) ↔
  ∃ t, s = t +:+ rest ∧ TokText tok t ∧ NoWord rest ∧ (∀ sg, nt_exp tok = Some (sg, "") → rest ≠ "").
Proof.
  unfold scan_number. split.
  - destruct (scan_sign_spec s) as (sg & Hsg & Hs). destruct (scan_sign s) as [neg s1]. cbn [fst snd] in *.
    destruct (scan_int s1) as [[ip s2]|] eqn:Ei; [|done]. cbn [mbind option_bind]. apply scan_int_spec in Ei as (H1 & H2 & _).
    destruct (scan_frac_spec s2) as (fp & Hfp & H3 & _). destruct (scan_frac s2) as [ds s3]. cbn [fst snd] in *.
    destruct (scan_exp s3) as [[e s4]|] eqn:Ee; [|done]. cbn [mbind option_bind]. apply scan_exp_spec in Ee as (ep & Hep & H4 & H5).
    destruct (delimited s4) eqn:Ed; [|done]. intros [= <- <-]. exists (sg +:+ ip +:+ fp +:+ ep). rewrite !app_assoc_s.
    split; [by rewrite Hs, H1, H3, H4|]. split; [by constructor|]. split; [by apply delimited_iff|]. exact H5.
  - intros (t & -> & [sg neg ip fp ds e ep Hsg Hip Hfp Hep] & Hr & Hne). cbn [nt_exp] in Hne. apply delimited_iff in Hr.
    destruct (tokexp_first e ep rest Hep Hr) as [F1 F2]. pose proof (fracpart_first fp ds _ Hfp F1) as F3.
    assert (scan_sign ((sg +:+ ip +:+ fp +:+ ep) +:+ rest) = (neg, ip +:+ fp +:+ ep +:+ rest)) as ->.
    { rewrite !app_assoc_s. destruct Hsg; [|done]. cbn. destruct Hip as [-> |(Hd & Hn & _)]; [done|]. destruct ip as [|c ip]; [done|]. cbn.
      cbn in Hd. apply andb_true_iff in Hd as [Hd _]. destruct (Ascii.eqb_spec c "-") as [-> |]; done. }
    rewrite scan_int_ok by done. cbn [mbind option_bind]. rewrite (scan_frac_ok fp ds) by done.
    rewrite (scan_exp_ok e ep) by done. cbn [mbind option_bind]. by rewrite Hr.
Qed.

(** ** The numbers of JSON *)
Definition exp_of (e : option (string * string)) : option Z :=
  match e with
  | None => Some 0
  | Some (_, "") => None
  | Some (sg, ds) => Some (signed (String.eqb sg "-") (value 0 ds))
  end.
Lemma number_token t neg ip ds x : NumberText t neg ip ds x ↔ ∃ e, TokText (Token neg ip ds e) t ∧ exp_of e = Some x.
Proof.
  split.
  - intros [sg neg' ip' fp ds' ep x' Hsg Hip Hfp Hep]. apply int_text_iff in Hip. destruct Hep as [|c sg' w n es Hc Hs Hn|c w n es Hc Hn].
    + exists None. split; [|done]. constructor; [done|done|done|constructor].
    + apply num_iff in Hn as (Hl & Hd & Hv). exists (Some (sg', es)). split.
      * constructor; [done|done|done|]. constructor; [done|naive_solver|done].
      * cbn. destruct es as [|y es]; [done|]. rewrite Hv. by destruct Hs as [-> | ->].
    + apply num_iff in Hn as (Hl & Hd & Hv). exists (Some ("-", es)). split.
      * constructor; [done|done|done|]. constructor; [done|naive_solver|done].
      * cbn. destruct es as [|y es]; [done|]. by rewrite Hv.
  - intros (e & H & He). inversion H as [sg ? ? fp ? ? ep Hsg Hip Hfp Hep]; subst. constructor; [done|by apply int_text_iff|done|].
    destruct Hep as [|c sg' es Hc Hs Hd]; [injection He as <-; constructor|]. cbn in He. destruct es as [|y es]; [done|].
    destruct (num_digits (String y es)) as [_ (w & n & Hn)]; [done|]. pose proof Hn as Hv. apply num_iff in Hv as (_ & _ & Hv). rewrite Hv in He.
    injection He as <-. destruct Hs as [-> |[-> | ->]]; [apply (ET_plus c "" w n); [done|by left|done]|apply (ET_plus c "+" w n); [done|by right|done]|].
    by apply (ET_minus c w n).
Qed.
Lemma exp_of_complete e x : exp_of e = Some x → ∀ sg, e ≠ Some (sg, "").
Proof. by intros H sg ->. Qed.
Lemma noword_nil : NoWord "".
Proof. intros c r. done. Qed.
Lemma number_scan t neg ip ds x rest : NumberText t neg ip ds x → NoWord rest →
  ∃ e, scan_number (t +:+ rest) = Some (Token neg ip ds e, rest) ∧ exp_of e = Some x.
Proof.
  intros H Hr. apply number_token in H as (e & H & He). exists e. split; [|done]. apply scan_iff. exists t. split_and!; [done|done|done|].
  intros sg E. cbn in E. by destruct (exp_of_complete e x He sg).
Qed.

(** ** White space at the end *)
Lemma codes_app a b : codes (a +:+ b) = (codes a ++ codes b)%list.
Proof. unfold codes. induction a as [|c a IH]; [done|]. cbn. by rewrite <- IH. Qed.
Definition ascii_text (s : string) : Prop := Forall (λ r, (r < 128)%N) (codes s).
Lemma ascii_text_app a b : ascii_text a → ascii_text b → ascii_text (a +:+ b).
Proof. unfold ascii_text. rewrite codes_app. intros. by apply Forall_app. Qed.
Lemma digits_codes ds : all_digits ds = true → Forall (λ r, (48 <= r <= 57)%N) (codes ds).
Proof.
  induction ds as [|c ds IH]; [constructor|]. cbn. rewrite andb_true_iff. intros [H1 H2]. constructor; [by apply digit_chars|by apply IH].
Qed.
Lemma digits_ascii ds : all_digits ds = true → ascii_text ds.
Proof. intros H. eapply Forall_impl; [by apply digits_codes|]. cbn. lia. Qed.
Lemma first_nonzero_digits ip : first_nonzero ip → all_digits ip = true ∧ ip ≠ "".
Proof. by intros [-> |(H & H' & _)]. Qed.
Lemma toktext_ascii tok t : TokText tok t → ascii_text t.
Proof.
  intros [sg neg ip fp ds e ep Hsg Hip Hfp Hep]. apply first_nonzero_digits in Hip as [Hip _]. repeat apply ascii_text_app.
  - destruct Hsg; repeat constructor.
  - by apply digits_ascii.
  - destruct Hfp as [|w n ds' Hn]; [constructor|]. apply num_iff in Hn as (_ & Hn & _). constructor; [done|by apply digits_ascii].
  - destruct Hep as [|c sg' es Hc Hs Hd]; [constructor|]. constructor; [by destruct Hc as [-> | ->]|].
    apply ascii_text_app; [|by apply digits_ascii]. destruct Hs as [-> |[-> | ->]]; repeat constructor.
Qed.
Lemma word_space c : WordChar c → is_space (N_of_ascii c) = false.
Proof.
  intros H. unfold WordChar in H. cbn zeta in H.
  assert (43 <= N_of_ascii c <= 122)%N as Hn by (destruct H as [H|[-> |[-> |[-> | ->]]]]; [lia|done..]).
  unfold is_space. cbn [existsb fst snd]. rewrite !orb_false_iff, !andb_false_iff, !N.leb_gt. lia.
Qed.
Lemma ends_last t c : ascii_text (t +:+ String c "") → WordChar c → ends_in_space (t +:+ String c "") = false.
Proof.
  intros Ha Hc. unfold ends_in_space, runes. rewrite ascii_dec by exact Ha. cbn [fst]. rewrite codes_app. unfold codes at 2. cbn [list_ascii_of_string map].
  rewrite last_snoc. by apply word_space.
Qed.
Lemma digits_last ds : all_digits ds = true → ds ≠ "" → ∃ s c, ds = s +:+ String c "" ∧ WordChar c.
Proof.
  intros Hd Hne. destruct (string_snoc ds) as [->|(s & c & ->)]; [done|]. exists s, c. split; [done|]. rewrite all_digits_app in Hd.
  apply andb_true_iff in Hd as [_ Hd]. cbn in Hd. rewrite andb_true_r in Hd. apply digit_chars in Hd. left. lia.
Qed.
Lemma toktext_end tok t : TokText tok t → ∃ s c, t = s +:+ String c "" ∧ WordChar c.
Proof.
  intros [sg neg ip fp ds e ep Hsg Hip Hfp Hep]. apply first_nonzero_digits in Hip as [Hip Hne].
  destruct Hep as [|c sg' es Hc Hs Hd].
  - rewrite app_nil_r_s. destruct Hfp as [|w n ds' Hn].
    + rewrite app_nil_r_s. destruct (digits_last ip Hip Hne) as (s & c & -> & Hc). exists (sg +:+ s), c. by rewrite app_assoc_s.
    + destruct (num_digits ds') as [H _]. destruct H as [Hd Hn']; [by eexists _, _|]. destruct (digits_last ds' Hd Hn') as (s & c & -> & Hc).
      exists (sg +:+ ip +:+ String "." s), c. split; [|done]. by rewrite !app_assoc_s.
  - destruct (decide (es = "")) as [-> |Hes].
    + rewrite app_nil_r_s. destruct Hs as [-> |[-> | ->]].
      * exists (sg +:+ ip +:+ fp), c. rewrite !app_assoc_s. split; [done|]. destruct Hc as [-> | ->]; apply word_e.
      * exists (sg +:+ ip +:+ fp +:+ String c ""), "+"%char. rewrite !app_assoc_s. split; [done|]. by right; right; left.
      * exists (sg +:+ ip +:+ fp +:+ String c ""), "-"%char. rewrite !app_assoc_s. split; [done|]. by right; left.
    + destruct (digits_last es Hd Hes) as (s & x & -> & Hx). exists (sg +:+ ip +:+ fp +:+ String c (sg' +:+ s)), x. split; [|done].
      rewrite !app_assoc_s. cbn. by rewrite !app_assoc_s.
Qed.
Lemma number_alone t neg ip ds x : NumberText t neg ip ds x → ∃ e, number_in t = Some (Token neg ip ds e) ∧ exp_of e = Some x.
Proof.
  intros H. destruct (number_scan t neg ip ds x "" H noword_nil) as (e & Hs & He). exists e. split; [|done]. unfold number_in.
  apply number_token in H as (e' & H & _). pose proof (toktext_ascii _ _ H) as Ha. destruct (toktext_end _ _ H) as (s & c & -> & Hc).
  rewrite ends_last by done. rewrite app_nil_r_s in Hs. by rewrite Hs.
Qed.
