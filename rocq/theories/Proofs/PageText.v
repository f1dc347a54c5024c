(** The text format of metrics pages: it is unambiguous, and pages are in it (C146). *)
From Coq Require Import Ascii String ZArith NArith Lia.
From stdpp Require Import prelude strings.
From Verif.Model Require Import GoStrings Types Metrics JsonNumber MetricsPage.
From Verif.Spec Require Import NumberSpec PageSpec.
From Verif.Proofs Require Import NumberScan.
Local Open Scope string_scope.
Local Arguments String.append _ _ : simpl nomatch.

Lemma app_nil_s s : s +:+ "" = s. Proof. induction s as [|c s IH]; [done|]. cbn. by rewrite IH. Qed.
Lemma cons_app c s t : String c s +:+ t = String c (s +:+ t). Proof. done. Qed.
Lemma app_assoc_s (a b c : string) : (a +:+ b) +:+ c = a +:+ (b +:+ c).
Proof. induction a as [|x a IH]; [done|]. rewrite !cons_app. by rewrite IH. Qed.

Lemma has_nil c : ¬ Has c "". Proof. inversion 1. Qed.
Lemma has_cons c d s : Has c (String d s) ↔ c = d ∨ Has c s.
Proof. split; [inversion 1; subst; auto|]. intros [-> |H]; [apply Has_here|by apply Has_later]. Qed.
Lemma has_app c s t : Has c (s +:+ t) ↔ Has c s ∨ Has c t.
Proof.
  induction s as [|d s IH]; [split; [by right|by intros [H%has_nil |H]]|].
  rewrite cons_app, !has_cons, IH. tauto.
Qed.

(** A text without [c] in front of a [c] is determined. *)
Lemma cut c a b a' b' : ¬ Has c a → ¬ Has c a' → a +:+ String c b = a' +:+ String c b' → a = a' ∧ b = b'.
Proof.
  revert a'. induction a as [|x a IH]; intros [|x' a'] H H' E.
  - by injection E as ->.
  - injection E as -> E. destruct H'. apply Has_here.
  - injection E as -> E. destruct H. apply Has_here.
  - rewrite !cons_app in E. injection E as -> E. rewrite has_cons in H, H'.
    destruct (IH a') as [-> ->]; [tauto..|done|done].
Qed.
(** A text of [P]s in front of something else. *)
Lemma cut_class (P : ascii → Prop) a x b a' x' b' : (∀ c, Has c a → P c) → (∀ c, Has c a' → P c) → ¬ P x → ¬ P x' →
  a +:+ String x b = a' +:+ String x' b' → a = a' ∧ x = x' ∧ b = b'.
Proof.
  revert a'. induction a as [|y a IH]; intros [|y' a'] H H' Hx Hx' E.
  - by injection E as -> ->.
  - injection E as -> E. destruct Hx. apply H', Has_here.
  - injection E as -> E. destruct Hx'. apply H, Has_here.
  - rewrite !cons_app in E. injection E as -> E.
    destruct (IH a') as (-> & -> & ->); [intros c Hc; apply H; by apply Has_later|intros c Hc; apply H'; by apply Has_later|done..].
Qed.

Lemma esc_cut e v : EscText e v → ∀ e' v' r r', EscText e' v' → e +:+ String DQ r = e' +:+ String DQ r' → v = v' ∧ r = r'.
Proof.
  induction 1 as [|c t v H1 H2 H3 H IH|t v H IH|t v H IH|t v H IH]; intros e' v' r r' H' E;
    inversion H'; subst; rewrite ?cons_app in E; try (cbn in E; injection E as E; subst; done);
    try (injection E; intros; subst; done); injection E; clear E; intros; subst; try done;
    try (match goal with He : EscText ?t ?w, Ee : _ = ?t +:+ _ |- _ => destruct (IH _ _ _ _ He Ee) as [-> ->]; done end).
Qed.
Lemma esc_no_nl e v : EscText e v → ¬ Has NL e.
Proof.
  induction 1; [apply has_nil|..]; rewrite !has_cons; intros Hz.
  - destruct Hz as [E|?]; [by subst|done].
  - destruct Hz as [E|[E|?]]; done.
  - destruct Hz as [E|[E|?]]; done.
  - destruct Hz as [E|[E|?]]; done.
Qed.

Lemma name_chars c : NameChar c → c ≠ NL ∧ c ≠ "="%char ∧ c ≠ "{"%char ∧ c ≠ " "%char ∧ c ≠ "#"%char.
Proof. intros [H|[->| ->]]; repeat split; try done; intros ->; vm_compute in H; destruct H as [[? ?]|[[? ?]|[? ?]]]; done. Qed.
Lemma name_has n c : NameText n → ¬ NameChar c → ¬ Has c n. Proof. intros (_ & H & _) Hc Hn. by apply Hc, H. Qed.
Lemma not_name c : c = NL ∨ c = "="%char ∨ c = "{"%char ∨ c = " "%char ∨ c = "#"%char → ¬ NameChar c.
Proof. intros H Hc%name_chars. destruct Hc as (? & ? & ? & ? & ?). intuition. Qed.

Lemma labels_cut t ls : LabelsText t ls → ∀ t' ls' r r', LabelsText t' ls' → t +:+ String "}" r = t' +:+ String "}" r' → ls = ls' ∧ r = r'.
Proof.
  assert (¬ NameChar "=") as Heq by (apply not_name; auto).
  induction 1 as [n e v Hn He|n e v t ls Hn He H IH]; intros t' ls' r r' H' E;
    inversion H' as [n' e' v' Hn' He'|n' e' v' t'' ls'' Hn' He' H'']; subst;
    rewrite !app_assoc_s, !cons_app in E; apply cut_class with (P := NameChar) in E as (-> & _ & E);
    try (by apply Hn); try (by apply Hn'); try done; cbn in E; injection E as E;
    rewrite !app_assoc_s, !cons_app in E; destruct (esc_cut _ _ He _ _ _ _ He' E) as [Ev E2]; cbn in E2; injection E2; try done; rewrite Ev.
  - by intros ->.
  - intros E'. by destruct (IH _ _ _ _ H'' E') as [-> ->].
Qed.
Lemma labels_no_nl t ls : LabelsText t ls → ¬ Has NL t.
Proof.
  assert (¬ NameChar NL) as Heq by (apply not_name; auto).
  induction 1 as [n e v Hn He|n e v t ls Hn He H IH]; repeat first [rewrite has_app|rewrite has_cons];
    pose proof (name_has n NL Hn Heq); pose proof (esc_no_nl _ _ He);
    pose proof (has_nil NL); intuition discriminate.
Qed.

Lemma sample_no_nl t s : SampleText t s → ¬ Has NL t.
Proof.
  assert (¬ NameChar NL) as Heq by (apply not_name; auto).
  intros [n v Hn Hv|n t' ls v Hn Hl Hv]; pose proof (name_has n NL Hn Heq); rewrite !has_app.
  - intros [?|[Hh|?]]; try done. apply has_cons in Hh as [?|Hh%has_nil]; done.
  - pose proof (labels_no_nl _ _ Hl). intros [?|[Hh|[?|[Hh|?]]]]; try done;
      repeat (apply has_cons in Hh as [?|Hh]; [done|]); by apply has_nil in Hh.
Qed.
Lemma sample_head t s : SampleText t s → ∀ r, t ≠ String "#" r.
Proof.
  assert (∀ n r q, NameText n → n +:+ r ≠ String "#" q) as Hh.
  { intros [|c n] r q Hn; [by destruct Hn|]. rewrite cons_app. intros E. injection E as -> _.
    eapply name_has; [exact Hn| |apply Has_here]. apply not_name; auto 6. }
  intros [n v Hn Hv|n t' ls v Hn Hl Hv] r; by apply Hh.
Qed.
Lemma sample_same t s s' : SampleText t s → SampleText t s' → s = s'.
Proof.
  assert (¬ NameChar " ") as H1 by (apply not_name; auto 6). assert (¬ NameChar "{") as H2 by (apply not_name; auto).
  intros H H'. destruct H as [n v Hn Hv|n t ls v Hn Hl Hv]; inversion H' as [n' v' Hn' Hv' E|n' t' ls' v' Hn' Hl' Hv' E]; subst;
    cbn in E; apply cut_class with (P := NameChar) in E as (-> & E1 & E); try (by apply Hn); try (by apply Hn'); try done.
  - by subst.
  - change ("} " +:+ v) with (String "}" (" " +:+ v)) in E. change ("} " +:+ v') with (String "}" (" " +:+ v')) in E.
    destruct (labels_cut _ _ Hl' _ _ _ _ Hl E) as [-> Ev]. cbn in Ev. by injection Ev as ->.
Qed.
Lemma page_same p l : PageText p l → ∀ l', PageText p l' → l = l'.
Proof.
  induction 1 as [|t p l Ht H IH|t s p l Hs H IH]; intros l' H';
    inversion H' as [E|t' p' l'' Ht' Hp E|t' s' p' l'' Hs' Hp E]; subst; try done.
  - destruct t'; discriminate E.
  - destruct (cut _ _ _ _ _ Ht' Ht E) as [-> ->]. by apply IH.
  - exfalso. destruct t' as [|c t']; [discriminate E|]. rewrite cons_app in E. cbn in E. injection E as -> E.
    by eapply sample_head.
  - destruct t; discriminate E.
  - exfalso. destruct t as [|c t]; [discriminate E|]. rewrite cons_app in E. cbn in E. injection E as <- E.
    by eapply sample_head.
  - apply cut in E as [-> ->]; [|by eapply sample_no_nl..]. by rewrite (sample_same _ _ _ Hs Hs'), (IH _ Hp).
Qed.

(** ** What is written is in the format *)

Lemma escaped_esc v : EscText (escaped true v) v.
Proof.
  induction v as [|c v IH]; [constructor|]. cbn [escaped andb].
  destruct (Ascii.eqb_spec c "\") as [-> |H1]; [by constructor|].
  destruct (Ascii.eqb_spec c newline) as [-> |H2]; [by constructor|].
  destruct (Ascii.eqb_spec c quote) as [-> |H3]; [by constructor|]. by constructor.
Qed.
Lemma escaped_no_nl b v : ¬ Has NL (escaped b v).
Proof.
  induction v as [|c v IH]; [apply has_nil|]. cbn [escaped]. rewrite has_app. intros [H|H]; [|done].
  destruct (Ascii.eqb_spec c "\") as [-> |H1]; [repeat (apply has_cons in H as [?|H]; [done|]); by apply has_nil in H|].
  destruct (Ascii.eqb_spec c newline) as [-> |H2]; [repeat (apply has_cons in H as [?|H]; [done|]); by apply has_nil in H|].
  destruct (b && Ascii.eqb c quote); repeat (apply has_cons in H as [?|H]; [done|]); by apply has_nil in H.
Qed.
Lemma good_char_name c : good_char c = true ↔ NameChar c.
Proof.
  unfold good_char, letter, is_digit, NameChar. rewrite !orb_true_iff, !andb_true_iff, !Ascii.eqb_eq, !N.leb_le.
  cbv zeta. tauto.
Qed.
Definition name_text (s : string) : bool :=
  negb (String.eqb s "") && all_chars good_char s && match s with String c _ => negb (is_digit c) | "" => true end.
Lemma all_chars_has f s : all_chars f s = true ↔ ∀ c, Has c s → f c = true.
Proof.
  induction s as [|d s IH]; cbn; [split; [intros _ c H%has_nil; done|done]|]. rewrite andb_true_iff, IH. split.
  - intros [H1 H2] c [-> |H]%has_cons; [done|by apply H2].
  - intros H. split; [apply H, Has_here|intros c Hc; apply H; by apply Has_later].
Qed.
Lemma name_text_ok s : name_text s = true → NameText s.
Proof.
  unfold name_text. rewrite !andb_true_iff, negb_true_iff, String.eqb_neq, all_chars_has. intros [[H1 H2] H3].
  split; [done|]. split; [intros c Hc; by apply good_char_name, H2|]. intros c r ->.
  apply negb_true_iff in H3. unfold is_digit in H3. intros [Ha Hb].
  apply andb_false_iff in H3 as [H3|H3]; apply N.leb_gt in H3; lia.
Qed.

Lemma labels_written ls : ls ≠ [] → Forall (λ l, name_text l.1 = true) ls → LabelsText (labels_text ls) ls.
Proof.
  induction ls as [|[n v] ls IH]; [done|]. intros _ [Hn Hls]%Forall_cons.
  pose proof (name_text_ok _ Hn) as Hn'. pose proof (escaped_esc v) as He. destruct ls as [|l ls]; [by constructor|].
  assert (LabelsText (labels_text (l :: ls)) (l :: ls)) as Ht by (apply IH; done).
  change (labels_text ((n, v) :: l :: ls)) with (label_text (n, v) +:+ "," +:+ labels_text (l :: ls)).
  unfold label_text. cbn [fst snd].
  assert ((n +:+ "=" +:+ String quote (escaped true v +:+ String quote "")) +:+ "," +:+ labels_text (l :: ls) =
          n +:+ "=" +:+ String DQ (escaped true v +:+ String DQ ("," +:+ labels_text (l :: ls)))) as ->.
  { rewrite app_assoc_s. f_equal. cbn. f_equal. f_equal. rewrite app_assoc_s. done. }
  by apply LT_more.
Qed.

Definition triple (s : sample) : string * list (string * string) * string := (sa_name s, sa_labels s, sa_value s).
Definition sample_ok (s : sample) : Prop :=
  name_text (sa_name s) = true ∧ Forall (λ l, name_text l.1 = true) (sa_labels s) ∧ ¬ Has NL (sa_value s).
Lemma sample_written s : sample_ok s → SampleText (sample_text s) (triple s).
Proof.
  destruct s as [n ls v]. intros (Hn & Hl & Hv). apply name_text_ok in Hn. unfold sample_text, triple. cbn [sa_name sa_labels sa_value] in *.
  destruct ls as [|l ls]; [by constructor|].
  pose proof (labels_written (l :: ls) ltac:(done) Hl) as Ht. revert Ht. generalize (labels_text (l :: ls)) as t. intros t Ht.
  assert ("{" +:+ t +:+ "}" = "{" +:+ t +:+ "}") as _ by done.
  assert (n +:+ ("{" +:+ t +:+ "}") +:+ " " +:+ v = n +:+ "{" +:+ t +:+ "} " +:+ v) as ->.
  { f_equal. cbn. f_equal. by rewrite app_assoc_s. }
  by constructor.
Qed.
Lemma concat_cons s l : String.concat "" (s :: l) = s +:+ String.concat "" l.
Proof. destruct l; cbn; [by rewrite app_nil_s|done]. Qed.
Lemma samples_page ss : Forall sample_ok ss → ∀ p l, PageText p l →
  PageText (String.concat "" (map (λ s, line (sample_text s)) ss) +:+ p) (map triple ss ++ l).
Proof.
  induction ss as [|s ss IH]; intros H p l Hp; [done|]. apply Forall_cons in H as [H1 H2].
  cbn [map]. rewrite concat_cons. unfold line at 1. rewrite !app_assoc_s. cbn. constructor; [by apply sample_written|by apply IH].
Qed.
Definition family_ok (scope : string) (f : family) : Prop :=
  name_text (page_name f.1) = true ∧ Forall sample_ok (f.2 ≫= series_samples scope f.1).
Lemma type_no_nl k : ¬ Has NL (page_type k).
Proof. destruct k; cbn; intros H; repeat (apply has_cons in H as [?|H]; [done|]); by apply has_nil in H. Qed.
Lemma family_page scope f : family_ok scope f → ∀ p l, PageText p l →
  PageText (family_text scope f +:+ p) (map triple (f.2 ≫= series_samples scope f.1) ++ l).
Proof.
  intros [Hn Hs] p l Hp. unfold family_text. destruct (f.2 ≫= series_samples scope f.1) as [|s ss] eqn:E; [done|].
  pose proof (samples_page (s :: ss) Hs p l Hp) as H. revert H. generalize (String.concat "" (map (λ s, line (sample_text s)) (s :: ss))) as q.
  intros q H. unfold line. rewrite !app_assoc_s.
  assert (¬ Has NL (page_name f.1)) as Hnn by (apply (name_has _ NL (name_text_ok _ Hn)), not_name; auto).
  cbn. rewrite <- (app_assoc_s (" HELP " +:+ page_name f.1) _ _) || idtac.
  set (w1 := " HELP " +:+ page_name f.1 +:+ " " +:+ escaped false (in_help f.1)).
  set (w2 := " TYPE " +:+ page_name f.1 +:+ " " +:+ page_type (in_kind f.1)).
  match goal with |- PageText ?x _ => assert (x = "#" +:+ w1 +:+ String NL ("#" +:+ w2 +:+ String NL (q +:+ p))) as -> end.
  { unfold w1, w2. cbn. rewrite !app_assoc_s. cbn. rewrite ?app_assoc_s. done. }
  apply PT_comment; [|apply PT_comment; [|done]]; unfold w1, w2; rewrite !has_app; intros [Hh|[Hh|[Hh|Hh]]]; try done;
    try (by eapply escaped_no_nl); try (by eapply type_no_nl); repeat (apply has_cons in Hh as [?|Hh]; [done|]); by apply has_nil in Hh.
Qed.
Lemma page_written scope fs : Forall (family_ok scope) fs →
  PageText (page scope fs) (map triple (fs ≫= λ f, f.2 ≫= series_samples scope f.1)).
Proof.
  unfold page. induction fs as [|f fs IH]; intros H; [constructor|]. apply Forall_cons in H as [H1 H2].
  cbn [map]. rewrite concat_cons. cbn. rewrite map_app. by apply family_page; [|apply IH].
Qed.
