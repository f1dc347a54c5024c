(** What metrics pages say (C146). *)
From Coq Require Import Ascii String ZArith NArith Lia Sorting.Sorted.
From stdpp Require Import prelude strings.
From Verif.Model Require Import GoStrings Types Wire Metrics JsonMsg Calendar JsonNumber MetricsPage.
From Verif.Spec Require Import NumberSpec StatusSpec PageSpec.
From Verif.Proofs Require Import StatusLemmas PageText PageNumbers.
Local Open Scope string_scope.
Local Open Scope Z_scope.

(** ** Histograms *)

Lemma count_filter {A} (f : A → bool) l : Count f l = Z.of_nat (length (List.filter f l)).
Proof. induction l as [|a l IH]; [done|]. cbn. rewrite IH. destruct (f a); cbn [length]; lia. Qed.
Lemma count_ext {A} (f g : A → bool) l : (∀ a, a ∈ l → f a = g a) → Count f l = Count g l.
Proof. induction l as [|a l IH]; intros H; [done|]. cbn. rewrite (H a) by left. rewrite IH; [done|]. intros b Hb. apply H. by right. Qed.
Lemma count_map {A B} (h : A → B) (f : B → bool) l : Count f (map h l) = Count (λ a, f (h a)) l.
Proof. induction l as [|a l IH]; [done|]. cbn. by rewrite IH. Qed.

Lemma bucket_le x bs i b : StronglySorted N.le (map of_int bs) → bs !! i = Some b →
  le_double x (of_int b) = (bucket_of x bs <? S i)%nat.
Proof.
  revert i. induction bs as [|b' bs IH]; intros i Hs Hi; [done|]. apply StronglySorted_inv in Hs as [Hs Hf].
  cbn [bucket_of]. destruct (le_double x (of_int b')) eqn:E.
  - unfold le_double in *. apply N.leb_le in E. destruct (Nat.ltb_spec 0 (S i)); [|lia]. apply N.leb_le. destruct i as [|i].
    + cbn in Hi. by injection Hi as <-.
    + etransitivity; [exact E|]. cbn in Hi. rewrite Forall_forall in Hf. apply Hf. apply elem_of_list_In, in_map, elem_of_list_In.
      by eapply elem_of_list_lookup_2.
  - destruct i as [|i]; [cbn in Hi; injection Hi as <-; by rewrite E|]. cbn in Hi. rewrite (IH i Hs Hi).
    destruct (Nat.ltb_spec (bucket_of x bs) (S i)), (Nat.ltb_spec (S (bucket_of x bs)) (S (S i))); done || lia.
Qed.
Definition below (i : nat) (xs : list f64) : Z := Count (λ x, (bucket_of x bounds <? i)%nat) xs.
Lemma below_next i xs : below i xs + bucket_count i xs = below (S i) xs.
Proof.
  unfold below, bucket_count. rewrite <- count_filter. induction xs as [|x xs IH]; [done|]. cbn [Count].
  destruct (Nat.ltb_spec (bucket_of x bounds) i), (Nat.ltb_spec (bucket_of x bounds) (S i)), (Nat.eqb_spec (bucket_of x bounds) i); lia.
Qed.
Lemma cumulative_is xs bs i : cumulative (below i xs) i xs bs = imap (λ j b, (b, below (S (i + j)) xs)) bs.
Proof.
  revert i. induction bs as [|b bs IH]; intros i; [done|]. cbn [cumulative imap]. rewrite below_next, Nat.add_0_r. f_equal.
  rewrite IH. apply imap_ext. intros j x _. cbn. by rewrite Nat.add_succ_r.
Qed.
Lemma below_0 xs : below 0 xs = 0. Proof. induction xs as [|x xs IH]; [done|]. unfold below in *. cbn [Count]. by rewrite IH. Qed.
Lemma bounds_sorted : StronglySorted N.le (map of_int bounds).
Proof. apply Sorted_StronglySorted; [intros ???; apply N.le_trans|]. vm_compute. repeat constructor; vm_compute; discriminate. Qed.
Lemma cumulative_elem xs b c : (b, c) ∈ cumulative 0 0 xs bounds ↔ b ∈ bounds ∧ c = Count (λ x, le_double x (of_int b)) xs.
Proof.
  rewrite <- (below_0 xs), cumulative_is. cbn [Nat.add]. rewrite elem_of_lookup_imap. split.
  - intros (j & b' & [= -> ->] & Hj). split; [by eapply elem_of_list_lookup_2|]. apply count_ext. intros x _. symmetry. by apply bucket_le; [apply bounds_sorted|].
  - intros [(j & Hj)%elem_of_list_lookup ->]. exists j, b. split; [|done]. f_equal. apply count_ext. intros x _. by apply bucket_le; [apply bounds_sorted|].
Qed.
Lemma cumulative_fst xs bs : ∀ acc i, map fst (cumulative acc i xs bs) = bs.
Proof. induction bs as [|b bs IH]; intros acc i; [done|]. cbn. by rewrite IH. Qed.
Lemma bounds_text : map (λ b, (g_double (of_int b), b)) bounds = Bounds.
Proof. vm_compute. reflexivity. Qed.
Lemma bounds_elem t b : (t, b) ∈ Bounds ↔ b ∈ bounds ∧ t = g_double (of_int b).
Proof.
  rewrite <- bounds_text, elem_of_list_fmap. split; [intros (y & [= -> ->] & H); done|]. intros [H ->]. by exists b.
Qed.

Section histogram.
  Context (n : string) (ls : list (string * string)) (xs : list f64) (sum : f64) (upto : Z → Z) (all : Z) (q : quantity).
  Hypothesis (Hup : ∀ b, b ∈ bounds → Count (λ x, le_double x (of_int b)) xs = upto b).
  Hypothesis (Hall : all = Z.of_nat (length xs)).
  Hypothesis (Hq : Shows (g_double sum) q).

  Lemma hist_fwd s : s ∈ hist_samples n ls xs sum →
    ∃ q', HistShows n ls upto all q (sa_name s) (sa_labels s) q' ∧ Shows (sa_value s) q'.
  Proof.
    unfold hist_samples. rewrite elem_of_app. intros [H|H].
    - apply elem_of_list_fmap in H as ([b c] & -> & [Hb ->]%cumulative_elem). cbn [sa_name sa_labels sa_value fst snd].
      eexists. split; [apply HS_bucket, bounds_elem; by split|]. rewrite <- (Hup b Hb). apply shows_int.
    - rewrite !elem_of_cons, elem_of_nil in H. destruct H as [-> |[-> |[-> |[]]]]; cbn [sa_name sa_labels sa_value]; eexists.
      + split; [apply HS_inf|]. rewrite Hall. apply shows_int.
      + split; [apply HS_sum|done].
      + split; [apply HS_count|]. rewrite Hall. apply shows_int.
  Qed.
  Lemma hist_bwd n' ls' q' : HistShows n ls upto all q n' ls' q' →
    ∃ v, Sample n' ls' v ∈ hist_samples n ls xs sum ∧ Shows v q'.
  Proof.
    unfold hist_samples. intros [t b [Hb ->]%bounds_elem| | |].
    - exists (g_double (of_int (upto b))). split; [|apply shows_int]. rewrite elem_of_app. left. apply elem_of_list_fmap.
      exists (b, upto b). split; [done|]. apply cumulative_elem. split; [done|]. symmetry. by apply Hup.
    - exists (g_double (of_int all)). split; [|apply shows_int]. rewrite elem_of_app. right. rewrite Hall. left.
    - exists (g_double sum). split; [|done]. rewrite elem_of_app. right. right. left.
    - exists (g_double (of_int all)). split; [|apply shows_int]. rewrite elem_of_app. right. rewrite Hall. right. right. left.
  Qed.
End histogram.

Definition key (s : sample) : string * list (string * string) := (sa_name s, sa_labels s).
Lemma app_inj_s (a b c : string) : a +:+ b = a +:+ c → b = c.
Proof. induction a as [|x a IH]; [done|]. rewrite !cons_app. intros [= E]. by apply IH. Qed.
Lemma hist_nodup n ls xs sum : NoDup (map key (hist_samples n ls xs sum)).
Proof.
  unfold hist_samples. rewrite map_app, map_map. cbn [key sa_name sa_labels map].
  assert (map (λ bc, (n +:+ "_bucket", (ls ++ [("le", g_double (of_int bc.1))])%list)) (cumulative 0 0 xs bounds) =
          map (λ t, (n +:+ "_bucket", (ls ++ [("le", t)])%list)) (map fst Bounds)) as E.
  { rewrite <- bounds_text, !map_map. rewrite <- (cumulative_fst xs bounds 0 0) at 2. by rewrite map_map. }
  unfold key at 1. cbn [sa_name sa_labels]. rewrite E.
  match goal with |- NoDup (map ?f ?l ++ [?a; ?b; ?c]) => change (NoDup (map f l ++ (map f ["+Inf"] ++ [b; c])))  end.
  rewrite app_assoc, <- map_app. apply NoDup_app. split; [|split].
  - apply NoDup_fmap_2_strong; [|apply (bool_decide_unpack _); vm_compute; done].
    intros t t' _ _ [= E1]. by apply app_inv_head in E1 as [= ->].
  - intros y (t & -> & _)%elem_of_list_fmap. rewrite !elem_of_cons, elem_of_nil. intros [[= E1 _]|[[= E1 _]|[]]]; by apply app_inj_s in E1.
  - apply NoDup_cons. split; [|apply NoDup_singleton]. intros [= E1]%elem_of_list_singleton. by apply app_inj_s in E1.
Qed.

(** ** Series *)

Definition good_data (d : data) : Prop :=
  match d with DSum _ => True | DInts zs => Forall (λ z, 0 <= z) zs | DMicros us => Measured us end.
Definition DataShows (n : string) (ls : list (string * string)) (d : data) : string → list (string * string) → quantity → Prop :=
  match d with
  | DSum z => λ n' ls' q, n' = n ∧ ls' = ls ∧ q = QInt z
  | DInts zs => IntsShow n ls zs
  | DMicros us => MicrosShow n ls us
  end.
Lemma total_sum zs : total zs = Sum zs.
Proof.
  unfold total. assert (∀ a, fold_left Z.add zs a = a + Sum zs) as H; [|by rewrite H].
  induction zs as [|z zs IH]; intros a; cbn; [lia|]. rewrite IH. lia.
Qed.
Lemma ok_bound (d b : Z) : forallb (bound_ok d) bounds = true → b ∈ bounds → bound_ok d b = true.
Proof. intros H Hb%elem_of_list_In. by apply (proj1 (forallb_forall _ _) H). Qed.
Lemma count_ints zs b : Forall (λ z, 0 <= z) zs → b ∈ bounds →
  Count (λ x, le_double x (of_int b)) (map of_int zs) = Count (λ z, z <=? b) zs.
Proof.
  intros H Hb. rewrite count_map. apply count_ext. intros z Hz. apply le_int; [by eapply Forall_forall in H|].
  exact (ok_bound 1 b (proj1 bounds_ok) Hb).
Qed.
Lemma count_micros us b : Forall (λ u, 0 <= u <= 2 ^ 63) us → b ∈ bounds →
  Count (λ x, le_double x (of_int b)) (map of_micros us) = Count (λ u, u <=? 1000 * b) us.
Proof.
  intros H Hb. rewrite count_map. apply count_ext. intros z Hz. apply le_micros; [eapply Forall_forall in H; [|exact Hz]; apply H|].
  exact (ok_bound 1000 b (proj2 bounds_ok) Hb).
Qed.
Lemma data_says scope i a d : good_data d → forallb (λ l, utf8_valid l.2) (labels scope a) = true →
  (∀ s, s ∈ series_samples scope i (a, d) → ∃ q, DataShows (page_name i) (labels scope a) d (sa_name s) (sa_labels s) q ∧ Shows (sa_value s) q) ∧
  (∀ n ls q, DataShows (page_name i) (labels scope a) d n ls q → ∃ v, Sample n ls v ∈ series_samples scope i (a, d) ∧ Shows v q).
Proof.
  intros Hg Hu. unfold series_samples. cbn [fst snd]. rewrite Hu. destruct d as [z|zs|us]; cbn [DataShows good_data] in *.
  - split.
    + intros s ->%elem_of_list_singleton. exists (QInt z). split; [done|apply shows_int].
    + intros n ls q (-> & -> & ->). eexists. split; [by apply elem_of_list_singleton|apply shows_int].
  - assert (∀ b, b ∈ bounds → Count (λ x, le_double x (of_int b)) (map of_int zs) = Count (λ z, z <=? b) zs) as H1 by (intros; by apply count_ints).
    assert (Z.of_nat (length zs) = Z.of_nat (length (map of_int zs))) as H2 by (by rewrite map_length).
    assert (Shows (g_double (of_int (fold_left Z.add zs 0))) (QInt (Sum zs))) as H3 by (fold (total zs); rewrite total_sum; apply shows_int).
    split; [apply (hist_fwd _ _ _ _ _ _ _ H1 H2 H3)|apply (hist_bwd _ _ _ _ _ _ _ H1 H2 H3)].
  - assert (∀ b, b ∈ bounds → Count (λ x, le_double x (of_int b)) (map of_micros us) = Count (λ u, u <=? 1000 * b) us) as H1 by (intros; apply count_micros; [apply Hg|done]).
    assert (Z.of_nat (length us) = Z.of_nat (length (map of_micros us))) as H2 by (by rewrite map_length).
    pose proof (shows_sum us Hg) as H3.
    split; [apply (hist_fwd _ _ _ _ _ _ _ H1 H2 H3)|apply (hist_bwd _ _ _ _ _ _ _ H1 H2 H3)].
Qed.

(** Names and label names. *)
Definition names_of (i : instrument) : list string :=
  let n := page_name i in [n; n +:+ "_bucket"; n +:+ "_sum"; n +:+ "_count"].
Lemma series_names scope i s x : x ∈ series_samples scope i s → sa_name x ∈ names_of i.
Proof.
  unfold series_samples, names_of. destruct (forallb _ _); [|by intros ?%elem_of_nil]. rewrite !elem_of_cons. destruct s.2.
  - intros ->%elem_of_list_singleton. by left.
  - unfold hist_samples. rewrite elem_of_app, elem_of_list_fmap, !elem_of_cons, elem_of_nil.
    intros [(b & -> & _)|[-> |[-> |[-> |[]]]]]; cbn; auto 6.
  - unfold hist_samples. rewrite elem_of_app, elem_of_list_fmap, !elem_of_cons, elem_of_nil.
    intros [(b & -> & _)|[-> |[-> |[-> |[]]]]]; cbn; auto 6.
Qed.
(** A sample tells its series. *)
Lemma series_labels scope i a d x : x ∈ series_samples scope i (a, d) →
  sa_labels x = labels scope a ∧ sa_name x ≠ page_name i +:+ "_bucket" ∨
  sa_name x = page_name i +:+ "_bucket" ∧ ∃ t, sa_labels x = (labels scope a ++ [("le", t)])%list.
Proof.
  unfold series_samples. cbn [fst snd]. destruct (forallb _ _); [|by intros ?%elem_of_nil].
  assert (∀ w, page_name i +:+ w = page_name i +:+ "_bucket" → w = "_bucket") as Hw by (intros w; apply app_inj_s).
  destruct d as [z|zs|us].
  - intros ->%elem_of_list_singleton. left. split; [done|]. intros E. cbn [sa_name] in E. rewrite <- (PageText.app_nil_s (page_name i)) in E at 1. by apply Hw in E.
  - unfold hist_samples. rewrite elem_of_app, elem_of_list_fmap, !elem_of_cons, elem_of_nil.
    intros [(b & -> & _)|[-> |[-> |[-> |[]]]]]; cbn [sa_name sa_labels]; [right; split; [done|by eexists]..| |]; (left; split; [done|]; intros E; by apply Hw in E).
  - unfold hist_samples. rewrite elem_of_app, elem_of_list_fmap, !elem_of_cons, elem_of_nil.
    intros [(b & -> & _)|[-> |[-> |[-> |[]]]]]; cbn [sa_name sa_labels]; [right; split; [done|by eexists]..| |]; (left; split; [done|]; intros E; by apply Hw in E).
Qed.
Lemma same_series scope i a d a' d' x x' : x ∈ series_samples scope i (a, d) → x' ∈ series_samples scope i (a', d') → key x = key x' →
  labels scope a = labels scope a'.
Proof.
  intros H%series_labels H'%series_labels [= En El].
  destruct H as [[H1 H2]|[H1 (t & H2)]], H' as [[H1' H2']|[H1' (t' & H2')]].
  - congruence.
  - destruct H2. congruence.
  - destruct H2'. congruence.
  - rewrite H2, H2' in El. by apply app_inj_tail in El as [-> _].
Qed.
Lemma series_nodup scope i s : NoDup (map key (series_samples scope i s)).
Proof.
  unfold series_samples. destruct (forallb _ _); [|constructor]. destruct s.2; [apply NoDup_singleton|apply hist_nodup..].
Qed.

Lemma nodup_bind {A B C} (f : A → list B) (g : B → C) l : NoDup l → (∀ a, a ∈ l → NoDup (map g (f a))) →
  (∀ a a' b b', a ∈ l → a' ∈ l → b ∈ f a → b' ∈ f a' → g b = g b' → a = a') → NoDup (map g (l ≫= f)).
Proof.
  induction 1 as [|a l Ha Hl IH]; intros H1 H2; [constructor|]. cbn. rewrite map_app. apply NoDup_app. split; [apply H1; left|]. split.
  - intros c (b & -> & Hb)%elem_of_list_fmap (b' & E & (a' & Hb' & Ha')%elem_of_list_bind)%elem_of_list_fmap.
    apply Ha. by rewrite (H2 a a' b b' ltac:(left) ltac:(by right) Hb Hb' E).
  - apply IH; [intros; apply H1; by right|]. intros a1 a2 b1 b2 H3 H4. apply H2; by right.
Qed.
Lemma family_nodup scope i ss : NoDup (map (λ s, labels scope s.1) ss) → NoDup (map key (ss ≫= series_samples scope i)).
Proof.
  intros H. apply nodup_bind; [exact (NoDup_fmap_1 (λ s : list (string * string) * data, labels scope s.1) ss H)|intros; apply series_nodup|].
  intros [a d] [a' d'] x x' Ha Ha' Hx Hx' E. pose proof (same_series _ _ _ _ _ _ _ _ Hx Hx' E) as El. clear -H Ha Ha' El.
  apply elem_of_list_lookup in Ha as (j & Hj), Ha' as (j' & Hj').
  assert (j = j') as ->; [|congruence]. apply (NoDup_lookup _ _ _ (labels scope a) H).
  - rewrite list_lookup_fmap, Hj. done.
  - rewrite list_lookup_fmap, Hj'. cbn. by rewrite El.
Qed.

Definition labels_ok (scope : string) (a : list (string * string)) : Prop := Forall (λ l, name_text l.1 = true) (labels scope a).
Lemma series_ok scope i a d : labels_ok scope a → Forall (λ n, name_text n = true) (names_of i) → Forall sample_ok (series_samples scope i (a, d)).
Proof.
  intros Hl Hn. apply Forall_forall. intros x Hx. split; [exact (proj1 (Forall_forall _ _) Hn _ (series_names _ _ _ _ Hx))|]. split.
  - apply series_labels in Hx as [[-> _]|[_ (t & ->)]]; [done|]. apply Forall_app. split; [done|by repeat constructor].
  - apply nums_line. revert Hx. unfold series_samples. cbn [fst snd]. destruct (forallb _ _); [|by intros ?%elem_of_nil].
    destruct d as [z|zs|us]; [intros ->%elem_of_list_singleton; apply nums_g|..];
      unfold hist_samples; rewrite elem_of_app, elem_of_list_fmap, !elem_of_cons, elem_of_nil;
      (intros [(b & -> & _)|[-> |[-> |[-> |[]]]]]; apply nums_g).
Qed.

(** ** Pages *)

(** Families whose series are told apart by their labels, with valid names. *)
Definition fam_ok (scope : string) (f : family) : Prop :=
  NoDup (map (λ s, labels scope s.1) f.2) ∧ Forall (λ s, labels_ok scope s.1 ∧ good_data s.2) f.2.
Definition FamShows (scope : string) (f : family) (n : string) (ls : list (string * string)) (q : quantity) : Prop :=
  ∃ s, s ∈ f.2 ∧ forallb (λ l, utf8_valid l.2) (labels scope s.1) = true ∧ DataShows (page_name f.1) (labels scope s.1) s.2 n ls q.
Lemma names_tell l i i' n : NoDup (l ≫= names_of) → i ∈ l → i' ∈ l → n ∈ names_of i → n ∈ names_of i' → i = i'.
Proof.
  intros Hnd H1 H2 Hx Hx'. revert Hnd H1 H2. induction l as [|j l IH]; intros Hnd H1 H2; [by apply elem_of_nil in H1|].
  rewrite bind_cons in Hnd. apply NoDup_app in Hnd as (_ & Hd & Hnd). rewrite elem_of_cons in H1, H2. destruct H1 as [-> |H1], H2 as [-> |H2].
  - done.
  - destruct (Hd n Hx). apply elem_of_list_bind. by exists i'.
  - destruct (Hd n Hx'). apply elem_of_list_bind. by exists i.
  - by apply IH.
Qed.
Lemma page_says scope fs : NoDup ((map fst fs) ≫= names_of) → Forall (λ i, forallb name_text (names_of i) = true) (map fst fs) →
  Forall (fam_ok scope) fs → Says (page scope fs) (λ n ls q, ∃ f, f ∈ fs ∧ FamShows scope f n ls q).
Proof.
  intros Hnd Hnames Hfs. set (L := fs ≫= λ f, f.2 ≫= series_samples scope f.1). exists (map triple L).
  assert (∀ f, f ∈ fs → Forall (λ n, name_text n = true) (names_of f.1)) as Hn.
  { intros f Hf. apply Forall_forall. intros n Hi%elem_of_list_In. eapply Forall_forall in Hnames; [|apply elem_of_list_fmap; by exists f].
    by apply (proj1 (forallb_forall _ _) Hnames). }
  split; [|split; [|split]].
  - apply page_written. apply Forall_forall. intros f Hf. pose proof (Hn f Hf) as Hnf. split; [by apply Forall_cons in Hnf as [? _]|].
    apply Forall_forall. intros x ([a d] & Hx & Hs)%elem_of_list_bind. eapply Forall_forall in Hfs as [_ Hfs]; [|exact Hf].
    eapply Forall_forall in Hfs as [Hl _]; [|exact Hs]. pose proof (series_ok scope f.1 a d Hl Hnf) as Ho. by eapply Forall_forall in Ho.
  - rewrite map_map. change (λ x, (triple x).1) with key. unfold L.
    assert (∀ f f' x x', f ∈ fs → f' ∈ fs → x ∈ (f.2 ≫= series_samples scope f.1) → x' ∈ (f'.2 ≫= series_samples scope f'.1) → key x = key x' → f.1 = f'.1 → f = f') as Hsame.
    { intros f f' x x' Hf Hf' _ _ _ E. apply elem_of_list_lookup in Hf as (j & Hj), Hf' as (j' & Hj').
      assert (j = j') as ->; [|congruence].
      assert (NoDup (map fst fs)) as Hni.
      { clear -Hnd. induction fs as [|f fs IH]; [constructor|]. cbn [map] in *. rewrite bind_cons in Hnd. apply NoDup_app in Hnd as (_ & Hd & Hnd). constructor; [|by apply IH].
        intros Hin. apply (Hd (page_name f.1)); [left|]. apply elem_of_list_bind. exists f.1. split; [left|done]. }
      apply (NoDup_lookup _ _ _ (f.1) Hni); rewrite list_lookup_fmap.
      - rewrite Hj. done.
      - rewrite Hj'. cbn. by rewrite E. }
    apply nodup_bind.
    + clear Hsame. clear -Hnd. induction fs as [|f fs IH]; [constructor|]. cbn [map] in *. rewrite bind_cons in Hnd. apply NoDup_app in Hnd as (_ & Hd & Hnd). constructor; [|by apply IH].
      intros Hin. apply (Hd (page_name f.1)); [left|]. apply elem_of_list_bind. exists f.1. split; [left|]. apply elem_of_list_fmap. by exists f.
    + intros f Hf. apply family_nodup. by eapply Forall_forall in Hfs as [Hfs _].
    + intros f f' x x' Hf Hf' Hx Hx' E. apply (Hsame f f' x x' Hf Hf' Hx Hx' E).
      apply elem_of_list_bind in Hx as (s & Hx & _), Hx' as (s' & Hx' & _). apply series_names in Hx, Hx'. injection E as E _. rewrite E in Hx.
      assert (f.1 ∈ map fst fs) as H1 by (apply elem_of_list_fmap; by exists f). assert (f'.1 ∈ map fst fs) as H2 by (apply elem_of_list_fmap; by exists f').
      exact (names_tell _ _ _ _ Hnd H1 H2 Hx Hx').
  - intros n ls v (x & E & (f & (s & Hx & Hs)%elem_of_list_bind & Hf)%elem_of_list_bind)%elem_of_list_fmap. injection E as -> -> ->.
    eapply Forall_forall in Hfs as [_ Hfs]; [|exact Hf]. eapply Forall_forall in Hfs as [_ Hg]; [|exact Hs]. destruct s as [a d].
    destruct (forallb (λ l, utf8_valid l.2) (labels scope a)) eqn:Hu; [|unfold series_samples in Hx; cbn [fst snd] in Hx; rewrite Hu in Hx; by apply elem_of_nil in Hx].
    destruct (data_says scope f.1 a d Hg Hu) as [H1 _]. destruct (H1 x Hx) as (q & Hq & Hv). exists q. split; [|done]. exists f. split; [done|]. by exists (a, d).
  - intros n ls q (f & Hf & [a d] & Hs & Hu & Hd). eapply Forall_forall in Hfs as [_ Hfs]; [|exact Hf].
    eapply Forall_forall in Hfs as [_ Hg]; [|exact Hs].
    destruct (data_says scope f.1 a d Hg Hu) as [_ H2]. destruct (H2 _ _ _ Hd) as (v & Hv & HS). exists v. split; [|done].
    apply elem_of_list_fmap. exists (Sample n ls v). split; [done|]. apply elem_of_list_bind. exists f. split; [|done].
    apply elem_of_list_bind. by exists (a, d).
Qed.

(** ** The two pages *)

Lemma says_ext p P Q : (∀ n ls q, P n ls q ↔ Q n ls q) → Says p P → Says p Q.
Proof.
  intros H (l & H1 & H2 & H3 & H4). exists l. split; [done|]. split; [done|]. split.
  - intros n ls v Hi. destruct (H3 _ _ _ Hi) as (q & Hq & Hv). exists q. split; [by apply H|done].
  - intros n ls q Hq%H. by apply H4.
Qed.
Lemma values_of {K V} `{EqDecision K} (k : K) (l : list (K * V)) : values k l = Of k l.
Proof.
  unfold values. induction l as [|[k' v] l IH]; [done|]. cbn [Of]. rewrite filter_cons. cbn [fst]. case_decide as E.
  - rewrite bool_decide_true by done. cbn. by rewrite IH.
  - by rewrite bool_decide_false.
Qed.
Lemma keys_of {K V} `{EqDecision K} (k : K) (l : list (K * V)) : k ∈ keys l ↔ Of k l ≠ [].
Proof.
  unfold keys. rewrite elem_of_remove_dups, elem_of_list_fmap. induction l as [|[k' v] l IH]; cbn [Of].
  - split; [by intros (? & _ & ?%elem_of_nil)|done].
  - case_bool_decide as E.
    + subst. split; [done|]. intros _. exists (k, v). split; [done|left].
    + rewrite <- IH. split.
      * intros ([k2 v2] & E2 & [E3|Hi]%elem_of_cons); [cbn in E2; congruence|]. by exists (k2, v2).
      * intros (x & E2 & Hi). exists x. split; [done|by right].
Qed.
Lemma of_in {K V} `{EqDecision K} (k : K) (l : list (K * V)) v : v ∈ Of k l → v ∈ map snd l.
Proof.
  induction l as [|[k' v'] l IH]; [done|]. cbn. case_bool_decide; rewrite !elem_of_cons; intuition.
Qed.
Lemma of_length {K V} `{EqDecision K} (k : K) (l : list (K * V)) : (length (Of k l) <= length l)%nat.
Proof. induction l as [|[k' v'] l IH]; [done|]. cbn. case_bool_decide; cbn; lia. Qed.
Lemma measured_of {K} `{EqDecision K} (k : K) (l : list (K * Z)) : Measured (map snd l) → Measured (Of k l).
Proof.
  intros [H1 H2]. split.
  - apply Forall_forall. intros u Hu%of_in. by eapply Forall_forall in H1.
  - pose proof (of_length k l). rewrite map_length in H2. lia.
Qed.
Lemma ones {A} `{EqDecision A} (e : A) l : Sum (Of e (map (λ e, (e, 1)) l)) = Count (λ e', bool_decide (e' = e)) l.
Proof. induction l as [|e' l IH]; [done|]. cbn. case_bool_decide; cbn; lia. Qed.
Lemma ones_in {A} `{EqDecision A} (e : A) l : e ∈ keys (map (λ e, (e, 1)) l) ↔ e ∈ l.
Proof. unfold keys. rewrite elem_of_remove_dups, map_map. cbn. by rewrite map_id. Qed.

Lemma labels_none scope : labels scope [] = [("otel_scope_name", scope); ("otel_scope_version", "")].
Proof. reflexivity. Qed.
Lemma labels_rpc scope x : labels scope [("rpc", x)] = [("otel_scope_name", scope); ("otel_scope_version", ""); ("rpc", x)].
Proof. reflexivity. Qed.
Lemma labels_error scope a b : labels scope [("rpc", a); ("error", b)] =
  [("error", b); ("otel_scope_name", scope); ("otel_scope_version", ""); ("rpc", a)].
Proof. reflexivity. Qed.
Lemma labels_fn scope f : labels scope [("mmf.name", f)] = [("mmf_name", f); ("otel_scope_name", scope); ("otel_scope_version", "")].
Proof. reflexivity. Qed.

Lemma nodup_inj {A B} (f : A → B) l : (∀ a b, f a = f b → a = b) → NoDup l → NoDup (map f l).
Proof. intros Hf H. apply (NoDup_fmap_2 f (Inj0 := Hf)), H. Qed.
Lemma nodup_keys {K V} `{EqDecision K} (l : list (K * V)) : NoDup (keys l).
Proof. apply NoDup_remove_dups. Qed.

(** A family with one series for each key. *)
Lemma grouped_ok {K V} `{EqDecision K} scope i (at' : K → list (string * string)) (d : list V → data) (l : list (K * V)) :
  (∀ a b, labels scope (at' a) = labels scope (at' b) → a = b) → (∀ k, labels_ok scope (at' k)) → (∀ k, good_data (d (Of k l))) →
  fam_ok scope (i, map (λ s, (at' s.1, d s.2)) (grouped l)).
Proof.
  intros H1 H2 H3. split; cbn [snd].
  - unfold grouped. rewrite !map_map. cbn. apply nodup_inj; [done|apply nodup_keys].
  - apply Forall_forall. intros s (x & -> & (k & -> & _)%elem_of_list_fmap)%elem_of_list_fmap. cbn. rewrite values_of. auto.
Qed.
Lemma grouped_shows {K V} `{EqDecision K} scope i (at' : K → list (string * string)) (d : list V → data) (l : list (K * V)) n ls q :
  FamShows scope (i, map (λ s, (at' s.1, d s.2)) (grouped l)) n ls q ↔
  ∃ k, k ∈ keys l ∧ forallb (λ l, utf8_valid l.2) (labels scope (at' k)) = true ∧ DataShows (page_name i) (labels scope (at' k)) (d (Of k l)) n ls q.
Proof.
  unfold FamShows. cbn [fst snd]. split.
  - intros (s & (x & -> & (k & -> & Hk)%elem_of_list_fmap)%elem_of_list_fmap & Hu & Hd). cbn [fst snd] in *. rewrite values_of in Hd. by exists k.
  - intros (k & Hk & Hu & Hd). exists (at' k, d (Of k l)). split; [|by split]. apply elem_of_list_fmap. exists (k, Of k l). split; [done|].
    apply elem_of_list_fmap. exists k. by rewrite values_of.
Qed.
Lemma scope_ok scope : labels_ok scope [].
Proof. unfold labels_ok. rewrite labels_none. by repeat constructor. Qed.
Lemma one_ok scope i d : good_data d → fam_ok scope (i, [([], d)]).
Proof. intros H. split; cbn [map fst snd]; [apply NoDup_singleton|]. apply Forall_cons_2; [split; [apply scope_ok|done]|constructor]. Qed.
Lemma one_shows scope i d n ls q : utf8_valid scope = true →
  (FamShows scope (i, [([], d)]) n ls q ↔ DataShows (page_name i) [("otel_scope_name", scope); ("otel_scope_version", "")] d n ls q).
Proof.
  intros Hs. unfold FamShows. cbn [fst snd]. split.
  - intros (s & ->%elem_of_list_singleton & _ & H). done.
  - intros H. exists ([], d). split; [by apply elem_of_list_singleton|]. rewrite labels_none. cbn [forallb fst snd]. by rewrite Hs.
Qed.
Lemma plain_ok scope i zs d : good_data (d zs) → fam_ok scope (i, plain zs d).
Proof. intros H. destruct zs; [split; constructor|by apply one_ok]. Qed.
Lemma plain_shows scope i zs d n ls q : utf8_valid scope = true →
  (FamShows scope (i, plain zs d) n ls q ↔ zs ≠ [] ∧ DataShows (page_name i) [("otel_scope_name", scope); ("otel_scope_version", "")] (d zs) n ls q).
Proof.
  intros Hs. destruct zs as [|z zs]; [|cbn [plain]; rewrite one_shows by done; intuition done].
  split; [by intros (s & ?%elem_of_nil & _)|by intros [? _]].
Qed.
Lemma none_shows scope i n ls q : ¬ FamShows scope (i, []) n ls q.
Proof. by intros (s & ?%elem_of_nil & _). Qed.

Lemma fam_cons {A} (P : A → Prop) a l : (∃ f, f ∈ a :: l ∧ P f) ↔ P a ∨ ∃ f, f ∈ l ∧ P f.
Proof.
  split.
  - intros (f & [-> |Hf]%elem_of_cons & H); eauto.
  - intros [H|(f & Hf & H)]; [exists a|exists f]; (split; [|done]); [left|by right].
Qed.
Lemma fam_nil {A} (P : A → Prop) : (∃ f, f ∈ [] ∧ P f) ↔ False.
Proof. split; [by intros (f & ?%elem_of_nil & _)|done]. Qed.

Lemma core_says r : Sensible r → Says (core_page r) (CoreShows r).
Proof.
  intros (Hd & He & (Ha & (Hb & Hc)%Forall_app)%Forall_app). unfold core_page.
  eapply says_ext; [|apply page_says].
  - intros n ls q. unfold core_families. rewrite !fam_cons, fam_nil.
    rewrite (grouped_shows _ i_duration (λ k, [("rpc", k)]) DMicros).
    rewrite (grouped_shows _ i_errors (λ k, [("rpc", k.1); ("error", k.2)]) (λ zs, DSum (total zs))).
    rewrite (grouped_shows _ i_matches (λ k, [("mmf.name", k)]) (λ zs, DSum (total zs))).
    rewrite !plain_shows, !one_shows by reflexivity. split.
    + intros [H|[H|[H|[H|[H|[H|[H|[H|[H|[H|[H|[H|[H|[H|[]]]]]]]]]]]]]]].
      * destruct H as (k & Hk%keys_of & Hu & H). rewrite labels_rpc in Hu, H. cbn [forallb fst snd] in Hu. rewrite !andb_true_iff in Hu.
        eapply CS_duration; [exact Hk|apply is_utf8; tauto|exact H].
      * destruct H as ([a b] & Hk & Hu & H). apply (proj1 (ones_in _ _)) in Hk. cbn [fst snd] in *. rewrite labels_error in Hu, H. cbn [forallb fst snd] in Hu. rewrite !andb_true_iff in Hu.
        destruct H as (-> & -> & ->). rewrite total_sum, ones. apply CS_errors; [done|apply is_utf8; tauto..].
      * destruct H as [Hn H]. by eapply CS_activations.
      * destruct H as [Hn H]. by eapply CS_deactivations.
      * destruct H as [Hn H]. by eapply CS_assignments.
      * destruct H as [Hn (-> & -> & ->)]. rewrite total_sum. by eapply CS_watches.
      * destruct H as (k & Hk%keys_of & Hu & H). rewrite labels_fn in Hu, H. cbn [forallb fst snd] in Hu. rewrite !andb_true_iff in Hu.
        destruct H as (-> & -> & ->). rewrite total_sum. apply CS_matches; [done|apply is_utf8; tauto].
      * destruct H as (-> & -> & ->). apply CS_active.
      * destruct H as (-> & -> & ->). apply CS_inactive.
      * destruct H as (-> & -> & ->). apply CS_assigned.
      * destruct H as [Hn H]. by eapply CS_expiry.
      * by apply none_shows in H.
      * by apply none_shows in H.
      * by apply none_shows in H.
    + intros [rpc n' ls' q' H1 H2%is_utf8 H|rpc err H1 H2%is_utf8 H3%is_utf8|n' ls' q' H1 H|n' ls' q' H1 H|n' ls' q' H1 H|H1|fn H1 H2%is_utf8| | | |n' ls' q' H1 H].
      * left. exists rpc. split; [by apply keys_of|]. rewrite labels_rpc. cbn [forallb fst snd]. by rewrite H2.
      * do 1 right. left. exists (rpc, err). split; [by apply (proj2 (ones_in _ _))|]. cbn [fst snd]. rewrite labels_error. cbn [forallb fst snd]. rewrite H2, H3.
        split; [done|]. rewrite total_sum, ones. done.
      * do 2 right. by left.
      * do 3 right. by left.
      * do 4 right. by left.
      * do 5 right. left. rewrite total_sum. done.
      * do 6 right. left. exists fn. split; [by apply keys_of|]. rewrite labels_fn. cbn [forallb fst snd]. rewrite H2, total_sum. done.
      * do 7 right. by left.
      * do 8 right. by left.
      * do 9 right. by left.
      * do 10 right. by left.
  - apply (bool_decide_unpack _). vm_compute. done.
  - cbn [map core_families fst]. repeat constructor.
  - unfold core_families. repeat apply Forall_cons_2; [..|constructor].
    + apply (grouped_ok _ _ (λ k, [("rpc", k)])); [by intros a b [= ->]|intros k; unfold labels_ok; rewrite labels_rpc; by repeat constructor|].
      intros k. by apply measured_of.
    + apply (grouped_ok _ _ (λ k, [("rpc", k.1); ("error", k.2)]) (λ zs, DSum (total zs))); [|intros k; unfold labels_ok; rewrite labels_error; by repeat constructor|done].
      intros [a b] [a' b'] E. cbn [fst snd] in E. rewrite !labels_error in E. by injection E as -> ->.
    + by apply plain_ok.
    + by apply plain_ok.
    + by apply plain_ok.
    + by apply plain_ok.
    + apply (grouped_ok _ _ (λ k, [("mmf.name", k)]) (λ zs, DSum (total zs))); [by intros a b [= ->]|intros k; unfold labels_ok; rewrite labels_fn; by repeat constructor|done].
    + by apply one_ok.
    + by apply one_ok.
    + by apply one_ok.
    + by apply plain_ok.
    + split; constructor.
    + split; constructor.
    + split; constructor.
Qed.
Lemma example_says accepted rejected : Says (example_page accepted rejected) (ExampleShows accepted rejected).
Proof.
  unfold example_page. eapply says_ext; [|apply page_says].
  - intros n ls q. unfold example_families. rewrite !fam_cons, fam_nil, !plain_shows by reflexivity. split.
    + intros [H|[H|[H|[H|[]]]]]; [by apply none_shows in H..| |]; destruct H as [Hn (-> & -> & ->)]; rewrite total_sum; by constructor.
    + intros [H|H]; [do 2 right; left|do 3 right; left]; rewrite total_sum; done.
  - apply (bool_decide_unpack _). vm_compute. done.
  - cbn [map example_families fst]. repeat constructor.
  - unfold example_families. repeat apply Forall_cons_2; [..|constructor]; [split; constructor|split; constructor|by apply plain_ok..].
Qed.
