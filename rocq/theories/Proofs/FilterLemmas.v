(** Lemmas about Model/Filter.v. *)
From Coq Require Import Ascii String ZArith NArith Lia ZifyBool ZifyN.
From stdpp Require Import prelude strings gmap.
From Verif.Model Require Import Types Filter.
From Verif.Spec Require Import FilterSpec.
From Verif.Proofs Require Import FloatLemmas.
Local Open Scope Z_scope.

Lemma double_in_bounds_spec f v :
  DeclaredBounds (df_bounds f) →
  double_in_bounds f v = true ↔ InsideDouble (df_bounds f) (df_min f) (df_max f) v.
Proof.
  unfold double_in_bounds, InsideDouble, f64_geb, f64_gtb.
  unfold EXCLUDE_NONE, EXCLUDE_MIN, EXCLUDE_MAX, EXCLUDE_BOTH.
  intros [E|[E|[E|E]]]; rewrite E; cbn -[f64_leb f64_ltb ieee XLe XLt];
    rewrite andb_true_iff, ?f64_leb_spec, ?f64_ltb_spec; done.
Qed.

Lemma in_doubles_spec fs a :
  Forall (λ f, DeclaredBounds (df_bounds f)) fs →
  ∃ b, in_doubles fs (Some a) = Done b ∧
  (b = true ↔ ∀ f, f ∈ fs →
     ∃ v, fd_doubles a !! df_arg f = Some v ∧ InsideDouble (df_bounds f) (df_min f) (df_max f) v).
Proof.
  induction fs as [|f fs IH]; intros Hd; simpl.
  - exists true. split; [done|]. split; [|done]. intros _ f Hf. by apply elem_of_nil in Hf.
  - apply Forall_cons in Hd as [Hf Hd]. destruct (IH Hd) as (b & Hb & Hiff).
    destruct (fd_doubles a !! df_arg f) as [v|] eqn:Ev.
    + destruct (double_in_bounds f v) eqn:Eb.
      * exists b. split; [done|]. rewrite Hiff. split.
        -- intros H g [->|Hg]%elem_of_cons; [|auto]. exists v. split; [done|].
           by apply double_in_bounds_spec.
        -- intros H g Hg. apply H. by apply elem_of_list_further.
      * exists false. split; [done|]. split; [done|]. intros H.
        destruct (H f) as (v' & Hv' & Hin); [apply elem_of_list_here|].
        rewrite Ev in Hv'. injection Hv' as <-. apply double_in_bounds_spec in Hin; [|done]. congruence.
    + exists false. split; [done|]. split; [done|]. intros H.
      destruct (H f) as (v' & Hv' & Hin); [apply elem_of_list_here|]. congruence.
Qed.

Lemma in_doubles_some fs a : ∃ b, in_doubles fs (Some a) = Done b.
Proof.
  induction fs as [|f fs [b IH]]; simpl; [eauto|].
  destruct (fd_doubles a !! df_arg f); [|eauto]. destruct (double_in_bounds f f0); eauto.
Qed.

Lemma in_strings_spec fs a :
  ∃ b, in_strings fs (Some a) = Done b ∧
  (b = true ↔ ∀ k v, (k, v) ∈ fs → fd_strings a !! k = Some v).
Proof.
  induction fs as [|[k v] fs (b & Hb & Hiff)]; simpl.
  - exists true. split; [done|]. split; [|done]. intros _ k v Hf. by apply elem_of_nil in Hf.
  - destruct (fd_strings a !! k) as [w|] eqn:Ew.
    + case_bool_decide as E.
      * exists b. split; [done|]. rewrite Hiff. subst w. split.
        -- intros H k' v' [[= -> ->]|Hin]%elem_of_cons; auto.
        -- intros H k' v' Hin. apply H. by apply elem_of_list_further.
      * exists false. split; [done|]. split; [done|]. intros H.
        specialize (H k v). rewrite Ew in H. destruct E.
        assert (Some w = Some v) by (apply H, elem_of_list_here). congruence.
    + exists false. split; [done|]. split; [done|]. intros H.
      specialize (H k v). rewrite Ew in H. by specialize (H (elem_of_list_here _ _)).
Qed.

Lemma in_tags_spec fs attrs : in_tags fs attrs = true ↔ ∀ t, t ∈ fs → t ∈ tags_of attrs.
Proof.
  induction fs as [|f fs IH]; simpl.
  - split; [|done]. intros _ t Ht. by apply elem_of_nil in Ht.
  - destruct (existsb (String.eqb f) (tags_of attrs)) eqn:E.
    + apply existsb_exists in E as (x & Hx & ->%String.eqb_eq).
      rewrite IH. split.
      * intros H t [->|Ht]%elem_of_cons; [|auto]. by apply elem_of_list_In.
      * intros H t Ht. apply H. by apply elem_of_list_further.
    + split; [done|]. intros H.
      assert (existsb (String.eqb f) (tags_of attrs) = true) as Hc; [|congruence].
      apply existsb_exists. exists f. split; [|apply String.eqb_refl].
      apply elem_of_list_In, H, elem_of_list_here.
Qed.

(** C01. *)
Lemma filter_in_attrs p a :
  po_time_filter p = None →
  Forall (λ f, DeclaredBounds (df_bounds f)) (po_double_filters p) →
  ∃ b, filter_in (Some p) (Some a) = Done b ∧ (b = true ↔ AttrMember p a).
Proof.
  intros Ht Hd. unfold filter_in, in_time. rewrite Ht. cbn [negb].
  destruct (in_doubles_spec _ a Hd) as (b1 & -> & H1).
  destruct (in_strings_spec (po_string_filters p) a) as (b2 & -> & H2).
  pose proof (in_tags_spec (po_tag_filters p) (Some a)) as H3. simpl in H3.
  unfold AttrMember. destruct b1.
  - destruct b2.
    + eexists. split; [done|]. rewrite H3. split; [|tauto].
      intros. split_and!; [by apply H1|by apply H2|done].
    + exists false. split; [done|]. split; [done|]. intros (_ & H & _). by apply H2 in H.
  - exists false. split; [done|]. split; [done|]. intros (H & _ & _). by apply H1 in H.
Qed.

(** C02: what the time filter actually does. *)
Lemma in_time_spec p f attrs :
  po_time_filter p = Some f →
  in_time p attrs = true ↔
    as_time (tf_end f) < as_time (attrs ≫= fd_ctime) < as_time (tf_start f).
Proof.
  intros E. unfold in_time. rewrite E. cbv zeta.
  set (cr := as_time (attrs ≫= fd_ctime)).
  destruct (cr <? as_time (tf_start f)) eqn:E1; simpl; [|lia].
  destruct (as_time (tf_end f) <? cr) eqn:E2; simpl; [|lia].
  replace (cr =? as_time (tf_start f)) with false by lia.
  replace (cr =? as_time (tf_end f)) with false by lia.
  rewrite !andb_false_r. lia.
Qed.

Lemma in_time_false_panic p attrs :
  in_time p attrs = false → filter_in (Some p) attrs = Done false.
Proof. unfold filter_in. by intros ->. Qed.

Lemma filter_in_in_time p attrs : filter_in (Some p) attrs = Done true → in_time p attrs = true.
Proof. unfold filter_in. by destruct (in_time p attrs). Qed.

(** C03: with declared bounds, nothing outside the closed interval gets in. *)
Lemma double_in_bounds_closed f v :
  DeclaredBounds (df_bounds f) → double_in_bounds f v = true →
  XLe (ieee (df_min f)) (ieee v) ∧ XLe (ieee v) (ieee (df_max f)).
Proof.
  intros Hd H. apply double_in_bounds_spec in H as [H1 H2]; [|done]. split.
  - destruct (bool_decide _) in H1; [by apply XLt_XLe|done].
  - destruct (bool_decide _) in H2; [by apply XLt_XLe|done].
Qed.

(** C05: exactly when the filters panic. *)
Lemma filter_panics p attrs :
  filter_in p attrs = Panic ↔
    p = None ∨ ∃ q, p = Some q ∧ attrs = None ∧ in_time q None = true ∧
                    (po_double_filters q ≠ [] ∨ po_string_filters q ≠ []).
Proof.
  unfold filter_in. destruct p as [q|]; [|naive_solver].
  destruct (in_time q attrs) eqn:Et; simpl; cycle 1.
  { split; [done|]. intros [|(q' & [= <-] & -> & Ht & _)]; congruence. }
  destruct attrs as [a|].
  - destruct (in_doubles_some (po_double_filters q) a) as [b ->].
    destruct (in_strings_spec (po_string_filters q) a) as (b2 & -> & _).
    split; [by destruct b, b2|]. intros [?|(q' & _ & ? & _)]; congruence.
  - destruct (po_double_filters q) as [|f fs] eqn:Efd; simpl.
    + destruct (po_string_filters q) as [|g gs] eqn:Efs; simpl; split; try done.
      * intros [?|(q' & [= <-] & _ & _ & [?|?])]; congruence.
      * intros _. right. exists q. split_and!; try done. right. congruence.
    + split; [|done]. intros _. right. exists q. split_and!; try done. left. congruence.
Qed.

(** C04: the validation rule. *)
Lemma ts_valid_spec t : ts_is_valid (Some t) = true ↔ ValidTs t.
Proof.
  unfold ts_is_valid, ValidTs, min_ts_secs, max_ts_secs, giga. lia.
Qed.

Lemma pool_valid_spec p :
  pool_valid p = true ↔
    ∀ f, po_time_filter p = Some f →
      (∀ s, tf_start f = Some s → ValidTs s) ∧ (∀ e, tf_end f = Some e → ValidTs e).
Proof.
  unfold pool_valid, validate_pool.
  destruct (po_time_filter p) as [f|]; [|naive_solver].
  destruct (tf_start f) as [s|] eqn:Es, (tf_end f) as [e|] eqn:Ee.
  - destruct (ts_is_valid (Some s)) eqn:E1; cbn [negb].
    + destruct (ts_is_valid (Some e)) eqn:E2; cbn [negb].
      * split; [|done]. intros _ f' [= <-]. rewrite Es, Ee.
        split; intros x [= <-]; by apply ts_valid_spec.
      * split; [done|]. intros H. destruct (H f eq_refl) as [_ H2].
        assert (ts_is_valid (Some e) = true); [apply ts_valid_spec; auto|congruence].
    + split; [done|]. intros H. destruct (H f eq_refl) as [H1 _].
      assert (ts_is_valid (Some s) = true); [apply ts_valid_spec; auto|congruence].
  - destruct (ts_is_valid (Some s)) eqn:E1; cbn [negb].
    + split; [|done]. intros _ f' [= <-]. rewrite Es, Ee.
      split; intros x [= <-]; by apply ts_valid_spec.
    + split; [done|]. intros H. destruct (H f eq_refl) as [H1 _].
      assert (ts_is_valid (Some s) = true); [apply ts_valid_spec; auto|congruence].
  - destruct (ts_is_valid (Some e)) eqn:E2; cbn [negb].
    + split; [|done]. intros _ f' [= <-]. rewrite Es, Ee.
      split; intros x [= <-]; by apply ts_valid_spec.
    + split; [done|]. intros H. destruct (H f eq_refl) as [_ H2].
      assert (ts_is_valid (Some e) = true); [apply ts_valid_spec; auto|congruence].
  - split; [|done]. intros _ f' [= <-]. by rewrite Es, Ee.
Qed.

Lemma wellformed_range_empty p f attrs :
  po_time_filter p = Some f → as_time (tf_start f) <= as_time (tf_end f) →
  filter_in (Some p) attrs = Done false.
Proof.
  intros Hf Hle. apply in_time_false_panic.
  destruct (in_time p attrs) eqn:E; [|done].
  apply (in_time_spec p f attrs Hf) in E. lia.
Qed.

Lemma undeclared_admits f v : ¬ DeclaredBounds (df_bounds f) → double_in_bounds f v = true.
Proof.
  unfold DeclaredBounds, double_in_bounds, EXCLUDE_NONE, EXCLUDE_MIN, EXCLUDE_MAX, EXCLUDE_BOTH.
  intros H. destruct (df_bounds f =? 0) eqn:E0; [lia|]. destruct (df_bounds f =? 1) eqn:E1; [lia|].
  destruct (df_bounds f =? 2) eqn:E2; [lia|]. destruct (df_bounds f =? 3) eqn:E3; [lia|]. done.
Qed.
