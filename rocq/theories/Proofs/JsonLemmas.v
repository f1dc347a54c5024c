(** Lemmas for C118 and C119. *)
From Coq Require Import Ascii String ZArith NArith Lia.
From stdpp Require Import prelude strings gmap sorting.
From Verif.Model Require Import GoStrings Types Wire Proto ProtoMsg JsonMsg.
From Verif.Spec Require Import JsonSpec.
Local Open Scope string_scope.
Local Open Scope list_scope.

(** ** Which messages can be written *)
Lemma build_some fs : is_Some (build fs) ↔ Forall (λ nf, is_Some nf.2) fs.
Proof.
  induction fs as [|[n [[j|]|]] fs IH]; cbn [build].
  - split; [constructor|eauto].
  - rewrite Forall_cons. cbn [snd]. rewrite <-IH. destruct (build fs); split; try (intros [? [=]]); try (by intros [_ [? [=]]]); eauto.
  - rewrite Forall_cons. cbn [snd]. rewrite <-IH. destruct (build fs); split; try (intros [? [=]]); try (by intros [_ [? [=]]]); eauto.
  - rewrite Forall_cons. cbn [snd]. split; [intros [? [=]]|]. intros [[? [=]] _].
Qed.
Lemma w_msg_some fs : is_Some (w_msg fs) ↔ Forall (λ nf, is_Some nf.2) fs.
Proof. unfold w_msg. rewrite fmap_is_Some. apply build_some. Qed.
Lemma some_yes {A} (x : A) : is_Some (Some x) ↔ True.
Proof. split; [done|]. intros _. eauto. Qed.

Lemma utf8_nil : utf8_valid "" = true.
Proof. reflexivity. Qed.
Lemma j_text_some s : is_Some (j_text s) ↔ utf8_valid s = true.
Proof. unfold j_text. destruct (utf8_valid s); split; try done; eauto. by intros [? [=]]. Qed.
Lemma w_text_some eu s : is_Some (w_text eu s) ↔ utf8_valid s = true.
Proof.
  unfold w_text. destruct (String.eqb_spec s "") as [->|Hn]; [rewrite some_yes; pose proof utf8_nil; tauto|].
  rewrite fmap_is_Some. apply j_text_some.
Qed.
Lemma w_int_some eu z : is_Some (w_int eu z) ↔ True.
Proof. unfold w_int. destruct (z =? 0)%Z; apply some_yes. Qed.
Lemma w_enum_some eu f z : is_Some (w_enum eu f z) ↔ True.
Proof. unfold w_enum. cbv zeta. destruct (z =? 0)%Z; apply some_yes. Qed.
Lemma w_double_some c eu x : is_Some (w_double c eu x) ↔ True.
Proof. unfold w_double. destruct (x =? 0)%N; apply some_yes. Qed.
Lemma w_opt_some {A} eu (w : A → option jv) x : is_Some (w_opt eu w x) ↔ AllOpt (λ a, is_Some (w a)) x.
Proof.
  unfold AllOpt. destruct x as [a|]; cbn [w_opt].
  - rewrite fmap_is_Some. naive_solver.
  - rewrite some_yes. naive_solver.
Qed.
Lemma mapM_some {A B} (f : A → option B) l : is_Some (mapM f l) ↔ AllList (λ a, is_Some (f a)) l.
Proof. unfold AllList. rewrite mapM_is_Some, Forall_forall. done. Qed.
Lemma w_list_some {A} eu (w : A → option jv) l : is_Some (w_list eu w l) ↔ AllList (λ a, is_Some (w a)) l.
Proof.
  destruct l as [|a l]; cbn [w_list].
  - rewrite some_yes. unfold AllList. split; [|done]. intros _ a Ha. by apply elem_of_nil in Ha.
  - rewrite <-mapM_some. destruct (mapM w (a :: l)) as [js|]; cbn [mbind option_bind]; [rewrite !some_yes; done|]. split; by intros [? [=]].
Qed.
Lemma sorted_perm {A} (m : gmap string A) : sorted_entries m ≡ₚ map_to_list m.
Proof. apply merge_sort_Permutation. Qed.
Lemma sorted_lookup {A} (m : gmap string A) k a : (k, a) ∈ sorted_entries m ↔ m !! k = Some a.
Proof. rewrite sorted_perm. apply elem_of_map_to_list. Qed.
Lemma w_map_some {A} eu (w : A → option jv) m :
  is_Some (w_map eu w m) ↔ ∀ k a, m !! k = Some a → utf8_valid k = true ∧ is_Some (w a).
Proof.
  unfold w_map. setoid_rewrite <-sorted_lookup. generalize (sorted_entries m). intros l.
  destruct l as [|x l].
  - rewrite some_yes. split; [|done]. intros _ k a Ha. by apply elem_of_nil in Ha.
  - match goal with |- is_Some (?e ≫= _) ↔ _ => assert (is_Some (e ≫= λ js, Some (Some (JDict js))) ↔ is_Some e) as -> end.
    { match goal with |- is_Some (?e ≫= _) ↔ _ => destruct e end; cbn [mbind option_bind]; [rewrite !some_yes; done|].
      split; by intros [? [=]]. }
    rewrite mapM_some. unfold AllList. split.
    + intros H k a Hk. specialize (H (k, a) Hk). cbn [fst snd] in H. destruct (utf8_valid k); [|by destruct H].
      destruct (w a); [eauto|by destruct H].
    + intros H [k a] Hk. specialize (H k a Hk) as [H1 [j Hj]]. cbn [fst snd]. rewrite H1, Hj. eauto.
Qed.

Lemma j_time_some c t : is_Some (j_time c t) ↔ ts_is_valid (Some t) = true.
Proof. unfold j_time. destruct (ts_is_valid (Some t)); split; try done; eauto. by intros [? [=]]. Qed.
Lemma j_any_some c a : is_Some (j_any c a) ↔ Expressible c a.
Proof.
  unfold j_any, Expressible. destruct (String.eqb_spec (any_url a) "") as [E|E].
  { destruct (String.eqb_spec (any_value a) "") as [E'|E']; [rewrite some_yes; tauto|]. split; [by intros [? [=]]|]. tauto. }
  destruct (utf8_valid (any_url a)).
  - destruct (jc_types c (any_url a)) as [e|].
    + split.
      * intros H. right. split; [done|]. split; [done|]. destruct (em_write e (any_value a)) as [l|] eqn:El; [|by destruct H]. eauto.
      * intros [[? _]|(_ & _ & e' & l & [= <-] & Hl)]; [done|]. rewrite Hl. cbn. eauto.
    + split; [by intros [? [=]]|]. intros [[? _]|(_ & _ & e' & l & [=] & _)]. done.
  - split; [by intros [? [=]]|]. intros [[? _]|(_ & [=] & _)]. done.
Qed.

Lemma AllMap_iff {A} L (P Q : A → Prop) m : (∀ a, P a ↔ Q a) → AllMap L P m ↔ AllMap L Q m.
Proof. intros H. unfold AllMap. split; intros H' k a Hk; destruct (H' k a Hk); split; auto; by apply H. Qed.
Lemma AllOpt_iff {A} (P Q : A → Prop) x : (∀ a, P a ↔ Q a) → AllOpt P x ↔ AllOpt Q x.
Proof. intros H. unfold AllOpt. split; intros H' a Ha; apply H; auto. Qed.
Lemma AllList_iff {A} (P Q : A → Prop) l : (∀ a, P a ↔ Q a) → AllList P l ↔ AllList Q l.
Proof. intros H. unfold AllList. split; intros H' a Ha; apply H; auto. Qed.
Lemma w_map_json {A} c eu (w : A → option jv) (P : A → Prop) m : (∀ a, is_Some (w a) ↔ P a) →
  is_Some (w_map eu w m) ↔ AllMap (in_json c) P m.
Proof.
  intros H. rewrite w_map_some. unfold AllMap. cbn [lf_text in_json].
  split; intros H' k a Hk; destruct (H' k a Hk); split; auto; by apply H.
Qed.
Lemma w_ext_some c eu m : is_Some (w_ext c eu m) ↔ AllMap (in_json c) (lf_any (in_json c)) m.
Proof. apply w_map_json. intros a. apply j_any_some. Qed.

Ltac some_msg := rewrite w_msg_some, ?Forall_cons, Forall_nil; cbn [snd].
Lemma j_filterable_some c eu d : is_Some (j_filterable c eu d) ↔ AllFilterable (in_json c) d.
Proof.
  unfold j_filterable, AllFilterable. some_msg. rewrite w_list_some, w_opt_some.
  rewrite (w_map_json c eu j_text (lf_text (in_json c))) by (intros; apply j_text_some).
  rewrite (w_map_json c eu _ (lf_double (in_json c))) by (intros; cbn; apply some_yes).
  rewrite (AllList_iff _ (lf_text (in_json c))) by (intros; apply j_text_some).
  rewrite (AllOpt_iff _ (lf_time (in_json c))) by (intros; apply j_time_some). tauto.
Qed.
Lemma j_ticket_some c eu t : is_Some (j_ticket c eu t) ↔ AllTicket (in_json c) t.
Proof.
  unfold j_ticket, AllTicket. some_msg. rewrite w_text_some, !w_opt_some, w_ext_some.
  rewrite (AllOpt_iff _ (lf_time (in_json c))) by (intros; apply j_time_some).
  rewrite (AllOpt_iff _ (AllFilterable (in_json c))) by (intros; apply j_filterable_some). cbn [lf_text in_json]. tauto.
Qed.
Lemma j_assignment_some c eu a : is_Some (j_assignment c eu a) ↔ AllAssignment (in_json c) a.
Proof. unfold j_assignment, AllAssignment. some_msg. rewrite w_text_some, w_ext_some. cbn [lf_text in_json]. tauto. Qed.
Lemma j_roster_some c eu r : is_Some (j_roster c eu r) ↔ AllRoster (in_json c) r.
Proof.
  unfold j_roster, AllRoster. some_msg. rewrite w_text_some, !w_opt_some, w_list_some, w_ext_some.
  rewrite (AllOpt_iff _ (AllAssignment (in_json c))) by (intros; apply j_assignment_some).
  rewrite (AllList_iff _ (AllTicket (in_json c))) by (intros; apply j_ticket_some). cbn [lf_text in_json]. tauto.
Qed.
Lemma j_tag_filter_some c eu t : is_Some (j_tag_filter eu t) ↔ lf_text (in_json c) t.
Proof. unfold j_tag_filter. some_msg. rewrite w_text_some. cbn [lf_text in_json]. tauto. Qed.
Lemma j_string_filter_some c eu f : is_Some (j_string_filter eu f) ↔ AllStringFilter (in_json c) f.
Proof. unfold j_string_filter, AllStringFilter. some_msg. rewrite !w_text_some. cbn [lf_text in_json]. tauto. Qed.
Lemma j_double_filter_some c eu f : is_Some (j_double_filter c eu f) ↔ AllDoubleFilter (in_json c) f.
Proof.
  unfold j_double_filter, AllDoubleFilter. some_msg. rewrite w_text_some, !w_double_some, w_enum_some.
  cbn [lf_text lf_double lf_int in_json]. tauto.
Qed.
Lemma j_time_filter_some c eu f : is_Some (j_time_filter c eu f) ↔ AllTimeFilter (in_json c) f.
Proof.
  unfold j_time_filter, AllTimeFilter. some_msg. rewrite !w_opt_some, w_enum_some.
  rewrite !(AllOpt_iff (λ a, is_Some (j_time c a)) (lf_time (in_json c))) by (intros; apply j_time_some). cbn [lf_int in_json]. tauto.
Qed.
Lemma j_pool_some c eu p : is_Some (j_pool c eu p) ↔ AllPool (in_json c) p.
Proof.
  unfold j_pool, AllPool. some_msg. rewrite w_text_some, !w_list_some, !w_opt_some, w_ext_some.
  rewrite (AllList_iff (λ a, is_Some (j_tag_filter eu a)) (lf_text (in_json c))) by (intros; apply j_tag_filter_some).
  rewrite (AllList_iff (λ a, is_Some (j_string_filter eu a)) (AllStringFilter (in_json c))) by (intros; apply j_string_filter_some).
  rewrite (AllList_iff (λ a, is_Some (j_double_filter c eu a)) (AllDoubleFilter (in_json c))) by (intros; apply j_double_filter_some).
  rewrite (AllOpt_iff (λ a, is_Some (j_time_filter c eu a)) (AllTimeFilter (in_json c))) by (intros; apply j_time_filter_some).
  rewrite (AllOpt_iff (λ a, is_Some (j_roster c eu a)) (AllRoster (in_json c))) by (intros; apply j_roster_some).
  cbn [lf_text in_json]. tauto.
Qed.
Lemma j_profile_some c eu p : is_Some (j_profile c eu p) ↔ AllProfile (in_json c) p.
Proof.
  unfold j_profile, AllProfile. some_msg. rewrite w_text_some, w_ext_some.
  rewrite (w_map_json c eu (j_pool c eu) (AllPool (in_json c))) by (intros; apply j_pool_some). cbn [lf_text in_json]. tauto.
Qed.
Lemma j_match_some c eu m : is_Some (j_match c eu m) ↔ AllMatch (in_json c) m.
Proof.
  unfold j_match, AllMatch. some_msg. rewrite w_text_some, w_ext_some.
  rewrite (w_map_json c eu (j_roster c eu) (AllRoster (in_json c))) by (intros; apply j_roster_some). cbn [lf_text in_json]. tauto.
Qed.
Lemma j_spec_some c eu f : is_Some (j_spec eu f) ↔ AllSpec (in_json c) f.
Proof.
  unfold j_spec, AllSpec. some_msg. rewrite !w_text_some, w_int_some, w_enum_some. cbn [lf_text lf_int in_json].
  destruct (mf_type f); tauto.
Qed.
Lemma j_request_some c eu r : is_Some (j_request c eu r) ↔ AllRequest (in_json c) r.
Proof.
  unfold j_request, AllRequest. some_msg. rewrite w_opt_some, w_list_some.
  rewrite (AllOpt_iff _ (AllProfile (in_json c))) by (intros; apply j_profile_some).
  rewrite (AllList_iff _ (AllSpec (in_json c))) by (intros; apply j_spec_some). tauto.
Qed.
Lemma j_result_some c eu m : is_Some (j_result c eu m) ↔ AllOpt (AllMatch (in_json c)) m.
Proof.
  unfold j_result. some_msg. rewrite w_opt_some.
  rewrite (AllOpt_iff _ (AllMatch (in_json c))) by (intros; apply j_match_some). tauto.
Qed.
Lemma j_create_some c eu t : is_Some (j_create c eu t) ↔ AllOpt (AllTicket (in_json c)) t.
Proof.
  unfold j_create. some_msg. rewrite w_opt_some.
  rewrite (AllOpt_iff _ (AllTicket (in_json c))) by (intros; apply j_ticket_some). tauto.
Qed.
Lemma j_ids_some eu ids : is_Some (j_ids eu ids) ↔ AllList (λ s, utf8_valid s = true) ids.
Proof.
  unfold j_ids. some_msg. rewrite w_list_some.
  rewrite (AllList_iff _ (λ s, utf8_valid s = true)) by (intros; apply j_text_some). tauto.
Qed.
Lemma j_assign_some c eu r : is_Some (j_assign c eu r) ↔ AllOpt (AllRoster (in_json c)) r.
Proof.
  unfold j_assign. some_msg. rewrite w_opt_some.
  rewrite (AllOpt_iff _ (AllRoster (in_json c))) by (intros; apply j_roster_some). tauto.
Qed.

(** ** Reading back what was written *)
Definition RT {A} (w : A → option jv) (r : jv → option A) (a : A) : Prop :=
  ∃ j, w a = Some j ∧ j ≠ JNull ∧ r j = Some a.
Definition FieldOk {A} (f : jfield) (dec : jv → option A) (d x : A) : Prop :=
  ∃ oj, f = Some oj ∧ match oj with None | Some JNull => x = d | Some v => dec v = Some x end.
Inductive Reads {M} (canon : string → option N) (step : N → jv → M → option M) :
    list (string * jfield) → M → M → Prop :=
| reads_nil acc : Reads canon step [] acc acc
| reads_cons n k f fs {A} (dec : jv → option A) (set : A → M) d x acc r :
    FieldOk f dec d x → canon n = Some k → (∀ v, step k v acc = set <$> dec v) → acc = set d →
    Reads canon step fs (set x) r → Reads canon step ((n, f) :: fs) acc r.

Lemma reads_build {M} canon (step : N → jv → M → option M) fs acc r : Reads canon step fs acc r →
  ∃ l, build fs = Some l ∧ read_members canon step l acc = Some r ∧ sublist (map fst l) (map fst fs).
Proof.
  induction 1 as [acc|n k f fs A dec set d x acc r (oj & -> & Hf) Hc Hs -> HR (l & Hb & Hm & Hl)].
  { exists []. split_and!; try done. }
  cbn [build]. rewrite Hb. destruct oj as [v|].
  - exists ((n, v) :: l). split_and!; [done| |by constructor].
    cbn [read_members]. rewrite Hc. destruct v; try (rewrite Hs, Hf; exact Hm). rewrite <-Hf. exact Hm.
  - exists l. subst x. split_and!; [done|exact Hm|by constructor].
Qed.
Lemma sublist_omap {A B} (f : A → option B) l k : sublist l k → sublist (omap f l) (omap f k).
Proof.
  induction 1 as [|x l k H IH|x l k H IH]; [constructor| |].
  - change (omap f (x :: l)) with (match f x with Some y => y :: omap f l | None => omap f l end).
    change (omap f (x :: k)) with (match f x with Some y => y :: omap f k | None => omap f k end).
    destruct (f x); [by constructor|done].
  - change (omap f (x :: k)) with (match f x with Some y => y :: omap f k | None => omap f k end).
    destruct (f x); [by constructor|done].
Qed.
Lemma nodup_sublist {A} (l k : list A) : sublist l k → NoDup k → NoDup l.
Proof.
  induction 1 as [|x l k H IH|x l k H IH]; [done| |]; rewrite !NoDup_cons; intros [H1 H2]; [|auto].
  split; [|auto]. intros Hin. apply H1. eapply elem_of_submseteq; [exact Hin|by apply sublist_submseteq].
Qed.
Lemma omap_map_fst (canon : string → option N) (l : list (string * jv)) :
  omap (λ kv, canon kv.1) l = omap canon (map fst l).
Proof.
  induction l as [|[k v] l IH]; [done|].
  change (omap (λ kv : string * jv, canon kv.1) ((k, v) :: l)) with
    (match canon k with Some y => y :: omap (λ kv : string * jv, canon kv.1) l | None => omap (λ kv : string * jv, canon kv.1) l end).
  change (omap canon (map fst ((k, v) :: l))) with
    (match canon k with Some y => y :: omap canon (map fst l) | None => omap canon (map fst l) end).
  by rewrite IH.
Qed.
Lemma reads_msg {M} canon (step : N → jv → M → option M) fs init r :
  bool_decide (NoDup (omap canon (map fst fs))) = true → Reads canon step fs init r →
  ∃ j, w_msg fs = Some j ∧ j ≠ JNull ∧ read_object canon step init j = Some r.
Proof.
  intros Hn%bool_decide_eq_true (l & Hb & Hm & Hl)%reads_build. exists (JDict l).
  unfold w_msg. rewrite Hb. split_and!; [done..|]. cbn [read_object].
  rewrite bool_decide_eq_true_2; [done|]. rewrite omap_map_fst.
  eapply nodup_sublist; [|exact Hn]. by apply sublist_omap.
Qed.

Lemma f_text eu s : utf8_valid s = true → FieldOk (w_text eu s) r_text "" s.
Proof.
  intros H. unfold w_text, FieldOk. destruct (String.eqb_spec s "") as [->|E].
  - destruct eu; eexists; split; reflexivity.
  - unfold j_text. rewrite H. eexists. split; reflexivity.
Qed.
Lemma f_opt {A} eu (w : A → option jv) r x : AllOpt (RT w r) x → FieldOk (w_opt eu w x) (λ v, Some <$> r v) None x.
Proof.
  unfold AllOpt, FieldOk. intros H. destruct x as [a|].
  - destruct (H a eq_refl) as (j & Hw & Hn & Hr). cbn [w_opt]. rewrite Hw. eexists. split; [reflexivity|].
    cbn. destruct j; try done; by rewrite Hr.
  - cbn [w_opt]. destruct eu; eexists; split; reflexivity.
Qed.
Lemma mapM_rt {A} (w : A → option jv) r l : AllList (RT w r) l → ∃ js, mapM w l = Some js ∧ mapM r js = Some l.
Proof.
  unfold AllList. induction l as [|a l IH]; intros H; [by exists []|].
  destruct (H a) as (j & Hw & _ & Hr); [set_solver|]. destruct IH as (js & H1 & H2); [set_solver|].
  exists (j :: js). cbn [mapM]. rewrite Hw. cbn. rewrite H1. cbn. rewrite Hr. cbn. rewrite H2. done.
Qed.
Lemma f_list {A} eu (w : A → option jv) r l : AllList (RT w r) l → FieldOk (w_list eu w l) (r_list r) [] l.
Proof.
  intros H. unfold FieldOk. destruct l as [|a l].
  - cbn [w_list]. destruct eu; eexists; split; reflexivity.
  - destruct (mapM_rt w r _ H) as (js & H1 & H2). unfold w_list. rewrite H1. eexists. split; [reflexivity|]. exact H2.
Qed.
Lemma f_map {A} eu (w : A → option jv) r (m : gmap string A) :
  (∀ k a, m !! k = Some a → utf8_valid k = true ∧ RT w r a) → FieldOk (w_map eu w m) (r_map r) ∅ m.
Proof.
  intros H. unfold w_map, FieldOk.
  assert (list_to_map (sorted_entries m) = m) as Em.
  { rewrite (list_to_map_proper (sorted_entries m) (map_to_list m)).
    - apply list_to_map_to_list.
    - rewrite sorted_perm. apply NoDup_fst_map_to_list.
    - apply sorted_perm. }
  assert (NoDup (map fst (sorted_entries m))) as Hn.
  { rewrite sorted_perm. apply NoDup_fst_map_to_list. }
  setoid_rewrite <-sorted_lookup in H.
  revert H Em Hn. generalize (sorted_entries m). intros l H Em Hn.
  assert (∃ js, mapM (λ kv : string * A, if utf8_valid kv.1 then j ← w kv.2; Some (kv.1, j) else None) l = Some js ∧
    map fst js = map fst l ∧ mapM (λ kv : string * jv, x ← r kv.2; Some (kv.1, x)) js = Some l) as (js & H1 & H2 & H3).
  { clear Em Hn. induction l as [|[k a] l IH]; [by exists []|].
    destruct (H k a) as [Hk (j & Hw & _ & Hr)]; [set_solver|].
    destruct IH as (js & H1 & H2 & H3). { intros k' a' Hin. apply H. set_solver. }
    exists ((k, j) :: js). split_and!.
    - cbn [mapM fst snd]. rewrite Hk, Hw. cbn. rewrite H1. done.
    - cbn. by rewrite H2.
    - cbn [mapM fst snd]. rewrite Hr. cbn. rewrite H3. done. }
  destruct l as [|x l].
  - rewrite <-Em. destruct eu; eexists; split; reflexivity.
  - rewrite H1. eexists. split; [reflexivity|]. cbn [r_map]. rewrite H2, bool_decide_eq_true_2 by done.
    rewrite H3. cbn. f_equal. exact Em.
Qed.

Section Codec.
Context (c d : codec).

Lemma rt_text s : utf8_valid s = true → RT j_text r_text s.
Proof. intros H. exists (JText s). unfold j_text. by rewrite H. Qed.
Lemma rt_time t : Agree c d → ts_is_valid (Some t) = true → RT (j_time c) (r_time d) t.
Proof. intros (H & _) Ht. exists (JText (jc_time c t)). unfold j_time. rewrite Ht. split_and!; [done..|]. by apply H. Qed.

Lemma f64_inf x b : (x < 2 ^ 64)%N → f64_val x = FInf b →
  x = if b then 0xFFF0000000000000%N else 0x7FF0000000000000%N.
Proof.
  intros Hx. unfold f64_val. cbv zeta. destruct (f64_exp x =? 2047)%N eqn:E; [|done].
  destruct (f64_frac x =? 0)%N eqn:F; [|done]. intros [= <-].
  apply N.eqb_eq in E, F. unfold f64_exp, f64_frac in E, F.
  assert (x = 2 ^ 52 * (x / 2 ^ 52))%N as Ex.
  { pose proof (N.div_mod x (2 ^ 52)%N ltac:(done)) as H. rewrite F, N.add_0_r in H. exact H. }
  assert (x / 2 ^ 52 = 2047 ∨ x / 2 ^ 52 = 4095)%N as Hq.
  { assert (x / 2 ^ 52 < 2 ^ 12)%N as Hl.
    { apply N.div_lt_upper_bound; [done|]. exact Hx. }
    revert E Hl. generalize (x / 2 ^ 52)%N. clear. intros q E Hl.
    pose proof (N.div_mod q (2 ^ 11)%N ltac:(done)) as H. rewrite E in H.
    change (2 ^ 11)%N with 2048%N in *. change (2 ^ 12)%N with 4096%N in *. revert H. generalize (q / 2048)%N. intros n H.
    lia. }
  destruct Hq as [Hq|Hq]; rewrite Hq in Ex; rewrite Ex; reflexivity.
Qed.
Lemma rd_double x : Agree c d → lf_double (kept c d) x → RT (λ x, Some (j_double c x)) (r_double d) x.
Proof.
  intros (_ & Hd & _) [Hx Hnan]. exists (j_double c x). split; [done|]. unfold j_double.
  destruct (f64_val x) as [|b|z] eqn:E.
  - split; [done|]. rewrite Hnan by done. reflexivity.
  - pose proof (f64_inf x b Hx E) as ->. destruct b; split; try done; reflexivity.
  - split; [done|]. by eapply Hd.
Qed.
Lemma fd_double eu x : Agree c d → lf_double (kept c d) x → FieldOk (w_double c eu x) (r_double d) 0%N x.
Proof.
  intros Ha Hx. destruct (rd_double x Ha Hx) as (j & Hw & Hn & Hr). injection Hw as Hw.
  unfold w_double, FieldOk. rewrite Hw. destruct (N.eqb_spec x 0) as [E|E].
  - destruct eu; eexists; (split; [reflexivity|]); [by destruct j|done].
  - eexists. split; [reflexivity|]. by destruct j.
Qed.
Lemma fd_int eu z : Agree c d → Fits32 z → FieldOk (w_int eu z) (r_int d) 0%Z z.
Proof.
  intros (_ & _ & H) Hz. unfold w_int, FieldOk. specialize (H z Hz). destruct (Z.eqb_spec z 0) as [->|E].
  - destruct eu; eexists; (split; [reflexivity|]); [|done]. exact H.
  - eexists. split; [reflexivity|]. exact H.
Qed.
Lemma fd_enum eu name value z : Agree c d → Fits32 z → (∀ z n, name z = Some n → value n = Some z) →
  FieldOk (w_enum eu name z) (r_enum d value) 0%Z z.
Proof.
  intros (_ & _ & H) Hz Hv. unfold w_enum, FieldOk. cbv zeta. specialize (H z Hz).
  assert (∀ j, j = match name z with Some n => JText n | None => JNum (format_Z z) end →
    match j with JNull => z = 0%Z | _ => r_enum d value j = Some z end) as Hj.
  { intros j ->. destruct (name z) as [n|] eqn:E; [|exact H]. cbn. by rewrite (Hv z n E). }
  destruct (Z.eqb_spec z 0) as [E|E].
  - destruct eu; eexists; (split; [reflexivity|]); [|done]. by apply Hj.
  - eexists. split; [reflexivity|]. by apply Hj.
Qed.
Lemma bounds_names z n : bounds_name z = Some n → bounds_value n = Some z.
Proof. unfold bounds_name. intros H. destruct z as [|[[|[]|]|[|[]|]|]|]; try discriminate H; injection H as <-; reflexivity. Qed.
Lemma type_names z n : type_name z = Some n → type_value n = Some z.
Proof. unfold type_name. intros H. destruct z as [|[]|]; try discriminate H; injection H as <-; reflexivity. Qed.

Lemma filter_type_none l : (∀ v, ("@type", v) ∉ l) →
  List.filter is_type l = [] ∧ List.filter (λ kv, negb (is_type kv)) l = l.
Proof.
  induction l as [|[k v] l IH]; intros H; [done|]. cbn [List.filter is_type fst].
  change (is_type (k, v)) with (String.eqb k "@type").
  destruct (String.eqb_spec k "@type") as [->|E]; [destruct (H v); set_solver|].
  destruct IH as [H1 H2]; [intros v' Hin; apply (H v'); set_solver|]. cbn [negb]. rewrite H1, H2. done.
Qed.
Lemma rt_any a : Carried c d a → RT (j_any c) (r_any d) a.
Proof.
  destruct a as [url v]. unfold Carried, RT, j_any. cbn [any_url any_value].
  intros [[-> ->]|(Hn & Hu & e & e' & l & He & He' & Hw & Hr & Ht)]; [by exists (JDict [])|].
  exists (JDict (("@type", JText url) :: l)). destruct (String.eqb_spec url "") as [?|_]; [done|].
  rewrite Hu, He, Hw. split_and!; [done..|]. destruct (filter_type_none l Ht) as [H1 H2].
  unfold r_any. cbn [List.filter]. change (is_type ("@type", JText url)) with true. cbn [negb]. rewrite H1, H2.
  destruct (String.eqb_spec url "") as [?|_]; [done|]. rewrite He', Hr. done.
Qed.
Lemma fd_map {A} eu (w : A → option jv) r (P : A → Prop) m : AllMap (kept c d) P m → (∀ a, P a → RT w r a) →
  FieldOk (w_map eu w m) (r_map r) ∅ m.
Proof. intros H HP. apply f_map. intros k a Hk. destruct (H k a Hk). split; [done|auto]. Qed.
Lemma fd_ext eu m : AllMap (kept c d) (Carried c d) m → FieldOk (w_ext c eu m) (r_ext d) ∅ m.
Proof. intros H. apply (fd_map eu _ _ _ m H). intros a. apply rt_any. Qed.
Lemma AllOpt_imp {A} (P Q : A → Prop) x : AllOpt P x → (∀ a, P a → Q a) → AllOpt Q x.
Proof. unfold AllOpt. auto. Qed.
Lemma AllList_imp {A} (P Q : A → Prop) l : AllList P l → (∀ a, P a → Q a) → AllList Q l.
Proof. unfold AllList. auto. Qed.

Context (HA : Agree c d).
Notation K := (kept c d).
Ltac fld lem st :=
  eapply (reads_cons _ _ _ _ _ _ _ st _ _ _ _ lem); [reflexivity| |reflexivity|];
  [intros v; cbn; match goal with |- context [?x ≫= _] => destruct x; reflexivity | _ => reflexivity end|].

Lemma rt_filterable eu x : AllFilterable K x → RT (j_filterable c eu) (r_filterable d) x.
Proof.
  intros (H1 & H2 & H3 & H4). destruct x as [tags strs dbls ct]. cbn [fd_tags fd_strings fd_doubles fd_ctime] in *.
  apply reads_msg; [reflexivity|].
  fld (f_list eu j_text r_text tags (AllList_imp _ _ _ H1 rt_text)) (λ x, Filterable x ∅ ∅ None).
  fld (fd_map eu j_text r_text _ strs H2 rt_text) (λ x, Filterable tags x ∅ None).
  fld (fd_map eu _ (r_double d) _ dbls H3 (λ x, rd_double x HA)) (λ x, Filterable tags strs x None).
  fld (f_opt eu (j_time c) (r_time d) ct (AllOpt_imp _ _ _ H4 (λ t, rt_time t HA))) (λ x, Filterable tags strs dbls x).
  constructor.
Qed.

Lemma rt_ticket eu x : AllTicket K x → RT (j_ticket c eu) (r_ticket d) x.
Proof.
  intros (H1 & H2 & H3 & H4). destruct x as [id ex at' ext]. cbn [tk_id tk_exp tk_attrs tk_ext] in *.
  apply reads_msg; [reflexivity|].
  fld (f_text eu id H1) (λ x, Ticket x None None ∅).
  fld (f_opt eu (j_time c) (r_time d) ex (AllOpt_imp _ _ _ H2 (λ t, rt_time t HA))) (λ x, Ticket id x None ∅).
  fld (f_opt eu (j_filterable c eu) (r_filterable d) at' (AllOpt_imp _ _ _ H3 (rt_filterable eu))) (λ x, Ticket id ex x ∅).
  fld (fd_ext eu ext H4) (λ x, Ticket id ex at' x).
  constructor.
Qed.
Lemma rt_assignment eu x : AllAssignment K x → RT (j_assignment c eu) (r_assignment d) x.
Proof.
  intros (H1 & H2). destruct x as [cn ext]. cbn [as_conn as_ext] in *.
  apply reads_msg; [reflexivity|].
  fld (f_text eu cn H1) (λ x, Assignment x ∅). fld (fd_ext eu ext H2) (λ x, Assignment cn x). constructor.
Qed.
Lemma rt_roster eu x : AllRoster K x → RT (j_roster c eu) (r_roster d) x.
Proof.
  intros (H1 & H2 & H3 & H4). destruct x as [nm asg tks ext]. cbn [ro_name ro_assignment ro_tickets ro_ext] in *.
  apply reads_msg; [reflexivity|].
  fld (f_text eu nm H1) (λ x, Roster x None [] ∅).
  fld (f_opt eu (j_assignment c eu) (r_assignment d) asg (AllOpt_imp _ _ _ H2 (rt_assignment eu))) (λ x, Roster nm x [] ∅).
  fld (f_list eu (j_ticket c eu) (r_ticket d) tks (AllList_imp _ _ _ H3 (rt_ticket eu))) (λ x, Roster nm asg x ∅).
  fld (fd_ext eu ext H4) (λ x, Roster nm asg tks x). constructor.
Qed.
Lemma rt_tag_filter eu x : utf8_valid x = true → RT (j_tag_filter eu) r_tag_filter x.
Proof.
  intros H1. apply reads_msg; [reflexivity|].
  eapply (reads_cons _ _ _ _ _ _ _ (λ x, x) _ _ _ _ (f_text eu x H1)); [reflexivity| |reflexivity|constructor].
  intros v. cbn. by destruct (r_text v).
Qed.
Lemma rt_string_filter eu x : AllStringFilter K x → RT (j_string_filter eu) r_string_filter x.
Proof.
  intros (H1 & H2). destruct x as [a b]. cbn [fst snd] in *. apply reads_msg; [reflexivity|].
  fld (f_text eu a H1) (λ x : string, (x, "")). fld (f_text eu b H2) (λ x : string, (a, x)). constructor.
Qed.
Lemma rt_double_filter eu x : AllDoubleFilter K x → RT (j_double_filter c eu) (r_double_filter d) x.
Proof.
  intros (H1 & H2 & H3 & H4). destruct x as [a mn mx b]. cbn [df_arg df_min df_max df_bounds] in *.
  apply reads_msg; [reflexivity|].
  fld (f_text eu a H1) (λ x, DoubleFilter x 0%N 0%N 0%Z).
  fld (fd_double eu mn HA H2) (λ x, DoubleFilter a x 0%N 0%Z).
  fld (fd_double eu mx HA H3) (λ x, DoubleFilter a mn x 0%Z).
  fld (fd_enum eu bounds_name bounds_value b HA H4 bounds_names) (λ x, DoubleFilter a mn mx x). constructor.
Qed.
Lemma rt_time_filter eu x : AllTimeFilter K x → RT (j_time_filter c eu) (r_time_filter d) x.
Proof.
  intros (H1 & H2 & H3). destruct x as [a b bo]. cbn [tf_start tf_end tf_bounds] in *.
  apply reads_msg; [reflexivity|].
  fld (f_opt eu (j_time c) (r_time d) a (AllOpt_imp _ _ _ H1 (λ t, rt_time t HA))) (λ x, TimeFilter x None 0%Z).
  fld (f_opt eu (j_time c) (r_time d) b (AllOpt_imp _ _ _ H2 (λ t, rt_time t HA))) (λ x, TimeFilter a x 0%Z).
  fld (fd_enum eu bounds_name bounds_value bo HA H3 bounds_names) (λ x, TimeFilter a b x). constructor.
Qed.
Lemma rt_pool eu x : AllPool K x → RT (j_pool c eu) (r_pool d) x.
Proof.
  intros (H1 & H2 & H3 & H4 & H5 & H6 & H7). destruct x as [nm tg st db tm pt ext].
  cbn [po_name po_tag_filters po_string_filters po_double_filters po_time_filter po_participants po_ext] in *.
  apply reads_msg; [reflexivity|].
  fld (f_text eu nm H1) (λ x, Pool x [] [] [] None None ∅).
  fld (f_list eu (j_tag_filter eu) r_tag_filter tg (AllList_imp _ _ _ H2 (rt_tag_filter eu))) (λ x, Pool nm x [] [] None None ∅).
  fld (f_list eu (j_string_filter eu) r_string_filter st (AllList_imp _ _ _ H3 (rt_string_filter eu))) (λ x, Pool nm tg x [] None None ∅).
  fld (f_list eu (j_double_filter c eu) (r_double_filter d) db (AllList_imp _ _ _ H4 (rt_double_filter eu))) (λ x, Pool nm tg st x None None ∅).
  fld (f_opt eu (j_time_filter c eu) (r_time_filter d) tm (AllOpt_imp _ _ _ H5 (rt_time_filter eu))) (λ x, Pool nm tg st db x None ∅).
  fld (f_opt eu (j_roster c eu) (r_roster d) pt (AllOpt_imp _ _ _ H6 (rt_roster eu))) (λ x, Pool nm tg st db tm x ∅).
  fld (fd_ext eu ext H7) (λ x, Pool nm tg st db tm pt x). constructor.
Qed.
Lemma rt_profile eu x : AllProfile K x → RT (j_profile c eu) (r_profile d) x.
Proof.
  intros (H1 & H2 & H3). destruct x as [nm ps ext]. cbn [pr_name pr_pools pr_ext] in *.
  apply reads_msg; [reflexivity|].
  fld (f_text eu nm H1) (λ x, Profile x ∅ ∅).
  fld (fd_map eu (j_pool c eu) (r_pool d) _ ps H2 (rt_pool eu)) (λ x, Profile nm x ∅).
  fld (fd_ext eu ext H3) (λ x, Profile nm ps x). constructor.
Qed.
Lemma rt_match eu x : AllMatch K x → RT (j_match c eu) (r_match d) x.
Proof.
  intros (H1 & H2 & H3). destruct x as [nm ps ext]. cbn [ma_id ma_rosters ma_ext] in *.
  apply reads_msg; [reflexivity|].
  fld (f_text eu nm H1) (λ x, Match x ∅ ∅).
  fld (fd_map eu (j_roster c eu) (r_roster d) _ ps H2 (rt_roster eu)) (λ x, Match nm x ∅).
  fld (fd_ext eu ext H3) (λ x, Match nm ps x). constructor.
Qed.
Lemma type_back ty : match ty with MMF_OTHER z => Fits32 z ∧ z ≠ 0%Z ∧ z ≠ 1%Z | _ => True end →
  Fits32 (type_to_Z ty) ∧ type_of_Z (type_to_Z ty) = ty.
Proof.
  destruct ty as [| |z]; cbn [type_to_Z]; unfold Fits32; [split; [lia|done]..|]. intros (H & H0 & H1). split; [done|].
  unfold type_of_Z. destruct (Z.eqb_spec z 0); [done|]. by destruct (Z.eqb_spec z 1).
Qed.
Lemma rt_spec eu x : AllSpec K x ∧ PlainType x → RT (j_spec eu) (r_spec d) x.
Proof.
  intros ((H1 & H2 & H3 & H4) & H5). destruct x as [nm h po ty]. unfold PlainType in H5. cbn [mf_name mf_host mf_port mf_type] in *.
  destruct (type_back ty) as [H6 H7]. { destruct ty; naive_solver. }
  apply reads_msg; [reflexivity|]. cbn [mf_name mf_host mf_port mf_type].
  fld (f_text eu nm H1) (λ x, MmfSpec x "" 0%Z MMF_REST).
  fld (f_text eu h H2) (λ x, MmfSpec nm x 0%Z MMF_REST).
  fld (fd_int eu po HA H3) (λ x, MmfSpec nm h x MMF_REST).
  fld (fd_enum eu type_name type_value (type_to_Z ty) HA H6 type_names) (λ x, MmfSpec nm h po (type_of_Z x)).
  rewrite H7. constructor.
Qed.
Lemma rt_request eu x : AllRequest K x → AllList PlainType (rq_mmfs x) → RT (j_request c eu) (r_request d) x.
Proof.
  intros (H1 & H2) H3. destruct x as [pr fs]. cbn [rq_profile rq_mmfs] in *.
  apply reads_msg; [reflexivity|].
  fld (f_opt eu (j_profile c eu) (r_profile d) pr (AllOpt_imp _ _ _ H1 (rt_profile eu))) (λ x, Request x []).
  assert (AllList (RT (j_spec eu) (r_spec d)) fs) as H.
  { intros f Hf. apply rt_spec. split; auto. }
  fld (f_list eu (j_spec eu) (r_spec d) fs H) (λ x, Request pr x). constructor.
Qed.
Ltac one_fld lem :=
  apply reads_msg; [reflexivity|]; eapply (reads_cons _ _ _ _ _ _ _ (λ x, x) _ _ _ _ lem); [reflexivity| |reflexivity|constructor];
  intros v; cbn; match goal with |- context [?x ≫= _] => by destruct x | |- context [_ <$> ?x] => by destruct x end.
Lemma rt_result eu x : AllOpt (AllMatch K) x → RT (j_result c eu) (r_result d) x.
Proof. intros H. one_fld (f_opt eu (j_match c eu) (r_match d) x (AllOpt_imp _ _ _ H (rt_match eu))). Qed.
Lemma rt_create eu x : AllOpt (AllTicket K) x → RT (j_create c eu) (r_create d) x.
Proof. intros H. one_fld (f_opt eu (j_ticket c eu) (r_ticket d) x (AllOpt_imp _ _ _ H (rt_ticket eu))). Qed.
Lemma rt_ids eu x : AllList (λ s, utf8_valid s = true) x → RT (j_ids eu) r_ids x.
Proof. intros H. one_fld (f_list eu j_text r_text x (AllList_imp _ _ _ H rt_text)). Qed.
Lemma rt_assign eu x : AllOpt (AllRoster K) x → RT (j_assign c eu) (r_assign d) x.
Proof. intros H. one_fld (f_opt eu (j_roster c eu) (r_roster d) x (AllOpt_imp _ _ _ H (rt_roster eu))). Qed.
Lemma rt_watch eu x : AllWatch K x → RT (j_watch c eu) (r_watch d) x.
Proof.
  intros (H1 & H2). destruct x as [a id]. cbn [fst snd] in *. apply reads_msg; [reflexivity|].
  fld (f_opt eu (j_assignment c eu) (r_assignment d) a (AllOpt_imp _ _ _ H1 (rt_assignment eu))) (λ x : option assignment, (x, "")).
  fld (f_text eu id H2) (λ x : string, (a, x)). constructor.
Qed.

(** ** What can be read *)
Lemma read_members_inv {M} canon (step : N → jv → M → option M) (P : M → Prop) l acc r :
  (∀ n v m m', P m → step n v m = Some m' → P m') → P acc → read_members canon step l acc = Some r → P r.
Proof.
  intros Hs. revert acc. induction l as [|[k v] l IH]; intros acc Ha H; cbn [read_members] in H.
  { by injection H as <-. }
  destruct (canon k) as [n|]; [|by eapply IH].
  destruct v; try (by eapply IH);
    (destruct (step n _ acc) as [acc'|] eqn:E; [|discriminate H]; cbn in H; eapply IH; [|exact H]; by eapply Hs).
Qed.
Lemma read_object_inv {M} canon (step : N → jv → M → option M) (P : M → Prop) init j r :
  (∀ n v m m', P m → step n v m = Some m' → P m') → P init → read_object canon step init j = Some r → P r.
Proof.
  intros Hs Hi H. destruct j as [| | | | |l]; try discriminate H. cbn [read_object] in H.
  case_bool_decide; [|discriminate H]. by eapply read_members_inv.
Qed.
Notation F := (from_json d).
Lemma r_list_inv {A} (r : jv → option A) (P : A → Prop) j l : (∀ j a, r j = Some a → P a) → r_list r j = Some l → AllList P l.
Proof.
  intros H Hr. destruct j as [| | | |js|]; try discriminate Hr. cbn [r_list] in Hr. apply mapM_Some in Hr.
  intros a Ha. apply elem_of_list_lookup in Ha as [i Hi]. destruct (Forall2_lookup_r _ _ _ _ _ Hr Hi) as (j & _ & Hj). eauto.
Qed.
Lemma r_map_inv {A} (r : jv → option A) (P : A → Prop) j m : (∀ j a, r j = Some a → P a) → r_map r j = Some m → AllMap F P m.
Proof.
  intros H Hr. destruct j as [| | | | |l]; try discriminate Hr. cbn [r_map] in Hr. case_bool_decide; [|discriminate Hr].
  destruct (mapM _ l) as [l'|] eqn:E; [|discriminate Hr]. cbn in Hr. injection Hr as <-. apply mapM_Some in E.
  intros k a Hk. split; [done|]. apply elem_of_list_to_map_2 in Hk. apply elem_of_list_lookup in Hk as [i Hi].
  destruct (Forall2_lookup_r _ _ _ _ _ E Hi) as ([k' j] & _ & Hj). cbn in Hj.
  destruct (r j) as [a'|] eqn:Ej; [|discriminate Hj]. injection Hj as <- <-. eauto.
Qed.
Lemma r_any_inv j a : r_any d j = Some a → Readable d a.
Proof.
  unfold r_any, Readable. destruct j as [| | | | |l]; try done.
  destruct (List.filter is_type l) as [|[k v] l']; [intros [= <-]; by left|].
  destruct v as [| | |url| |]; try done. destruct l'; [|done].
  destruct (String.eqb_spec url "") as [?|Hn]; [done|]. destruct (jc_types d url) as [e|] eqn:Ee; [|done].
  destruct (em_read e _) as [v|] eqn:Er; [|done]. cbn. intros [= <-]. right. split; [done|]. cbn. eauto.
Qed.
Lemma r_time_inv j t : r_time d j = Some t → lf_time F t.
Proof. destruct j; try done. cbn. eauto. Qed.
Lemma r_ext_inv j m : r_ext d j = Some m → AllMap F (lf_any F) m.
Proof. apply r_map_inv. intros j' a. apply r_any_inv. Qed.
Lemma none_opt {A} (P : A → Prop) : AllOpt P None.
Proof. intros a [=]. Qed.
Lemma none_list {A} (P : A → Prop) : AllList P [].
Proof. intros a Ha. by apply elem_of_nil in Ha. Qed.
Lemma none_map {A} L (P : A → Prop) : AllMap L P ∅.
Proof. intros k a Ha. by rewrite lookup_empty in Ha. Qed.
Lemma some_opt {A} (P : A → Prop) x : P x → AllOpt P (Some x).
Proof. intros H a [= <-]. done. Qed.
Lemma any_list {A} (P : A → Prop) l : (∀ a, P a) → AllList P l.
Proof. intros H a _. apply H. Qed.
Ltac inv0 := match goal with
  | |- AllOpt _ None => apply none_opt | |- AllList _ [] => apply none_list | |- AllMap _ _ ∅ => apply none_map
  | |- _ => exact I end.
Ltac step_of H := match type of H with (?x ≫= _) = Some _ => let E := fresh "E" in destruct x as [?|] eqn:E; [|discriminate H]; cbn in H; injection H as <- end.
Ltac steps := intros n v m m' Hm H; cbn beta in H;
  repeat match type of H with context [match ?n with _ => _ end] => is_var n; destruct n end;
  step_of H.

Lemma r_filterable_inv j x : r_filterable d j = Some x → AllFilterable F x.
Proof.
  apply read_object_inv.
  - steps; destruct Hm as (H1 & H2 & H3 & H4); unfold AllFilterable; cbn [fd_tags fd_strings fd_doubles fd_ctime]; split_and!; try assumption;
      try (by eapply some_opt, r_time_inv); try (apply any_list; done); eapply r_map_inv; try eassumption; done.
  - unfold AllFilterable. cbn. split_and!; inv0.
Qed.
Lemma r_ticket_inv j x : r_ticket d j = Some x → AllTicket F x.
Proof.
  apply read_object_inv.
  - steps; destruct Hm as (H1 & H2 & H3 & H4); unfold AllTicket; cbn [tk_id tk_exp tk_attrs tk_ext]; split_and!; try assumption;
      try exact I; try (by eapply some_opt, r_time_inv); try (by eapply some_opt, r_filterable_inv); by eapply r_ext_inv.
  - unfold AllTicket. cbn. split_and!; inv0.
Qed.
Lemma r_assignment_inv j x : r_assignment d j = Some x → AllAssignment F x.
Proof.
  apply read_object_inv.
  - steps; destruct Hm as (H1 & H2); unfold AllAssignment; cbn [as_conn as_ext]; split_and!; try assumption;
      try exact I; by eapply r_ext_inv.
  - unfold AllAssignment. cbn. split_and!; inv0.
Qed.
Lemma r_roster_inv j x : r_roster d j = Some x → AllRoster F x.
Proof.
  apply read_object_inv.
  - steps; destruct Hm as (H1 & H2 & H3 & H4); unfold AllRoster; cbn [ro_name ro_assignment ro_tickets ro_ext]; split_and!; try assumption;
      try exact I; try (by eapply some_opt, r_assignment_inv); try (by eapply r_ext_inv);
      by eapply r_list_inv; [exact r_ticket_inv|].
  - unfold AllRoster. cbn. split_and!; inv0.
Qed.
Lemma r_time_filter_inv j x : r_time_filter d j = Some x → AllTimeFilter F x.
Proof.
  apply read_object_inv.
  - steps; destruct Hm as (H1 & H2 & H3); unfold AllTimeFilter; cbn [tf_start tf_end tf_bounds]; split_and!; try assumption;
      try exact I; by eapply some_opt, r_time_inv.
  - unfold AllTimeFilter. cbn. split_and!; inv0.
Qed.
Lemma r_pool_inv j x : r_pool d j = Some x → AllPool F x.
Proof.
  apply read_object_inv.
  - steps; destruct Hm as (H1 & H2 & H3 & H4 & H5 & H6 & H7); unfold AllPool;
      cbn in H1, H2, H3, H4, H5, H6, H7 |- *; split_and!; try assumption;
      try exact I; try (apply any_list; done); try (by eapply some_opt, r_time_filter_inv); try (by eapply some_opt, r_roster_inv);
      by eapply r_ext_inv.
  - unfold AllPool. cbn. split_and!; inv0.
Qed.
Lemma r_profile_inv j x : r_profile d j = Some x → AllProfile F x.
Proof.
  apply read_object_inv.
  - steps; destruct Hm as (H1 & H2 & H3); unfold AllProfile; cbn [pr_name pr_pools pr_ext]; split_and!; try assumption;
      try exact I; try (by eapply r_ext_inv); by eapply r_map_inv; [exact r_pool_inv|].
  - unfold AllProfile. cbn. split_and!; inv0.
Qed.
Lemma r_request_inv j x : r_request d j = Some x → AllRequest F x.
Proof.
  apply read_object_inv.
  - steps; destruct Hm as (H1 & H2); unfold AllRequest; cbn [rq_profile rq_mmfs]; split_and!; try assumption;
      try (by eapply some_opt, r_profile_inv); apply any_list; intros f; unfold AllSpec; destruct (mf_type f); done.
  - unfold AllRequest. cbn. split_and!; inv0.
Qed.
Lemma r_create_inv j x : r_create d j = Some x → AllOpt (AllTicket F) x.
Proof. apply read_object_inv; [steps; by eapply some_opt, r_ticket_inv|inv0]. Qed.
Lemma r_assign_inv j x : r_assign d j = Some x → AllOpt (AllRoster F) x.
Proof. apply read_object_inv; [steps; by eapply some_opt, r_roster_inv|inv0]. Qed.
End Codec.

(** ** The gateway's stream *)
Lemma http_lines_all {M} (w : M → option jv) ms : Forall (λ m, is_Some (w m)) ms →
  ∃ js, mapM w ms = Some js ∧ http_lines w ms = map ResultLine js.
Proof.
  induction 1 as [|m ms [j Hj] _ (js & H1 & H2)]; [by exists []|]. exists (j :: js). cbn [http_lines mapM].
  rewrite Hj. cbn. rewrite H1, H2. done.
Qed.
Lemma http_lines_cut {M} (w : M → option jv) ms1 m ms2 : Forall (λ m, is_Some (w m)) ms1 → w m = None →
  http_lines w (ms1 ++ m :: ms2) = http_lines w ms1 ++ [ErrorLine].
Proof.
  intros H Hm. induction H as [|m' ms [j Hj] _ IH]; cbn [http_lines app]; [by rewrite Hm|]. rewrite Hj, IH. done.
Qed.
Lemma received_app {M} (r : jv → option M) js ls :
  received r (map ResultLine js ++ ls) = (map r js ++ (received r ls).1, (received r ls).2).
Proof. induction js as [|j js IH]; cbn; [by destruct (received r ls)|]. rewrite IH. done. Qed.
Lemma received_rt {M} (w : M → option jv) r ms ls : Forall (RT w r) ms →
  received r (http_lines w ms ++ ls) = (map Some ms ++ (received r ls).1, (received r ls).2).
Proof.
  induction 1 as [|m ms (j & Hj & _ & Hr) _ IH]; cbn [http_lines app]; [by destruct (received r ls)|].
  rewrite Hj. cbn [app received]. rewrite IH, Hr. done.
Qed.
Lemma received_stream {M} (w : M → option jv) r ms : Forall (RT w r) ms → received r (http_lines w ms) = (map Some ms, false).
Proof.
  intros H. rewrite <-(app_nil_r (http_lines w ms)), (received_rt w r ms [] H). cbn. by rewrite app_nil_r.
Qed.
Lemma received_cut {M} (w : M → option jv) r ms1 m ms2 : Forall (RT w r) ms1 → w m = None →
  received r (http_lines w (ms1 ++ m :: ms2)) = (map Some ms1, true).
Proof.
  intros H Hm. rewrite http_lines_cut; [|eapply Forall_impl; [exact H|]; intros m' (j & Hj & _); eauto|done].
  rewrite (received_rt w r ms1 _ H). cbn. by rewrite app_nil_r.
Qed.

(** ** The statements *)
Lemma j_watch_some c eu w : is_Some (j_watch c eu w) ↔ AllWatch (in_json c) w.
Proof.
  unfold j_watch, AllWatch. some_msg. rewrite w_text_some, w_opt_some.
  rewrite (AllOpt_iff _ (AllAssignment (in_json c))) by (intros; apply j_assignment_some). cbn [lf_text in_json]. tauto.
Qed.
Lemma same_request c d eu : Agree c d →
  (∀ t, AllOpt (AllTicket (kept c d)) t →
    ∃ j, j_create c eu t = Some j ∧ gateway_request (r_create d) None (Some j) = Some t) ∧
  (∀ ids, AllList (λ s, utf8_valid s = true) ids →
    ∃ j, j_ids eu ids = Some j ∧ gateway_request r_ids [] (Some j) = Some ids) ∧
  (∀ r, AllRequest (kept c d) r → AllList PlainType (rq_mmfs r) →
    ∃ j, j_request c eu r = Some j ∧ gateway_request (r_request d) (Request None []) (Some j) = Some r) ∧
  (∀ r, AllOpt (AllRoster (kept c d)) r →
    ∃ j, j_assign c eu r = Some j ∧ gateway_request (r_assign d) None (Some j) = Some r).
Proof.
  intros HA. split_and!.
  - intros t (j & H1 & _ & H2)%(rt_create c d HA eu). eauto.
  - intros t (j & H1 & _ & H2)%(rt_ids eu). eauto.
  - intros t H H'. destruct (rt_request c d HA eu t H H') as (j & H1 & _ & H2). eauto.
  - intros t (j & H1 & _ & H2)%(rt_assign c d HA eu). eauto.
Qed.
Lemma writable c eu :
  (∀ t, is_Some (j_create c eu t) ↔ AllOpt (AllTicket (in_json c)) t) ∧
  (∀ ids, is_Some (j_ids eu ids) ↔ AllList (λ s, utf8_valid s = true) ids) ∧
  (∀ r, is_Some (j_request c eu r) ↔ AllRequest (in_json c) r) ∧
  (∀ r, is_Some (j_assign c eu r) ↔ AllOpt (AllRoster (in_json c)) r).
Proof. split_and!; intros x; [apply j_create_some|apply j_ids_some|apply j_request_some|apply j_assign_some]. Qed.
Lemma only_known d body :
  (∀ t, gateway_request (r_create d) None body = Some t → AllOpt (AllTicket (from_json d)) t) ∧
  (∀ r, gateway_request (r_request d) (Request None []) body = Some r → AllRequest (from_json d) r) ∧
  (∀ r, gateway_request (r_assign d) None body = Some r → AllOpt (AllRoster (from_json d)) r).
Proof.
  split_and!; intros x; (destruct body as [j|]; cbn [gateway_request]; [|intros [= <-]]).
  - apply r_create_inv.
  - apply none_opt.
  - apply r_request_inv.
  - split; [apply none_opt|apply none_list].
  - apply r_assign_inv.
  - apply none_opt.
Qed.
Lemma all_received c d : Agree c d →
  (∀ ms, Forall (AllOpt (AllMatch (kept c d))) ms →
    received (r_result d) (http_lines (j_result c true) ms) = (map Some ms, false)) ∧
  (∀ ws, Forall (AllWatch (kept c d)) ws →
    received (r_watch d) (http_lines (j_watch c true) ws) = (map Some ws, false)).
Proof.
  intros HA. split; intros ms H; apply received_stream; (eapply Forall_impl; [exact H|]).
  - intros m. apply (rt_result c d HA).
  - intros w. apply (rt_watch c d).
Qed.
Lemma none_of {A} (x : option A) : ¬ is_Some x → x = None.
Proof. destruct x; [|done]. intros H. destruct H. eauto. Qed.
Lemma until_first c d : Agree c d →
  (∀ ms1 m ms2, Forall (AllOpt (AllMatch (kept c d))) ms1 → ¬ AllOpt (AllMatch (in_json c)) m →
    received (r_result d) (http_lines (j_result c true) (ms1 ++ m :: ms2)) = (map Some ms1, true)) ∧
  (∀ ws1 w ws2, Forall (AllWatch (kept c d)) ws1 → ¬ AllWatch (in_json c) w →
    received (r_watch d) (http_lines (j_watch c true) (ws1 ++ w :: ws2)) = (map Some ws1, true)).
Proof.
  intros HA. split; intros ms1 m ms2 H Hm; apply received_cut.
  - eapply Forall_impl; [exact H|]. intros x. apply (rt_result c d HA).
  - apply none_of. by rewrite j_result_some.
  - eapply Forall_impl; [exact H|]. intros x. apply (rt_watch c d).
  - apply none_of. by rewrite j_watch_some.
Qed.
Lemma error_line {M} (w : M → option jv) ms : ErrorLine ∈ http_lines w ms ↔ ∃ m, m ∈ ms ∧ ¬ is_Some (w m).
Proof.
  induction ms as [|m ms IH]; cbn [http_lines].
  - split; [intros H; by apply elem_of_nil in H|]. intros (m & H & _). by apply elem_of_nil in H.
  - destruct (w m) as [j|] eqn:E.
    + rewrite elem_of_cons, IH. split.
      * intros [[=]|(m' & H1 & H2)]. exists m'. split; [by right|done].
      * intros (m' & H1 & H2). right. exists m'. split; [|done]. apply elem_of_cons in H1 as [->|H1]; [|done].
        destruct H2. eauto.
    + split; [|intros _; left]. intros _. exists m. split; [left|]. rewrite E. by intros [? [=]].
Qed.
Lemma error_iff c :
  (∀ ms, ErrorLine ∈ http_lines (j_result c true) ms ↔ ∃ m, m ∈ ms ∧ ¬ AllOpt (AllMatch (in_json c)) m) ∧
  (∀ ws, ErrorLine ∈ http_lines (j_watch c true) ws ↔ ∃ w, w ∈ ws ∧ ¬ AllWatch (in_json c) w).
Proof.
  split; intros ms; rewrite error_line.
  - split; intros (m & H1 & H2); exists m; (split; [done|]); by rewrite j_result_some in *.
  - split; intros (m & H1 & H2); exists m; (split; [done|]); by rewrite j_watch_some in *.
Qed.

(** ** Bodies with ids, exactly *)
Definition ids_no : string → option N := field_no [(1%N, ["ticketIds"; "ticket_ids"])].
Lemma ids_no_cases k : (k = "ticketIds" ∨ k = "ticket_ids") ∧ ids_no k = Some 1%N ∨
  ¬ (k = "ticketIds" ∨ k = "ticket_ids") ∧ ids_no k = None.
Proof.
  unfold ids_no. cbn. destruct (String.eqb_spec k "ticketIds") as [->|H1]; [left; tauto|].
  destruct (String.eqb_spec k "ticket_ids") as [->|H2]; [left; tauto|]. right. cbn. tauto.
Qed.
Definition ids_step : N → jv → list string → option (list string) := λ _ v _, r_list r_text v.
Lemma ids_skip l1 l2 acc : Forall (λ kv, ¬ IdsName kv) l1 →
  read_members ids_no ids_step (l1 ++ l2) acc = read_members ids_no ids_step l2 acc ∧
  omap (λ kv, ids_no kv.1) (l1 ++ l2) = omap (λ kv : string * jv, ids_no kv.1) l2.
Proof.
  induction 1 as [|[k v] l1 Hk _ IH]; [done|].
  destruct (ids_no_cases k) as [[H _]|[_ H]]; [by destruct Hk|]. cbn [app read_members]. rewrite H.
  change (omap (λ kv : string * jv, ids_no kv.1) ((k, v) :: l1 ++ l2)) with
    (match ids_no k with Some y => y :: omap (λ kv : string * jv, ids_no kv.1) (l1 ++ l2) | None => omap (λ kv : string * jv, ids_no kv.1) (l1 ++ l2) end).
  rewrite H. exact IH.
Qed.
Lemma ids_members l : Forall (λ kv, ¬ IdsName kv) l ∨
  ∃ l1 kv l2, l = l1 ++ kv :: l2 ∧ Forall (λ kv, ¬ IdsName kv) l1 ∧ IdsName kv.
Proof.
  induction l as [|[k v] l IH]; [left; constructor|].
  destruct (ids_no_cases k) as [[H _]|[H _]].
  - right. exists [], (k, v), l. split_and!; [done|constructor|exact H].
  - destruct IH as [IH|(l1 & kv & l2 & -> & H1 & H2)]; [left; by constructor|].
    right. exists ((k, v) :: l1), kv, l2. split_and!; [done| |done]. by constructor.
Qed.
Lemma texts_iff js ids : mapM r_text js = Some ids ↔ js = map JText ids.
Proof.
  split.
  - revert ids. induction js as [|j js IH]; intros ids H; cbn [mapM] in H; [by injection H as <-|].
    destruct j as [| | |s| |]; try discriminate H. cbn in H. destruct (mapM r_text js) as [l|]; [|discriminate H].
    cbn in H. injection H as <-. cbn. by rewrite (IH l eq_refl).
  - intros ->. induction ids as [|s ids IH]; [done|]. cbn [map mapM r_text]. cbn. rewrite IH. done.
Qed.
Lemma ids_exact j ids : r_ids j = Some ids ↔ IdsBody j ids.
Proof.
  assert (∀ l, r_ids (JDict l) = if bool_decide (NoDup (omap (λ kv : string * jv, ids_no kv.1) l))
    then read_members ids_no ids_step l [] else None) as HR by reflexivity.
  assert (∀ l1 kv l2, Forall (λ kv, ¬ IdsName kv) l1 → IdsName kv → Forall (λ kv, ¬ IdsName kv) l2 →
    r_ids (JDict (l1 ++ kv :: l2)) = match kv.2 with JNull => Some [] | v => r_list r_text v end) as Hone.
  { intros l1 [k v] l2 H1 H2 H3. rewrite HR. destruct (ids_skip l1 ((k, v) :: l2) [] H1) as [-> ->].
    destruct (ids_no_cases k) as [[_ H]|[H _]]; [|by destruct H].
    change (omap (λ kv : string * jv, ids_no kv.1) ((k, v) :: l2)) with
      (match ids_no k with Some y => y :: omap (λ kv : string * jv, ids_no kv.1) l2 | None => omap (λ kv : string * jv, ids_no kv.1) l2 end).
    rewrite H. destruct (ids_skip l2 [] [] H3) as [_ H4]. rewrite app_nil_r in H4. rewrite H4.
    rewrite bool_decide_eq_true_2 by (change (omap (λ kv : string * jv, ids_no kv.1) []) with (@nil N); apply NoDup_singleton).
    cbn [read_members snd]. rewrite H. pose proof (λ acc, proj1 (ids_skip l2 [] acc H3)) as H5. rewrite app_nil_r in H5.
    destruct v; rewrite ?H5; try done; unfold ids_step; destruct (r_list r_text _); cbn; by rewrite ?H5. }
  assert (∀ l, Forall (λ kv, ¬ IdsName kv) l → r_ids (JDict l) = Some []) as Hnone.
  { intros l H1. rewrite HR. destruct (ids_skip l [] [] H1) as [H2 H3]. rewrite app_nil_r in H2, H3. rewrite H2, H3.
    rewrite bool_decide_eq_true_2; [done|]. constructor. }
  split.
  - destruct j as [| | | | |l]; try done. intros H. exists l. split; [done|].
    destruct (ids_members l) as [Hl|(l1 & kv & l2 & -> & H1 & H2)].
    { left. split; [done|]. rewrite (Hnone l Hl) in H. by injection H as <-. }
    right. exists l1, kv, l2. split; [done|].
    destruct (ids_members l2) as [Hl2|(l3 & kv' & l4 & -> & H3 & H4)].
    + split_and!; [done..|]. rewrite (Hone l1 kv l2 H1 H2 Hl2) in H.
      destruct (kv.2) as [| | | |js|]; try discriminate H.
      * left. by injection H as <-.
      * right. cbn [r_list] in H. apply texts_iff in H. by rewrite H.
    + exfalso. rewrite HR in H. destruct (ids_skip l1 (kv :: l3 ++ kv' :: l4) [] H1) as [_ E]. rewrite E in H.
      destruct kv as [k v], kv' as [k' v'].
      destruct (ids_no_cases k) as [[_ Ek]|[Ek _]]; [|by destruct Ek].
      destruct (ids_no_cases k') as [[_ Ek']|[Ek' _]]; [|by destruct Ek'].
      change (omap (λ kv : string * jv, ids_no kv.1) ((k, v) :: l3 ++ (k', v') :: l4)) with
        (match ids_no k with Some y => y :: omap (λ kv : string * jv, ids_no kv.1) (l3 ++ (k', v') :: l4)
         | None => omap (λ kv : string * jv, ids_no kv.1) (l3 ++ (k', v') :: l4) end) in H.
      rewrite Ek in H. destruct (ids_skip l3 ((k', v') :: l4) [] H3) as [_ E3]. rewrite E3 in H.
      change (omap (λ kv : string * jv, ids_no kv.1) ((k', v') :: l4)) with
        (match ids_no k' with Some y => y :: omap (λ kv : string * jv, ids_no kv.1) l4
         | None => omap (λ kv : string * jv, ids_no kv.1) l4 end) in H.
      rewrite Ek' in H. rewrite bool_decide_eq_false_2 in H; [discriminate H|].
      intros [Hn _]%NoDup_cons. apply Hn. left.
  - intros (l & -> & [[H1 ->]|(l1 & kv & l2 & -> & H1 & H2 & H3 & H4)]); [by apply Hnone|].
    rewrite (Hone l1 kv l2 H1 H2 H3). destruct H4 as [[-> ->]| ->]; [done|]. cbn [r_list]. by apply texts_iff.
Qed.
Lemma same_key c l1 k v1 l2 v2 l3 : r_ext c (JDict (l1 ++ (k, v1) :: l2 ++ (k, v2) :: l3)) = None.
Proof.
  unfold r_ext. cbn [r_map]. rewrite bool_decide_eq_false_2; [done|].
  rewrite map_app. cbn [map fst]. rewrite map_app. cbn [map fst]. intros (_ & _ & H)%NoDup_app.
  apply NoDup_cons in H as [H _]. apply H. apply elem_of_app. right. left.
Qed.
Lemma ids_body body ids : gateway_request r_ids [] body = Some ids ↔
  body = None ∧ ids = [] ∨ ∃ j, body = Some j ∧ IdsBody j ids.
Proof.
  destruct body as [j|]; cbn [gateway_request].
  - rewrite ids_exact. split; [eauto|]. intros [[[=] _]|(j' & [= <-] & H)]. done.
  - split; [intros [= <-]; by left|]. intros [[_ ->]|(j & [=] & _)]. done.
Qed.
