(** Requests, chunks and matches survive encoding and decoding. *)
From Coq Require Import Ascii String ZArith NArith Lia ZifyBool ZifyN ZifyNat.
From stdpp Require Import prelude strings gmap.
From Verif.Model Require Import Types Wire Proto ProtoMsg.
From Verif.Proofs Require Import StringLemmas WireLemmas ProtoLemmas.
Local Open Scope string_scope.
Local Open Scope list_scope.

(** ** Shapes *)

Lemma shape_f_double n d : (1 <= n < 2 ^ 29)%N → (d < 2 ^ 64)%N → Forall shape_ok (f_double n d).
Proof.
  intros. unfold f_double. destruct (d =? 0)%N; [constructor|]. apply Forall_singleton. by split.
Qed.
Lemma shape_opt {A} n (enc : A → list field → Prop) x fs :
  (1 <= n < 2 ^ 29)%N → opt_fields n enc x fs → Forall shape_ok fs.
Proof.
  intros Hn. destruct x; simpl; [|by intros ->]. intros (gs & _ & ->).
  apply Forall_singleton. by split.
Qed.
Lemma shape_list {A} n (enc : A → list field → Prop) l fs :
  (1 <= n < 2 ^ 29)%N → list_fields n enc l fs → Forall shape_ok fs.
Proof. intros Hn. induction 1 as [|a f l fs (gs & _ & ->) _ IH]; constructor; [by split|done]. Qed.
Lemma shape_map_fields {A} n (enc : A → list field → Prop) m fs :
  (1 <= n < 2 ^ 29)%N → map_fields n enc m fs → Forall shape_ok fs.
Proof. intros Hn (l & _ & H). by eapply shape_list. Qed.
Lemma shape_ext_fields n m fs : (1 <= n < 2 ^ 29)%N → ext_fields n m fs → Forall shape_ok fs.
Proof. intros Hn (oe & _ & ->). by apply shape_ext. Qed.
Lemma shape_msgs {A} n (g : A → list field) l :
  (1 <= n < 2 ^ 29)%N → Forall shape_ok (map (λ x, f_msg n (g x)) l).
Proof. intros. unfold f_msg. by apply shape_map. Qed.

Ltac small := split; by vm_compute.
Ltac shapes := repeat (apply Forall_app; split); try shape;
  try (eapply shape_opt; [|eassumption]; small);
  try (eapply shape_list; [|eassumption]; small);
  try (eapply shape_map_fields; [|eassumption]; small);
  try (eapply shape_ext_fields; [|eassumption]; small);
  try (apply shape_msgs; small).

Lemma shape_roster r fs : roster_fields r fs → Forall shape_ok fs.
Proof. intros (f2 & f3 & f4 & H2 & H3 & H4 & ->). shapes. Qed.
Lemma shape_pool p fs : pool_fields p fs → Forall shape_ok fs.
Proof. intros (f6 & f7 & H6 & H7 & ->). shapes. Qed.
Lemma shape_profile p fs : profile_fields p fs → Forall shape_ok fs.
Proof. intros (f2 & f3 & H2 & H3 & ->). shapes. Qed.
Lemma shape_match m fs : match_fields m fs → Forall shape_ok fs.
Proof. intros (f2 & f3 & H2 & H3 & ->). shapes. Qed.
Lemma shape_chunk c fs : chunk_fields c fs → Forall shape_ok fs.
Proof. intros (f1 & H1 & ->). shapes. Qed.
Lemma shape_request r fs : request_fields r fs → Forall shape_ok fs.
Proof. intros (f1 & H1 & ->). shapes. Qed.
Lemma shape_result m fs : result_fields m fs → Forall shape_ok fs.
Proof. intros H. shapes. Qed.
Lemma shape_ticket_fields t fs : ticket_fields t fs → Forall shape_ok fs.
Proof. intros (o & _ & ->). apply shape_ticket. Qed.
Lemma shape_assignment_fields a fs : assignment_fields a fs → Forall shape_ok fs.
Proof. intros (oe & _ & ->). apply shape_assignment. Qed.

(** ** Permutations and UTF-8 *)

Lemma forallb_perm {A} (f : A → bool) l l' : l ≡ₚ l' → forallb f l = forallb f l'.
Proof.
  induction 1 as [|x l l' _ IH|x y l|l l' l'' _ IH1 _ IH2]; simpl; [done|by rewrite IH| |congruence].
  by rewrite !andb_assoc, (andb_comm (f y)).
Qed.

Lemma utf8_ticket_order o t : orders_ok t o → utf8_ticket o t = utf8_ticket_c t.
Proof.
  intros (H1 & H2 & H3). unfold utf8_ticket_c, utf8_ticket, utf8_ext.
  rewrite (forallb_perm _ _ _ H3). unfold strings_of, doubles_of, canon_orders in *.
  unfold strings_of, doubles_of in *. cbn [o_ext o_strings o_doubles].
  destruct (tk_attrs t) as [a|]; [|done].
  unfold utf8_filterable. by rewrite (forallb_perm _ _ _ H1), (forallb_perm _ _ _ H2).
Qed.

(** ** Generic round trips *)

(** Bytes of a message of which each encoding decodes to [a]. *)
Definition rt_ok {A} (enc : A → list field → Prop) (step : A → field → option A) (init a : A) : Prop :=
  ∀ fs, enc a fs → fits fs → Forall shape_ok fs ∧ fold_fields step init fs = Some a.

Lemma rt_unmarshal {A} (enc : A → list field → Prop) step (init a : A) fs :
  rt_ok enc step init a → enc a fs → fits fs →
  unmarshal step init (enc_fields fs) = Some a.
Proof.
  intros H He Hf. destruct (H fs He Hf) as [Hs Hr].
  rewrite unmarshal_enc by (by apply shape_wf). done.
Qed.

Lemma fold_opt {A B} n (enc : A → list field → Prop) (step : A → field → option A) (init : A)
    (ostep : B → field → option B) (set : A → B) x b fs :
  opt_fields n enc x fs → fits fs →
  (∀ a, x = Some a → rt_ok enc step init a) →
  (∀ s, ostep b (n, WLen s) =
     match unmarshal step init s with Some a => Some (set a) | None => None end) →
  fold_fields ostep b fs = Some (match x with Some a => set a | None => b end).
Proof.
  destruct x as [a|]; simpl; [|by intros ->]. intros (gs & Hg & ->) Hf Hrt Hst.
  cbn [fold_fields]. unfold f_msg. rewrite Hst.
  rewrite (rt_unmarshal enc step init a gs); [done|by apply Hrt|done|].
  eapply (fits_msg n); [|exact Hf]. apply elem_of_list_here.
Qed.

Lemma fold_list {A B} n (enc : A → list field → Prop) (step : A → field → option A) (init : A)
    (ostep : B → field → option B) (add : B → A → B) l b fs :
  list_fields n enc l fs → fits fs →
  Forall (rt_ok enc step init) l →
  (∀ b s, ostep b (n, WLen s) =
     match unmarshal step init s with Some a => Some (add b a) | None => None end) →
  fold_fields ostep b fs = Some (foldl add b l).
Proof.
  intros Hl. revert b. induction Hl as [|a f l fs (gs & Hg & ->) Hl IH]; intros b Hf Hrt Hst; [done|].
  apply Forall_cons in Hrt as [Ha Hrt]. cbn [fold_fields foldl]. unfold f_msg at 1. rewrite Hst.
  rewrite (rt_unmarshal enc step init a gs); [|done|done|].
  - apply IH; [|done|done]. change (f_msg n gs :: fs) with ([f_msg n gs] ++ fs) in Hf.
    by eapply fits_app_r.
  - eapply (fits_msg n); [|exact Hf]. apply elem_of_list_here.
Qed.

Lemma list_fields_map {A} n (g : A → list field) l :
  list_fields n (λ a fs, fs = g a) l (map (λ x, f_msg n (g x)) l).
Proof. induction l; simpl; constructor; eauto. Qed.

Lemma rt_entry {A} (enc : A → list field → Prop) step init kv :
  utf8_valid kv.1 = true → rt_ok enc step init kv.2 →
  rt_ok (entry_fields enc) (entry_step step) ("", init) kv.
Proof.
  intros Hk Hrt fs (gs & Hg & ->) Hf. split.
  { apply Forall_cons. split; [split; [small|done]|]. apply Forall_singleton. split; [small|done]. }
  cbn [fold_fields entry_step]. rewrite Hk. unfold f_msg. cbn [entry_step fst snd].
  rewrite (rt_unmarshal enc step init kv.2 gs); [|done|done|].
  - by destruct kv.
  - eapply (fits_msg 2); [|exact Hf]. apply elem_of_list_further, elem_of_list_here.
Qed.

Lemma foldl_set {A B} (get : B → gmap string A) (set : B → gmap string A → B)
    (l : list (string * A)) b :
  (∀ b x, get (set b x) = x) → (∀ b x y, set (set b x) y = set b y) → (∀ b, set b (get b) = b) →
  foldl (λ b kv, set b (<[kv.1 := kv.2]> (get b))) b l =
  set b (foldl (λ m' kv, <[kv.1 := kv.2]> m') (get b) l).
Proof.
  intros H1 H2 H3. revert b. induction l as [|kv l IH]; intros b; simpl; [by rewrite H3|].
  rewrite IH, H1, H2. done.
Qed.

Lemma fold_map {A B} n (enc : A → list field → Prop) (step : A → field → option A) (init : A)
    (ostep : B → field → option B) (get : B → gmap string A) (set : B → gmap string A → B) m b fs :
  map_fields n enc m fs → fits fs →
  utf8_map (λ _, true) m = true → map_Forall (λ _ a, rt_ok enc step init a) m →
  (∀ b s, ostep b (n, WLen s) =
     match dec_entry step init (get b) s with Some x => Some (set b x) | None => None end) →
  (∀ b x, get (set b x) = x) → (∀ b x y, set (set b x) y = set b y) → (∀ b, set b (get b) = b) →
  get b = ∅ →
  fold_fields ostep b fs = Some (set b m).
Proof.
  intros (l & Hp & Hl) Hf Hu Hrt Hst H1 H2 H3 Hb.
  assert (Hall : Forall (rt_ok (entry_fields enc) (entry_step step) ("", init)) l).
  { rewrite Hp. apply Forall_forall. intros kv Hin. apply rt_entry.
    - unfold utf8_map in Hu. rewrite forallb_forall in Hu. specialize (Hu kv).
      rewrite andb_true_r in Hu. apply Hu. by apply elem_of_list_In.
    - destruct kv as [k a]. apply elem_of_map_to_list in Hin. exact (Hrt k a Hin). }
  rewrite (fold_list n (entry_fields enc) (entry_step step) ("", init) ostep
             (λ b kv, set b (<[kv.1 := kv.2]> (get b))) l b fs Hl Hf Hall).
  - rewrite foldl_set by done. rewrite Hb. by rewrite (foldl_insert_perm l m).
  - intros b' s. rewrite Hst. unfold dec_entry.
    destruct (unmarshal (entry_step step) ("", init) s) as [[k a]|]; done.
Qed.

Lemma utf8_map_split {A} (f : A → bool) (m : gmap string A) :
  utf8_map f m = true → utf8_map (λ _, true) m = true ∧ map_Forall (λ _ a, f a = true) m.
Proof.
  unfold utf8_map. rewrite !forallb_forall. intros H. split.
  - intros kv Hin. specialize (H kv Hin). apply andb_true_iff in H as [-> _]. done.
  - intros k a Hk. apply elem_of_map_to_list, elem_of_list_In in Hk. specialize (H _ Hk).
    by apply andb_true_iff in H as [_ H].
Qed.

Lemma fold_ext_fields {A} (step : A → field → option A) (n : N)
    (get : A → extensions) (set : A → extensions → A) m a fs :
  ext_fields n m fs → fits fs → utf8_ext (map_to_list m) = true →
  (∀ a s, step a (n, WLen s) =
     match dec_ext_entry (get a) s with Some x => Some (set a x) | None => None end) →
  (∀ a x, get (set a x) = x) → (∀ a x y, set (set a x) y = set a y) → (∀ a, set a (get a) = a) →
  get a = ∅ →
  fold_fields step a fs = Some (set a m).
Proof.
  intros (oe & Hp & ->) Hf Hu Hst H1 H2 H3 Ha.
  rewrite (fold_ext step n get set); try done.
  - rewrite Ha. do 2 f_equal. exact (foldl_insert_perm oe m Hp).
  - unfold utf8_ext in *. by rewrite (forallb_perm _ _ _ Hp).
Qed.

(** ** The messages *)

Lemma rt_ticket_ok t : ticket_wf t → utf8_ticket_c t = true →
  rt_ok ticket_fields ticket_step empty_ticket t.
Proof.
  intros Hw Hu fs (o & Ho & ->) Hf. split; [apply shape_ticket|].
  apply rt_ticket_fields; try done. by rewrite utf8_ticket_order.
Qed.

Lemma rt_assignment_ok a : utf8_assignment_c a = true →
  rt_ok assignment_fields assignment_step empty_assignment a.
Proof.
  intros Hu fs (oe & Ho & ->) Hf. split; [apply shape_assignment|].
  assert (Hu' : utf8_assignment oe a = true).
  { unfold utf8_assignment_c, utf8_assignment, utf8_ext in *. by rewrite (forallb_perm _ _ _ Ho). }
  pose proof (unmarshal_enc assignment_step empty_assignment (fields_assignment oe a)
    (shape_wf _ (shape_assignment oe a) Hf)) as He.
  unfold utf8_assignment in Hu'. apply andb_true_iff in Hu' as [Hu1 Hu2]. clear Hu He.
  unfold fields_assignment in *. rewrite fold_fields_app.
  assert (fold_fields assignment_step empty_assignment (f_string 1 (as_conn a)) =
          Some (Assignment (as_conn a) ∅)) as ->.
  { destruct (as_conn a) eqn:E; [done|]. cbn [f_string fold_fields assignment_step]. by rewrite Hu1. }
  rewrite (fold_ext assignment_step 2 as_ext (λ t x, Assignment (as_conn t) x)); try done.
  - simpl. rewrite (foldl_insert_perm _ (as_ext a)) by done. by destruct a.
  - by intros [].
  - eapply fits_app_r. exact Hf.
Qed.

Definition roster_wf (r : roster) : Prop := Forall ticket_wf (ro_tickets r).

Lemma foldl_snoc_roster ts na asg l ex :
  foldl (λ r t, Roster (ro_name r) (ro_assignment r) (ro_tickets r ++ [t]) (ro_ext r))
    (Roster na asg l ex) ts = Roster na asg (l ++ ts) ex.
Proof.
  revert l. induction ts as [|t ts IH]; intros l; simpl; [by rewrite app_nil_r|].
  rewrite IH, <-app_assoc. done.
Qed.

Lemma rt_roster_ok r : roster_wf r → utf8_roster r = true →
  rt_ok roster_fields roster_step empty_roster r.
Proof.
  intros Hw Hu fs Hfs Hf. split; [by eapply shape_roster|].
  destruct Hfs as (f2 & f3 & f4 & H2 & H3 & H4 & ->).
  unfold utf8_roster in Hu. apply andb_true_iff in Hu as [Hu Hu4].
  apply andb_true_iff in Hu as [Hu Hu3]. apply andb_true_iff in Hu as [Hu1 Hu2].
  rewrite fold_fields_app.
  assert (fold_fields roster_step empty_roster (f_string 1 (ro_name r)) =
          Some (Roster (ro_name r) None [] ∅)) as ->.
  { destruct (ro_name r) eqn:E; [done|]. cbn [f_string fold_fields roster_step]. by rewrite Hu1. }
  apply fits_app_r in Hf. rewrite fold_fields_app.
  rewrite (fold_opt 2 assignment_fields assignment_step empty_assignment roster_step
    (λ a, Roster (ro_name r) (Some a) [] ∅) (ro_assignment r) _ f2 H2); cycle 1.
  { by eapply fits_app_l. }
  { intros a Ha. apply rt_assignment_ok. rewrite Ha in Hu2. exact Hu2. }
  { done. }
  assert (match ro_assignment r with
          | Some a => Roster (ro_name r) (Some a) [] ∅
          | None => Roster (ro_name r) None [] ∅ end =
          Roster (ro_name r) (ro_assignment r) [] ∅) as -> by (by destruct (ro_assignment r)).
  apply fits_app_r in Hf. rewrite fold_fields_app.
  rewrite (fold_list 3 ticket_fields ticket_step empty_ticket roster_step
    (λ r t, Roster (ro_name r) (ro_assignment r) (ro_tickets r ++ [t]) (ro_ext r))
    (ro_tickets r) _ f3 H3); cycle 1.
  { by eapply fits_app_l. }
  { apply Forall_forall. intros t Ht. apply rt_ticket_ok.
    - unfold roster_wf in Hw. rewrite Forall_forall in Hw. by apply Hw.
    - rewrite forallb_forall in Hu3. apply Hu3. by apply elem_of_list_In. }
  { done. }
  rewrite foldl_snoc_roster. simpl app.
  rewrite (fold_ext_fields roster_step 4 ro_ext
     (λ r x, Roster (ro_name r) (ro_assignment r) (ro_tickets r) x) (ro_ext r) _ f4 H4); try done.
  - by destruct r.
  - by eapply fits_app_r.
  - by intros [].
Qed.

Lemma rt_tag_ok t : utf8_valid t = true →
  rt_ok (λ t fs, fs = fields_tag_filter t) tag_filter_step "" t.
Proof.
  intros Hu fs -> Hf. split; [unfold fields_tag_filter; shape|].
  unfold fields_tag_filter. destruct t; [done|]. cbn [f_string fold_fields tag_filter_step].
  by rewrite Hu.
Qed.

Lemma rt_string_filter_ok f : utf8_valid f.1 = true → utf8_valid f.2 = true →
  rt_ok (λ f fs, fs = fields_string_filter f) string_filter_step ("", "") f.
Proof.
  intros H1 H2 fs -> Hf. split; [unfold fields_string_filter; shape|].
  destruct f as [a b]. unfold fields_string_filter, string_filter_step. simpl in H1, H2.
  destruct a as [|c a]; destruct b as [|d b]; cbn [f_string fst snd app fold_fields entry_string_step];
    rewrite ?H1; cbn [fold_fields entry_string_step]; rewrite ?H2; done.
Qed.

Definition good_opt {A} (P : A → Prop) (x : option A) : Prop :=
  match x with Some a => P a | None => True end.
Definition int32 (z : Z) : Prop := (- 2 ^ 31 <= z < 2 ^ 31)%Z.
Definition double_filter_wf (f : double_filter) : Prop :=
  (df_min f < 2 ^ 64)%N ∧ (df_max f < 2 ^ 64)%N ∧ int32 (df_bounds f).
Definition time_filter_wf (f : time_filter) : Prop :=
  good_opt ts_wf (tf_start f) ∧ good_opt ts_wf (tf_end f) ∧ int32 (tf_bounds f).

Lemma rt_double_filter_ok f : utf8_valid (df_arg f) = true → double_filter_wf f →
  rt_ok (λ f fs, fs = fields_double_filter f) double_filter_step (DoubleFilter "" 0%N 0%N 0%Z) f.
Proof.
  intros Hu (H1 & H2 & H3) fs -> Hf. split.
  { unfold fields_double_filter. repeat (apply Forall_app; split); try shape;
      apply shape_f_double; try small; done. }
  destruct f as [a mi ma b]. unfold fields_double_filter. cbn [df_arg df_min df_max df_bounds] in *.
  rewrite fold_fields_app.
  assert (fold_fields double_filter_step (DoubleFilter "" 0%N 0%N 0%Z) (f_string 1 a) =
          Some (DoubleFilter a 0%N 0%N 0%Z)) as ->.
  { destruct a; [done|]. cbn [f_string fold_fields double_filter_step]. by rewrite Hu. }
  rewrite fold_fields_app.
  assert (fold_fields double_filter_step (DoubleFilter a 0%N 0%N 0%Z) (f_double 2 mi) =
          Some (DoubleFilter a mi 0%N 0%Z)) as ->.
  { unfold f_double. destruct (mi =? 0)%N eqn:E; [|done]. by apply N.eqb_eq in E as ->. }
  rewrite fold_fields_app.
  assert (fold_fields double_filter_step (DoubleFilter a mi 0%N 0%Z) (f_double 3 ma) =
          Some (DoubleFilter a mi ma 0%Z)) as ->.
  { unfold f_double. destruct (ma =? 0)%N eqn:E; [|done]. by apply N.eqb_eq in E as ->. }
  unfold f_int. destruct (b =? 0)%Z eqn:E; [by apply Z.eqb_eq in E as ->|].
  cbn [fold_fields double_filter_step df_arg df_min df_max]. by rewrite i32_roundtrip.
Qed.

Lemma rt_ts_ok t : ts_wf t → rt_ok (λ t fs, fs = fields_ts t) ts_step (Timestamp 0 0) t.
Proof. intros Hw fs -> Hf. split; [apply shape_ts|by apply rt_ts]. Qed.

Lemma f_opt_fields {A} n (g : A → list field) x :
  opt_fields n (λ a fs, fs = g a) x (f_opt n g x).
Proof. destruct x; simpl; eauto. Qed.

Lemma rt_time_filter_ok f : time_filter_wf f →
  rt_ok (λ f fs, fs = fields_time_filter f) time_filter_step (TimeFilter None None 0%Z) f.
Proof.
  intros (H1 & H2 & H3) fs -> Hf. split; [unfold fields_time_filter; shape|].
  destruct f as [s e b]. unfold fields_time_filter in *. cbn [tf_start tf_end tf_bounds] in *.
  rewrite fold_fields_app.
  assert (fold_fields time_filter_step (TimeFilter None None 0%Z) (f_int 4 b) =
          Some (TimeFilter None None b)) as ->.
  { unfold f_int. destruct (b =? 0)%Z eqn:E; [by apply Z.eqb_eq in E as ->|].
    cbn [fold_fields time_filter_step tf_start tf_end]. by rewrite i32_roundtrip. }
  apply fits_app_r in Hf. rewrite fold_fields_app.
  rewrite (fold_opt 6 (λ t fs, fs = fields_ts t) ts_step (Timestamp 0 0) time_filter_step
    (λ t, TimeFilter (Some t) None b) s _ _ (f_opt_fields 6 fields_ts s)); cycle 1.
  { by eapply fits_app_l. }
  { intros t ->. by apply rt_ts_ok. }
  { done. }
  assert (match s with Some a => TimeFilter (Some a) None b | None => TimeFilter None None b end =
          TimeFilter s None b) as -> by (by destruct s).
  rewrite (fold_opt 7 (λ t fs, fs = fields_ts t) ts_step (Timestamp 0 0) time_filter_step
    (λ t, TimeFilter s (Some t) b) e _ _ (f_opt_fields 7 fields_ts e)); cycle 1.
  { by eapply fits_app_r. }
  { intros t ->. by apply rt_ts_ok. }
  { done. }
  by destruct e.
Qed.

Definition pool_wf (p : pool) : Prop :=
  Forall double_filter_wf (po_double_filters p) ∧
  good_opt time_filter_wf (po_time_filter p) ∧ good_opt roster_wf (po_participants p).

Lemma foldl_snoc {A B} (mk : list A → B) (add : B → A → B) l l0 :
  (∀ l x, add (mk l) x = mk (l ++ [x])) → foldl add (mk l0) l = mk (l0 ++ l).
Proof.
  intros H. revert l0. induction l as [|x l IH]; intros l0; simpl; [by rewrite app_nil_r|].
  rewrite H, IH, <-app_assoc. done.
Qed.

Lemma rt_pool_ok p : pool_wf p → utf8_pool p = true →
  rt_ok pool_fields pool_step empty_pool p.
Proof.
  intros (Hw1 & Hw2 & Hw3) Hu fs Hfs Hf. split; [by eapply shape_pool|].
  destruct Hfs as (f6 & f7 & H6 & H7 & ->). destruct p as [na tg sf df tf pa ex].
  unfold utf8_pool in Hu.
  cbn [po_name po_tag_filters po_string_filters po_double_filters po_time_filter po_participants po_ext] in *.
  apply andb_true_iff in Hu as [Hu Hu6].
  apply andb_true_iff in Hu as [Hu Hu5]. apply andb_true_iff in Hu as [Hu Hu4].
  apply andb_true_iff in Hu as [Hu Hu3]. apply andb_true_iff in Hu as [Hu1 Hu2].
  rewrite forallb_forall in Hu2, Hu3, Hu4. rewrite Forall_forall in Hw1.
  rewrite fold_fields_app.
  assert (fold_fields pool_step empty_pool (f_string 1 na) = Some (Pool na [] [] [] None None ∅)) as ->.
  { destruct na eqn:E; [done|]. cbn [f_string fold_fields pool_step empty_pool]. by rewrite Hu1. }
  apply fits_app_r in Hf. rewrite fold_fields_app.
  rewrite (fold_list 2 (λ t fs, fs = fields_tag_filter t) tag_filter_step "" pool_step
    (λ p t, let '(Pool na tg sf df tf pa ex) := p in Pool na (tg ++ [t]) sf df tf pa ex)
    tg _ _ (list_fields_map 2 fields_tag_filter tg)); cycle 1.
  { by eapply fits_app_l. }
  { apply Forall_forall. intros t Ht. apply rt_tag_ok. apply Hu2. by apply elem_of_list_In. }
  { by intros []. }
  rewrite (foldl_snoc (λ l, Pool na l [] [] None None ∅)) by done. cbn [app].
  apply fits_app_r in Hf. rewrite fold_fields_app.
  rewrite (fold_list 3 (λ t fs, fs = fields_string_filter t) string_filter_step ("", "") pool_step
    (λ p t, let '(Pool na tg sf df tf pa ex) := p in Pool na tg (sf ++ [t]) df tf pa ex)
    sf _ _ (list_fields_map 3 fields_string_filter sf)); cycle 1.
  { by eapply fits_app_l. }
  { apply Forall_forall. intros t Ht. apply elem_of_list_In, Hu3 in Ht.
    apply andb_true_iff in Ht as [??]. by apply rt_string_filter_ok. }
  { by intros []. }
  rewrite (foldl_snoc (λ l, Pool na tg l [] None None ∅)) by done. cbn [app].
  apply fits_app_r in Hf. rewrite fold_fields_app.
  rewrite (fold_list 4 (λ t fs, fs = fields_double_filter t) double_filter_step
    (DoubleFilter "" 0%N 0%N 0%Z) pool_step
    (λ p t, let '(Pool na tg sf df tf pa ex) := p in Pool na tg sf (df ++ [t]) tf pa ex)
    df _ _ (list_fields_map 4 fields_double_filter df)); cycle 1.
  { by eapply fits_app_l. }
  { apply Forall_forall. intros t Ht. apply rt_double_filter_ok; [|by apply Hw1].
    apply Hu4. by apply elem_of_list_In. }
  { by intros []. }
  rewrite (foldl_snoc (λ l, Pool na tg sf l None None ∅)) by done. cbn [app].
  apply fits_app_r in Hf. rewrite fold_fields_app.
  rewrite (fold_opt 5 (λ f fs, fs = fields_time_filter f) time_filter_step (TimeFilter None None 0%Z)
    pool_step (λ f, Pool na tg sf df (Some f) None ∅) tf _ _ (f_opt_fields 5 fields_time_filter tf));
    cycle 1.
  { by eapply fits_app_l. }
  { intros t ->. by apply rt_time_filter_ok. }
  { done. }
  assert (match tf with Some a => Pool na tg sf df (Some a) None ∅ | None => Pool na tg sf df None None ∅ end =
          Pool na tg sf df tf None ∅) as -> by (by destruct tf).
  apply fits_app_r in Hf. rewrite fold_fields_app.
  rewrite (fold_opt 6 roster_fields roster_step empty_roster
    pool_step (λ r, Pool na tg sf df tf (Some r) ∅) pa _ _ H6); cycle 1.
  { by eapply fits_app_l. }
  { intros t ->. by apply rt_roster_ok. }
  { done. }
  assert (match pa with Some a => Pool na tg sf df tf (Some a) ∅ | None => Pool na tg sf df tf None ∅ end =
          Pool na tg sf df tf pa ∅) as -> by (by destruct pa).
  rewrite (fold_ext_fields pool_step 7 po_ext
    (λ p x, let '(Pool na tg sf df tf pa ex) := p in Pool na tg sf df tf pa x) ex _ f7 H7); try done.
  - by eapply fits_app_r.
  - by intros [].
  - by intros [].
  - by intros [].
  - by intros [].
Qed.

Definition profile_wf (p : profile) : Prop := map_Forall (λ _ x, pool_wf x) (pr_pools p).
Definition match_wf (m : match_) : Prop := map_Forall (λ _ x, roster_wf x) (ma_rosters m).

Lemma rt_profile_ok p : profile_wf p → utf8_profile p = true →
  rt_ok profile_fields profile_step empty_profile p.
Proof.
  intros Hw Hu fs Hfs Hf. split; [by eapply shape_profile|].
  destruct Hfs as (f2 & f3 & H2 & H3 & ->). unfold utf8_profile in Hu.
  apply andb_true_iff in Hu as [Hu Hu3]. apply andb_true_iff in Hu as [Hu1 Hu2].
  apply utf8_map_split in Hu2 as [Hu2 Hu2'].
  rewrite fold_fields_app.
  assert (fold_fields profile_step empty_profile (f_string 1 (pr_name p)) =
          Some (Profile (pr_name p) ∅ ∅)) as ->.
  { destruct (pr_name p) eqn:E; [done|]. cbn [f_string fold_fields profile_step]. by rewrite Hu1. }
  apply fits_app_r in Hf. rewrite fold_fields_app.
  rewrite (fold_map 2 pool_fields pool_step empty_pool profile_step pr_pools
    (λ p x, Profile (pr_name p) x (pr_ext p)) (pr_pools p) _ f2 H2); try done.
  - cbn [pr_name pr_ext].
    rewrite (fold_ext_fields profile_step 3 pr_ext (λ p x, Profile (pr_name p) (pr_pools p) x)
      (pr_ext p) _ f3 H3); try done.
    + by destruct p.
    + by eapply fits_app_r.
    + by intros [].
  - by eapply fits_app_l.
  - intros k x Hx. apply rt_pool_ok; [exact (Hw k x Hx)|exact (Hu2' k x Hx)].
  - by intros [].
Qed.

Lemma rt_match_ok m : match_wf m → utf8_match m = true →
  rt_ok match_fields match_step empty_match m.
Proof.
  intros Hw Hu fs Hfs Hf. split; [by eapply shape_match|].
  destruct Hfs as (f2 & f3 & H2 & H3 & ->). unfold utf8_match in Hu.
  apply andb_true_iff in Hu as [Hu Hu3]. apply andb_true_iff in Hu as [Hu1 Hu2].
  apply utf8_map_split in Hu2 as [Hu2 Hu2'].
  rewrite fold_fields_app.
  assert (fold_fields match_step empty_match (f_string 1 (ma_id m)) =
          Some (Match (ma_id m) ∅ ∅)) as ->.
  { destruct (ma_id m) eqn:E; [done|]. cbn [f_string fold_fields match_step]. by rewrite Hu1. }
  apply fits_app_r in Hf. rewrite fold_fields_app.
  rewrite (fold_map 2 roster_fields roster_step empty_roster match_step ma_rosters
    (λ p x, Match (ma_id p) x (ma_ext p)) (ma_rosters m) _ f2 H2); try done.
  - cbn [ma_id ma_ext].
    rewrite (fold_ext_fields match_step 3 ma_ext (λ p x, Match (ma_id p) (ma_rosters p) x)
      (ma_ext m) _ f3 H3); try done.
    + by destruct m.
    + by eapply fits_app_r.
    + by intros [].
  - by eapply fits_app_l.
  - intros k x Hx. apply rt_roster_ok; [exact (Hw k x Hx)|exact (Hu2' k x Hx)].
  - by intros [].
Qed.

Definition type_wf (t : mmf_type) : Prop :=
  match t with MMF_OTHER n => int32 n ∧ n ≠ 0%Z ∧ n ≠ 1%Z | _ => True end.
Definition spec_wf (f : mmf_spec) : Prop := int32 (mf_port f) ∧ type_wf (mf_type f).

Lemma type_round t : type_wf t →
  int32 (type_to_Z t) ∧ type_of_Z (type_to_Z t) = t.
Proof.
  destruct t as [| |n]; simpl; unfold type_of_Z, int32; intros H.
  - split; [lia|done].
  - split; [lia|done].
  - split; [lia|]. destruct (n =? 0)%Z eqn:E; [lia|]. by destruct (n =? 1)%Z eqn:E'; [lia|].
Qed.

Lemma rt_spec_ok f : spec_wf f → utf8_spec f = true →
  rt_ok (λ f fs, fs = fields_spec f) spec_step (MmfSpec "" "" 0%Z MMF_REST) f.
Proof.
  intros (Hp & Ht) Hu fs -> Hf. split; [unfold fields_spec; shape|].
  apply andb_true_iff in Hu as [Hu1 Hu2]. apply type_round in Ht as [Ht1 Ht2].
  destruct f as [na ho po ty]. unfold fields_spec. cbn [mf_name mf_host mf_port mf_type] in *.
  rewrite fold_fields_app.
  assert (fold_fields spec_step (MmfSpec "" "" 0%Z MMF_REST) (f_string 1 na) =
          Some (MmfSpec na "" 0%Z MMF_REST)) as ->.
  { destruct na; [done|]. cbn [f_string fold_fields spec_step]. by rewrite Hu1. }
  rewrite fold_fields_app.
  assert (fold_fields spec_step (MmfSpec na "" 0%Z MMF_REST) (f_string 2 ho) =
          Some (MmfSpec na ho 0%Z MMF_REST)) as ->.
  { destruct ho; [done|]. cbn [f_string fold_fields spec_step]. by rewrite Hu2. }
  rewrite fold_fields_app.
  assert (fold_fields spec_step (MmfSpec na ho 0%Z MMF_REST) (f_int 3 po) =
          Some (MmfSpec na ho po MMF_REST)) as ->.
  { unfold f_int. destruct (po =? 0)%Z eqn:E; [by apply Z.eqb_eq in E as ->|].
    cbn [fold_fields spec_step mf_name mf_host mf_type]. by rewrite i32_roundtrip. }
  unfold f_int. destruct (type_to_Z ty =? 0)%Z eqn:E.
  - apply Z.eqb_eq in E. rewrite E in Ht2. simpl. rewrite <-Ht2. done.
  - cbn [fold_fields spec_step mf_name mf_host mf_port]. by rewrite i32_roundtrip, Ht2.
Qed.

Definition chunk_wf (c : chunk) : Prop := profile_wf (ch_profile c) ∧ int32 (ch_num c).
Definition request_wf (r : request) : Prop :=
  good_opt profile_wf (rq_profile r) ∧ Forall spec_wf (rq_mmfs r).

Lemma rt_chunk c s : chunk_wf c → marshals_chunk c s → (slen s < 2 ^ 64)%N →
  unmarshal_chunk s = Some (Some (ch_profile c), ch_num c).
Proof.
  intros (Hw & Hn) (Hu & fs & Hfs & ->) Hs. unfold unmarshal_chunk.
  rewrite unmarshal_enc by (apply shape_wf; [by eapply shape_chunk|exact Hs]).
  assert (Hf : fits fs) by exact Hs. clear Hs.
  destruct Hfs as (f1 & H1 & ->). rewrite fold_fields_app.
  rewrite (fold_opt 1 profile_fields profile_step empty_profile chunk_step (λ p, (Some p, 0%Z))
    (Some (ch_profile c)) _ f1 H1); cycle 1.
  { by eapply fits_app_l. }
  { intros p [= <-]. by apply rt_profile_ok. }
  { done. }
  unfold f_int. destruct (ch_num c =? 0)%Z eqn:E; [apply Z.eqb_eq in E; by rewrite E|].
  cbn [fold_fields chunk_step fst]. by rewrite i32_roundtrip.
Qed.

Lemma rt_request r s : request_wf r → marshals_request r s → (slen s < 2 ^ 64)%N →
  unmarshal_request s = Some r.
Proof.
  intros (Hw & Hn) (Hu & fs & Hfs & ->) Hs. unfold unmarshal_request.
  rewrite unmarshal_enc by (apply shape_wf; [by eapply shape_request|exact Hs]).
  assert (Hf : fits fs) by exact Hs. clear Hs. apply andb_true_iff in Hu as [Hu1 Hu2].
  destruct Hfs as (f1 & H1 & ->). destruct r as [pr ms]. cbn [rq_profile rq_mmfs] in *.
  rewrite fold_fields_app.
  rewrite (fold_opt 1 profile_fields profile_step empty_profile request_step
    (λ p, Request (Some p) []) pr _ f1 H1); cycle 1.
  { by eapply fits_app_l. }
  { intros p ->. by apply rt_profile_ok. }
  { done. }
  assert (match pr with Some a => Request (Some a) [] | None => Request None [] end =
          Request pr []) as -> by (by destruct pr).
  rewrite (fold_list 2 (λ f fs, fs = fields_spec f) spec_step (MmfSpec "" "" 0%Z MMF_REST)
    request_step (λ r x, Request (rq_profile r) (rq_mmfs r ++ [x])) ms _ _
    (list_fields_map 2 fields_spec ms)); cycle 1.
  { by eapply fits_app_r. }
  { rewrite forallb_forall in Hu2. rewrite Forall_forall in Hn. apply Forall_forall.
    intros f Hin. apply rt_spec_ok; [by apply Hn|]. apply Hu2. by apply elem_of_list_In. }
  { done. }
  by rewrite (foldl_snoc (λ l, Request pr l)).
Qed.

Lemma rt_result m s : good_opt match_wf m →
  marshals_result m s → (slen s < 2 ^ 64)%N → unmarshal_result s = Some m.
Proof.
  intros Hw (Hu & fs & Hfs & ->) Hs. unfold unmarshal_result.
  rewrite unmarshal_enc by (apply shape_wf; [by eapply shape_result|exact Hs]).
  unfold result_fields in Hfs.
  rewrite (fold_opt 1 match_fields match_step empty_match result_step Some m None fs Hfs);
    [by destruct m|exact Hs| |done].
  intros x ->. by apply rt_match_ok.
Qed.
