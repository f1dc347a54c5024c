(** Tickets and assignments survive encoding and decoding. *)
From Coq Require Import Ascii String ZArith NArith Lia ZifyBool ZifyN ZifyNat.
From stdpp Require Import prelude strings gmap.
From Verif.Model Require Import Types Wire Proto.
From Verif.Proofs Require Import StringLemmas WireLemmas.
Local Open Scope string_scope.

(** ** Which fields are well formed *)

Definition fits (fs : list field) : Prop := (N.of_nat (fields_len fs) < 2 ^ 64)%N.

Definition shape_ok (f : field) : Prop :=
  (1 <= f.1 < 2 ^ 29)%N ∧ match f.2 with WLen _ => True | v => wf_wval v end.

Lemma shape_wf fs : Forall shape_ok fs → fits fs → Forall wf_field fs.
Proof.
  rewrite !Forall_forall. intros H Hf [n v] Hin. specialize (H _ Hin) as [H1 H2].
  split; [done|]. destruct v; try done. simpl. by eapply wlen_fits.
Qed.

Lemma fits_app_l fs gs : fits (fs ++ gs) → fits fs.
Proof. unfold fits. rewrite fields_len_app. lia. Qed.
Lemma fits_app_r fs gs : fits (fs ++ gs) → fits gs.
Proof. unfold fits. rewrite fields_len_app. lia. Qed.

Lemma fits_msg n gs fs : f_msg n gs ∈ fs → fits fs → fits gs.
Proof. intros H Hf. apply (wlen_fits n (enc_fields gs) fs H Hf). Qed.

Lemma shape_f_string n s : (1 <= n < 2 ^ 29)%N → Forall shape_ok (f_string n s).
Proof. intros. destruct s; [constructor|]. apply Forall_singleton. by split. Qed.
Lemma shape_f_int n z : (1 <= n < 2 ^ 29)%N → Forall shape_ok (f_int n z).
Proof.
  intros. unfold f_int. destruct (z =? 0)%Z; [constructor|]. apply Forall_singleton.
  split; [done|]. apply int_to_u64_lt.
Qed.
Lemma shape_f_opt {A} n (enc : A → list field) x : (1 <= n < 2 ^ 29)%N → Forall shape_ok (f_opt n enc x).
Proof. intros. destruct x; [|constructor]. apply Forall_singleton. by split. Qed.
Lemma shape_map {A} n (g : A → string) l :
  (1 <= n < 2 ^ 29)%N → Forall shape_ok (map (λ x, (n, WLen (g x))) l).
Proof. intros. apply Forall_forall. intros f [x [-> _]]%elem_of_list_fmap. by split. Qed.

Ltac shape := first
  [ apply Forall_app; split; shape
  | apply shape_f_string; split; by vm_compute
  | apply shape_f_int; split; by vm_compute
  | apply shape_f_opt; split; by vm_compute
  | apply (shape_map _ (λ t, t)); split; by vm_compute
  | apply shape_map; split; by vm_compute ].

Lemma shape_ts t : Forall shape_ok (fields_ts t).
Proof. unfold fields_ts. shape. Qed.
Lemma shape_any a : Forall shape_ok (fields_any a).
Proof. unfold fields_any. shape. Qed.
Lemma shape_filterable os od a : Forall shape_ok (fields_filterable os od a).
Proof. unfold fields_filterable, f_msg. shape. Qed.
Lemma shape_ext n oe : (1 <= n < 2 ^ 29)%N → Forall shape_ok (fields_ext n oe).
Proof. intros. unfold fields_ext, f_msg. by apply shape_map. Qed.
Lemma shape_ticket o t : Forall shape_ok (fields_ticket o t).
Proof.
  unfold fields_ticket. repeat (apply Forall_app; split); try shape.
Qed.
Lemma shape_assignment oe a : Forall shape_ok (fields_assignment oe a).
Proof.
  unfold fields_assignment. apply Forall_app; split; [shape|].
  apply shape_ext. split; by vm_compute.
Qed.
Lemma shape_entry_string kv : Forall shape_ok (entry_string kv).
Proof. repeat constructor; done. Qed.
Lemma shape_entry_any kv : Forall shape_ok (entry_any kv).
Proof. repeat constructor; done. Qed.
Lemma shape_entry_double kv : (kv.2 < 2 ^ 64)%N → Forall shape_ok (entry_double kv).
Proof. intros. repeat constructor; done. Qed.

(** ** Round trips *)

Definition ts_wf (t : timestamp) : Prop :=
  (- 2 ^ 63 <= ts_seconds t < 2 ^ 63)%Z ∧ (- 2 ^ 31 <= ts_nanos t < 2 ^ 31)%Z.

Lemma rt_ts t : ts_wf t → fold_fields ts_step (Timestamp 0 0) (fields_ts t) = Some t.
Proof.
  intros [H1 H2]. destruct t as [s n]. unfold fields_ts, f_int. simpl in *.
  destruct (s =? 0)%Z eqn:Es; destruct (n =? 0)%Z eqn:En;
    cbn [app fold_fields ts_step ts_seconds ts_nanos];
    rewrite ?i64_roundtrip, ?i32_roundtrip by done; repeat f_equal; lia.
Qed.

Lemma rt_any a : utf8_valid (any_url a) = true →
  fold_fields any_step (Any "" "") (fields_any a) = Some a.
Proof.
  intros Hu. destruct a as [u v]. unfold fields_any, f_string. simpl in *.
  destruct u as [|c u]; destruct v as [|d v]; cbn [app fold_fields any_step];
    rewrite ?Hu; done.
Qed.

Lemma rt_entry_string kv : utf8_valid kv.1 = true → utf8_valid kv.2 = true →
  fold_fields entry_string_step ("", "") (entry_string kv) = Some kv.
Proof.
  destruct kv as [k v]. simpl. intros -> Hv. simpl. by rewrite Hv.
Qed.

Lemma rt_entry_double kv : utf8_valid kv.1 = true →
  fold_fields entry_double_step ("", 0%N) (entry_double kv) = Some kv.
Proof. destruct kv as [k v]. simpl. by intros ->. Qed.

Lemma rt_entry_any kv : utf8_valid kv.1 = true → utf8_any kv.2 = true → fits (entry_any kv) →
  fold_fields entry_any_step ("", Any "" "") (entry_any kv) = Some kv.
Proof.
  destruct kv as [k a]. unfold utf8_any. simpl. intros -> Ha Hf.
  unfold f_msg, entry_any_step. simpl.
  rewrite unmarshal_enc; cycle 1.
  { apply shape_wf; [apply shape_any|]. eapply (fits_msg 2); [|exact Hf].
    unfold entry_any. simpl. apply elem_of_list_further, elem_of_list_here. }
  rewrite rt_any by done. done.
Qed.

Lemma dec_ext_entry_spec m kv :
  utf8_valid kv.1 = true → utf8_any kv.2 = true → fits (entry_any kv) →
  dec_ext_entry m (enc_fields (entry_any kv)) = Some (<[kv.1 := kv.2]> m).
Proof.
  intros Hk Ha Hf. unfold dec_ext_entry.
  rewrite unmarshal_enc by (apply shape_wf; [apply shape_entry_any|done]).
  rewrite rt_entry_any by done. by destruct kv.
Qed.

(** Inserting the entries of a map in any order gives the map. *)
Lemma foldl_insert_perm {A} (l : list (string * A)) (m : gmap string A) :
  l ≡ₚ map_to_list m →
  foldl (λ m' kv, <[kv.1 := kv.2]> m') ∅ l = m.
Proof.
  intros Hp.
  assert (Hnd : NoDup l.*1).
  { rewrite Hp. apply NoDup_fst_map_to_list. }
  assert (Hgen : ∀ (l : list (string * A)) (acc : gmap string A), NoDup l.*1 →
    foldl (λ m' kv, <[kv.1 := kv.2]> m') acc l = list_to_map l ∪ acc).
  { clear. induction l as [|[k v] l IH]; intros acc Hnd; simpl.
    - by rewrite (left_id_L ∅ (∪)).
    - apply NoDup_cons in Hnd as [Hk Hnd]. rewrite IH by done.
      rewrite <-insert_union_l. rewrite insert_union_r; [done|].
      by apply not_elem_of_list_to_map. }
  rewrite Hgen by done. rewrite (right_id_L ∅ (∪)).
  rewrite <-(list_to_map_to_list m). by apply list_to_map_proper.
Qed.

Lemma fold_ext {A} (step : A → field → option A) (n : N)
    (get : A → extensions) (set : A → extensions → A) oe a :
  (∀ a s, step a (n, WLen s) =
     match dec_ext_entry (get a) s with Some x => Some (set a x) | None => None end) →
  (∀ a x, get (set a x) = x) → (∀ a x y, set (set a x) y = set a y) → (∀ a, set a (get a) = a) →
  utf8_ext oe = true → fits (fields_ext n oe) →
  fold_fields step a (fields_ext n oe) =
    Some (set a (foldl (λ m' kv, <[kv.1 := kv.2]> m') (get a) oe)).
Proof.
  intros Hstep Hgs Hss Hsg. revert a. induction oe as [|kv oe IH]; intros a Hu Hf.
  - simpl. by rewrite Hsg.
  - simpl in Hu. apply andb_true_iff in Hu as [Hkv Hu]. apply andb_true_iff in Hkv as [Hk Ha].
    cbn [fields_ext map fold_fields]. unfold f_msg at 1. rewrite Hstep.
    rewrite dec_ext_entry_spec; [|done|done|]; cycle 1.
    { eapply (fits_msg n); [|exact Hf]. apply elem_of_list_here. }
    change (map (λ kv, f_msg n (entry_any kv)) oe) with (fields_ext n oe).
    rewrite IH; [|done|]; cycle 1.
    { change (fields_ext n (kv :: oe)) with ([f_msg n (entry_any kv)] ++ fields_ext n oe)%list in Hf.
      by eapply fits_app_r. }
    rewrite Hgs, Hss. done.
Qed.

Lemma fold_tags tags a :
  forallb utf8_valid tags = true →
  fold_fields filterable_step a (map (λ t, (1%N, WLen t)) tags) =
    Some (Filterable (fd_tags a ++ tags) (fd_strings a) (fd_doubles a) (fd_ctime a)).
Proof.
  revert a. induction tags as [|t tags IH]; intros a Hu.
  - simpl. rewrite app_nil_r. by destruct a.
  - simpl in Hu. apply andb_true_iff in Hu as [Ht Hu].
    cbn [map fold_fields filterable_step]. rewrite Ht, IH by done. simpl.
    by rewrite <-app_assoc.
Qed.

Lemma fold_strings os a :
  forallb (λ kv : string * string, utf8_valid kv.1 && utf8_valid kv.2) os = true →
  fits (map (λ kv, f_msg 2 (entry_string kv)) os) →
  fold_fields filterable_step a (map (λ kv, f_msg 2 (entry_string kv)) os) =
    Some (Filterable (fd_tags a) (foldl (λ m' kv, <[kv.1 := kv.2]> m') (fd_strings a) os)
            (fd_doubles a) (fd_ctime a)).
Proof.
  revert a. induction os as [|kv os IH]; intros a Hu Hf.
  - simpl. by destruct a.
  - simpl in Hu. apply andb_true_iff in Hu as [Hkv Hu]. apply andb_true_iff in Hkv as [Hk Hv].
    cbn [map] in Hf. cbn [map fold_fields]. unfold f_msg at 1, filterable_step.
    rewrite unmarshal_enc; cycle 1.
    { apply shape_wf; [apply shape_entry_string|]. eapply (fits_msg 2); [|exact Hf].
      apply elem_of_list_here. }
    rewrite rt_entry_string by done. destruct kv as [k v].
    change (f_msg 2 (entry_string (k, v)) :: map (λ kv, f_msg 2 (entry_string kv)) os) with
      ([f_msg 2 (entry_string (k, v))] ++ map (λ kv, f_msg 2 (entry_string kv)) os)%list in Hf.
    fold filterable_step. rewrite IH; [done|done|by eapply fits_app_r].
Qed.

Lemma fold_doubles od a :
  forallb (λ kv : string * f64, utf8_valid kv.1) od = true →
  Forall (λ kv : string * f64, kv.2 < 2 ^ 64)%N od →
  fits (map (λ kv, f_msg 3 (entry_double kv)) od) →
  fold_fields filterable_step a (map (λ kv, f_msg 3 (entry_double kv)) od) =
    Some (Filterable (fd_tags a) (fd_strings a)
            (foldl (λ m' kv, <[kv.1 := kv.2]> m') (fd_doubles a) od) (fd_ctime a)).
Proof.
  revert a. induction od as [|kv od IH]; intros a Hu Hd Hf.
  - simpl. by destruct a.
  - simpl in Hu. apply andb_true_iff in Hu as [Hk Hu]. apply Forall_cons in Hd as [Hd1 Hd].
    cbn [map] in Hf. cbn [map fold_fields]. unfold f_msg at 1, filterable_step.
    rewrite unmarshal_enc; cycle 1.
    { apply shape_wf; [by apply shape_entry_double|]. eapply (fits_msg 3); [|exact Hf].
      apply elem_of_list_here. }
    rewrite rt_entry_double by done. destruct kv as [k v].
    change (f_msg 3 (entry_double (k, v)) :: map (λ kv, f_msg 3 (entry_double kv)) od) with
      ([f_msg 3 (entry_double (k, v))] ++ map (λ kv, f_msg 3 (entry_double kv)) od)%list in Hf.
    fold filterable_step. rewrite IH; [done|done|done|by eapply fits_app_r].
Qed.

Definition doubles_wf (od : list (string * f64)) : Prop :=
  Forall (λ kv : string * f64, kv.2 < 2 ^ 64)%N od.

Definition filterable_wf (a : filterable) : Prop :=
  doubles_wf (map_to_list (fd_doubles a)) ∧
  match fd_ctime a with Some t => ts_wf t | None => True end.

Lemma rt_filterable os od a :
  os ≡ₚ map_to_list (fd_strings a) → od ≡ₚ map_to_list (fd_doubles a) →
  filterable_wf a → utf8_filterable os od a = true → fits (fields_filterable os od a) →
  fold_fields filterable_step empty_filterable (fields_filterable os od a) = Some a.
Proof.
  intros Hos Hod [Hd Hc] Hu Hf. unfold utf8_filterable in Hu.
  apply andb_true_iff in Hu as [Hu Hu3]. apply andb_true_iff in Hu as [Hu1 Hu2].
  unfold fields_filterable in *.
  rewrite fold_fields_app, fold_tags by done.
  apply fits_app_r in Hf.
  rewrite fold_fields_app, fold_strings; [|done|by eapply fits_app_l].
  apply fits_app_r in Hf.
  rewrite fold_fields_app, fold_doubles; [|done| |by eapply fits_app_l]; cycle 1.
  { unfold doubles_wf in Hd. by rewrite Hod. }
  apply fits_app_r in Hf. simpl.
  rewrite (foldl_insert_perm os (fd_strings a)) by done.
  rewrite (foldl_insert_perm od (fd_doubles a)) by done.
  destruct a as [tags ss dd [t|]]; simpl in *; [|done].
  unfold f_opt in Hf. rewrite unmarshal_enc; cycle 1.
  { apply shape_wf; [apply shape_ts|]. eapply (fits_msg 4); [|exact Hf]. apply elem_of_list_here. }
  by rewrite rt_ts.
Qed.

Definition ticket_wf (t : ticket) : Prop :=
  match tk_exp t with Some x => ts_wf x | None => True end ∧
  match tk_attrs t with Some a => filterable_wf a | None => True end.

Lemma rt_ticket_fields o t :
  orders_ok t o → ticket_wf t → utf8_ticket o t = true → fits (fields_ticket o t) →
  fold_fields ticket_step empty_ticket (fields_ticket o t) = Some t.
Proof.
  intros (Hos & Hod & Hoe) [Hx Ha] Hu Hf. unfold utf8_ticket in Hu.
  apply andb_true_iff in Hu as [Hu Hu3]. apply andb_true_iff in Hu as [Hu1 Hu2].
  unfold fields_ticket in *.
  rewrite fold_fields_app. apply fits_app_r in Hf as Hf2.
  assert (fold_fields ticket_step empty_ticket (f_string 1 (tk_id t)) =
          Some (Ticket (tk_id t) None None ∅)) as ->.
  { destruct (tk_id t) eqn:E; [done|]. cbn [f_string fold_fields ticket_step]. by rewrite Hu1. }
  rewrite fold_fields_app.
  assert (fold_fields ticket_step (Ticket (tk_id t) None None ∅) (f_opt 2 fields_ts (tk_exp t)) =
          Some (Ticket (tk_id t) (tk_exp t) None ∅)) as ->.
  { destruct (tk_exp t) as [x|]; [|done]. simpl. rewrite unmarshal_enc; cycle 1.
    { apply shape_wf; [apply shape_ts|]. apply fits_app_l in Hf2.
      eapply (fits_msg 2); [|exact Hf2]. apply elem_of_list_here. }
    by rewrite rt_ts. }
  apply fits_app_r in Hf2. rewrite fold_fields_app.
  assert (fold_fields ticket_step (Ticket (tk_id t) (tk_exp t) None ∅)
            (f_opt 3 (fields_filterable (o_strings o) (o_doubles o)) (tk_attrs t)) =
          Some (Ticket (tk_id t) (tk_exp t) (tk_attrs t) ∅)) as ->.
  { unfold strings_of, doubles_of in *. destruct (tk_attrs t) as [a|]; [|done]. simpl.
    apply fits_app_l in Hf2.
    assert (fits (fields_filterable (o_strings o) (o_doubles o) a)).
    { eapply (fits_msg 3); [|exact Hf2]. apply elem_of_list_here. }
    rewrite unmarshal_enc by (apply shape_wf; [apply shape_filterable|done]).
    by rewrite rt_filterable. }
  apply fits_app_r in Hf2.
  rewrite (fold_ext ticket_step 4 tk_ext
             (λ t x, Ticket (tk_id t) (tk_exp t) (tk_attrs t) x)); try done.
  - simpl. rewrite (foldl_insert_perm _ (tk_ext t)) by done. by destruct t.
  - by intros [].
Qed.

(** Ignoring the error makes no difference when there is none. *)
Lemma parts_filterable : parts filterable_step filterable_part.
Proof.
  intros a [n v] x. unfold filterable_part.
  destruct (decide (n = 4%N)) as [->|Hn].
  2: { transitivity (or_keep filterable_step a (n, v) = (x, true)); [|apply parts_or_keep].
       destruct v; by destruct n as [|[[[]|[]|]|[[]|[]|]|]]. }
  destruct v as [m|m|s|m]; try apply parts_or_keep. cbn [filterable_step].
  destruct (unmarshal_part (or_keep ts_step) (default (Timestamp 0 0) (fd_ctime a)) s) as [t ok] eqn:E.
  destruct ok.
  - apply (unmarshal_part_spec _ _ _ _ _ (parts_or_keep ts_step)) in E. rewrite E.
    split; intros H; congruence.
  - destruct (unmarshal ts_step (default (Timestamp 0 0) (fd_ctime a)) s) as [t'|] eqn:E2.
    + apply (unmarshal_part_spec _ _ _ _ _ (parts_or_keep ts_step)) in E2. congruence.
    + split; intros H; congruence.
Qed.

Lemma parts_ticket : parts ticket_step ticket_part.
Proof.
  intros a [n v] x. unfold ticket_part.
  destruct (decide (n = 2%N)) as [->|Hn2]; [|destruct (decide (n = 3%N)) as [->|Hn3]].
  3: { transitivity (or_keep ticket_step a (n, v) = (x, true)); [|apply parts_or_keep].
       destruct v; by destruct n as [|[[]|[]|]]. }
  - destruct v as [m|m|s|m]; try apply parts_or_keep. cbn [ticket_step].
    destruct (unmarshal_part (or_keep ts_step) (default (Timestamp 0 0) (tk_exp a)) s) as [t ok] eqn:E.
    destruct ok.
    + apply (unmarshal_part_spec _ _ _ _ _ (parts_or_keep ts_step)) in E. rewrite E.
      split; intros H; congruence.
    + destruct (unmarshal ts_step (default (Timestamp 0 0) (tk_exp a)) s) as [t'|] eqn:E2.
      * apply (unmarshal_part_spec _ _ _ _ _ (parts_or_keep ts_step)) in E2. congruence.
      * split; intros H; congruence.
  - destruct v as [m|m|s|m]; try apply parts_or_keep. cbn [ticket_step].
    destruct (unmarshal_part filterable_part (default empty_filterable (tk_attrs a)) s) as [t ok] eqn:E.
    destruct ok.
    + apply (unmarshal_part_spec _ _ _ _ _ parts_filterable) in E. rewrite E.
      split; intros H; congruence.
    + destruct (unmarshal filterable_step (default empty_filterable (tk_attrs a)) s) as [t'|] eqn:E2.
      * apply (unmarshal_part_spec _ _ _ _ _ parts_filterable) in E2. congruence.
      * split; intros H; congruence.
Qed.

Lemma rt_ticket o t s :
  orders_ok t o → ticket_wf t → marshal_ticket o t = Some s → (slen s < 2 ^ 64)%N →
  unmarshal_ticket s = t.
Proof.
  unfold marshal_ticket, unmarshal_ticket. intros Ho Hw Hm Hs.
  destruct (utf8_ticket o t) eqn:Hu; [|done]. injection Hm as <-.
  rewrite (unmarshal_part_ok _ _ _ _ t parts_ticket); [done|].
  rewrite unmarshal_enc by (apply shape_wf; [apply shape_ticket|exact Hs]).
  by rewrite rt_ticket_fields.
Qed.

Lemma rt_assignment oe a s :
  oe ≡ₚ map_to_list (as_ext a) → marshal_assignment oe a = Some s → (slen s < 2 ^ 64)%N →
  unmarshal_assignment s = a.
Proof.
  unfold marshal_assignment, unmarshal_assignment. intros Ho Hm Hs.
  destruct (utf8_assignment oe a) eqn:Hu; [|done]. injection Hm as <-.
  rewrite (unmarshal_part_ok _ _ _ _ a (parts_or_keep assignment_step)); [done|].
  unfold utf8_assignment in Hu. apply andb_true_iff in Hu as [Hu1 Hu2].
  rewrite unmarshal_enc by (apply shape_wf; [apply shape_assignment|exact Hs]).
  unfold fields_assignment in *. rewrite fold_fields_app.
  assert (fold_fields assignment_step empty_assignment (f_string 1 (as_conn a)) =
          Some (Assignment (as_conn a) ∅)) as ->.
  { destruct (as_conn a) eqn:E; [done|]. cbn [f_string fold_fields assignment_step]. by rewrite Hu1. }
  rewrite (fold_ext assignment_step 2 as_ext (λ t x, Assignment (as_conn t) x)); try done.
  - simpl. rewrite (foldl_insert_perm _ (as_ext a)) by done. by destruct a.
  - by intros [].
  - eapply fits_app_r. exact Hs.
Qed.

(** ** The encoded length does not depend on the order of the maps *)

Lemma map_perm_len {A} (g : A → field) l l' : l ≡ₚ l' → fields_len (map g l) = fields_len (map g l').
Proof. intros H. apply fields_len_perm. by apply Permutation_map. Qed.

Lemma enc_field_len_wlen n s s' :
  String.length s = String.length s' →
  String.length (enc_field (n, WLen s)) = String.length (enc_field (n, WLen s')).
Proof. intros H. unfold enc_field, slen. simpl. rewrite !app_length_s, H. lia. Qed.

Lemma ticket_len_order o o' t :
  orders_ok t o → orders_ok t o' →
  fields_len (fields_ticket o t) = fields_len (fields_ticket o' t).
Proof.
  intros (H1 & H2 & H3) (H1' & H2' & H3'). unfold fields_ticket. rewrite !fields_len_app.
  assert (fields_len (fields_ext 4 (o_ext o)) = fields_len (fields_ext 4 (o_ext o'))) as ->.
  { apply map_perm_len. by rewrite H3, H3'. }
  assert (fields_len (f_opt 3 (fields_filterable (o_strings o) (o_doubles o)) (tk_attrs t)) =
          fields_len (f_opt 3 (fields_filterable (o_strings o') (o_doubles o')) (tk_attrs t))) as ->.
  { destruct (tk_attrs t) as [a|]; [|done]. simpl. rewrite !fields_len_cons. f_equal.
    apply enc_field_len_wlen. change (fields_len (fields_filterable (o_strings o) (o_doubles o) a) =
      fields_len (fields_filterable (o_strings o') (o_doubles o') a)).
    unfold fields_filterable. rewrite !fields_len_app.
    rewrite (map_perm_len _ (o_strings o) (o_strings o')) by (by rewrite H1, H1').
    rewrite (map_perm_len _ (o_doubles o) (o_doubles o')) by (by rewrite H2, H2'). done. }
  done.
Qed.
