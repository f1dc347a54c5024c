(** Lemmas about Model/Cache.v and Model/Replica.v. *)
From Coq Require Import Ascii String ZArith NArith Lia ZifyBool ZifyN.
From stdpp Require Import prelude strings gmap.
From Verif.Model Require Import GoStrings Types Proto Cache Replica.
From Verif.Spec Require Import CacheSpec.
From Verif.Proofs Require Import MemLemmas.
Local Open Scope Z_scope.

Lemma apply_ops_app c os1 os2 : apply_ops c (os1 ++ os2) = apply_ops (apply_ops c os1) os2.
Proof. apply foldl_app. Qed.

Lemma apply_ops_cons c o os : apply_ops c (o :: os) = apply_ops (apply_op c o) os.
Proof. done. Qed.

(** ** Deleting operations *)

Definition is_delete (o : mapop) : Prop :=
  match o with TDelete _ | IDelete _ | ADelete _ => True | _ => False end.

Lemma tickets_after_deletes k os : ∀ c, Forall is_delete os →
  (TDelete k ∈ os → c_tickets (apply_ops c os) !! k = None) ∧
  (TDelete k ∉ os → c_tickets (apply_ops c os) !! k = c_tickets c !! k).
Proof.
  induction os as [|o os IH]; intros c [Ho Hos]%Forall_cons || intros c _.
  - split; [by intros ?%elem_of_nil|done].
  - rewrite apply_ops_cons. destruct (IH (apply_op c o) Hos) as [IH1 IH2]. split.
    + intros Hin. destruct (decide (TDelete k ∈ os)) as [H|H]; [auto|].
      rewrite IH2 by done. apply elem_of_cons in Hin as [<-|]; [|done].
      simpl. apply lookup_delete.
    + intros Hin. rewrite not_elem_of_cons in Hin. destruct Hin as [Hne Hin].
      rewrite IH2 by done. destruct o; simpl; try done. apply lookup_delete_ne. congruence.
Qed.

Lemma inactive_after_deletes k os : ∀ c, Forall is_delete os →
  k ∈ c_inactive (apply_ops c os) ↔ k ∈ c_inactive c ∧ IDelete k ∉ os.
Proof.
  induction os as [|o os IH]; intros c [Ho Hos]%Forall_cons || intros c _.
  - split; [|tauto]. intros ?. split; [done|]. by intros ?%elem_of_nil.
  - rewrite apply_ops_cons, IH by done. rewrite not_elem_of_cons.
    destruct o as [| | |k'| |]; simpl in *; try done.
    + split; [|tauto]. intros [H1 H2]. done.
    + rewrite elem_of_difference, elem_of_singleton. split.
      * intros [[H1 H2] H3]. split_and!; try done. congruence.
      * intros [H1 [H2 H3]]. split_and!; try done. congruence.
    + split; [|tauto]. intros [H1 H2]. done.
Qed.

Lemma assign_after_deletes k os : ∀ c, Forall is_delete os →
  (ADelete k ∈ os → c_assign (apply_ops c os) !! k = None) ∧
  (ADelete k ∉ os → c_assign (apply_ops c os) !! k = c_assign c !! k).
Proof.
  induction os as [|o os IH]; intros c [Ho Hos]%Forall_cons || intros c _.
  - split; [by intros ?%elem_of_nil|done].
  - rewrite apply_ops_cons. destruct (IH (apply_op c o) Hos) as [IH1 IH2]. split.
    + intros Hin. destruct (decide (ADelete k ∈ os)) as [H|H]; [auto|].
      rewrite IH2 by done. apply elem_of_cons in Hin as [<-|]; [|done].
      simpl. apply lookup_delete.
    + intros Hin. rewrite not_elem_of_cons in Hin. destruct Hin as [Hne Hin].
      rewrite IH2 by done. destruct o; simpl; try done. apply lookup_delete_ne. congruence.
Qed.

(** ** Which operations a cycle contains *)

Lemma elem_pass1 ttl o x :
  x ∈ pass1_ops ttl o ↔ ∃ k n, (k, n) ∈ v_inactive o ∧ id_due ttl n k = true ∧ (x = TDelete k ∨ x = IDelete k).
Proof.
  unfold pass1_ops. rewrite elem_of_list_bind. split.
  - intros ([k n] & Hx & Hv). unfold inactive_visit_ops in Hx. simpl in Hx.
    destruct (id_due ttl n k) eqn:E; [|by apply elem_of_nil in Hx].
    exists k, n. split_and!; try done. set_solver.
  - intros (k & n & Hv & Hd & Hx). exists (k, n). split; [|done].
    unfold inactive_visit_ops. simpl. rewrite Hd. set_solver.
Qed.

Lemma elem_pass2 c o x :
  x ∈ pass2_ops c o ↔
    ∃ k n t, (k, n) ∈ v_tickets o ∧ c_tickets c !! k = Some t ∧ ticket_due n t = true ∧ x = TDelete k.
Proof.
  unfold pass2_ops. rewrite elem_of_list_bind. split.
  - intros ([k n] & Hx & Hv). unfold ticket_visit_ops in Hx. simpl in Hx.
    destruct (c_tickets c !! k) as [t|] eqn:Et; [|by apply elem_of_nil in Hx].
    destruct (ticket_due n t) eqn:E; [|by apply elem_of_nil in Hx].
    exists k, n, t. split_and!; try done. set_solver.
  - intros (k & n & t & Hv & Ht & Hd & Hx). exists (k, n). split; [|done].
    unfold ticket_visit_ops. simpl. rewrite Ht, Hd. set_solver.
Qed.

Lemma elem_pass3 limit o x :
  x ∈ pass3_ops limit o ↔ ∃ k n, (k, n) ∈ v_assign o ∧ id_due limit n k = true ∧ x = ADelete k.
Proof.
  unfold pass3_ops. rewrite elem_of_list_bind. split.
  - intros ([k n] & Hx & Hv). unfold assign_visit_ops in Hx. simpl in Hx.
    destruct (id_due limit n k) eqn:E; [|by apply elem_of_nil in Hx].
    exists k, n. split_and!; try done. set_solver.
  - intros (k & n & Hv & Hd & Hx). exists (k, n). split; [|done].
    unfold assign_visit_ops. simpl. rewrite Hd. set_solver.
Qed.

Lemma pass1_deletes ttl o : Forall is_delete (pass1_ops ttl o).
Proof.
  apply Forall_forall. intros x (k & n & _ & _ & [->| ->])%elem_pass1; done.
Qed.
Lemma pass2_deletes c o : Forall is_delete (pass2_ops c o).
Proof. apply Forall_forall. intros x (k & n & t & _ & _ & _ & ->)%elem_pass2; done. Qed.
Lemma pass3_deletes limit o : Forall is_delete (pass3_ops limit o).
Proof. apply Forall_forall. intros x (k & n & _ & _ & ->)%elem_pass3; done. Qed.

Lemma cycle_deletes cfg o c : Forall is_delete (cycle_ops cfg o c).
Proof.
  unfold cycle_ops. apply Forall_app. split; [apply pass1_deletes|].
  apply Forall_app. split; [apply pass2_deletes|apply pass3_deletes].
Qed.

(** ** The effect of a cycle, per key *)

Definition due_at (vs : list visit) (limit : Z) (k : string) : Prop :=
  ∃ n, (k, n) ∈ vs ∧ id_due limit n k = true.

Lemma cycle_inactive cfg o c k :
  k ∈ c_inactive (cycle cfg o c) ↔ k ∈ c_inactive c ∧ ¬ due_at (v_inactive o) (cfg_ticket_ttl cfg) k.
Proof.
  unfold cycle. rewrite inactive_after_deletes by apply cycle_deletes.
  enough (IDelete k ∈ cycle_ops cfg o c ↔ due_at (v_inactive o) (cfg_ticket_ttl cfg) k) as ->; [done|].
  unfold cycle_ops. rewrite !elem_of_app, elem_pass1, elem_pass2, elem_pass3. split.
  - intros [(k' & n & H1 & H2 & [?|[= <-]])|[(?&?&?&?&?&?&?)|(?&?&?&?&?)]]; try done. by exists n.
  - intros (n & H1 & H2). left. exists k, n. auto.
Qed.

Lemma cycle_assign cfg o c k :
  let limit := cfg_ticket_ttl cfg + cfg_assign_ttl cfg in
  (due_at (v_assign o) limit k → c_assign (cycle cfg o c) !! k = None) ∧
  (¬ due_at (v_assign o) limit k → c_assign (cycle cfg o c) !! k = c_assign c !! k).
Proof.
  intros limit. unfold cycle.
  destruct (assign_after_deletes k _ c (cycle_deletes cfg o c)) as [H1 H2].
  assert (ADelete k ∈ cycle_ops cfg o c ↔ due_at (v_assign o) limit k) as E.
  { unfold cycle_ops. rewrite !elem_of_app, elem_pass1, elem_pass2, elem_pass3. split.
    - intros [(k' & n & ? & ? & [?|?])|[(?&?&?&?&?&?&?)|(k'&n&?&?&[= <-])]]; try done. by exists n.
    - intros (n & Ha & Hb). do 2 right. exists k, n. auto. }
  rewrite E in H1, H2. done.
Qed.

Lemma cycle_tickets cfg o c k :
  let c1 := apply_ops c (pass1_ops (cfg_ticket_ttl cfg) o) in
  let gone t := due_at (v_inactive o) (cfg_ticket_ttl cfg) k ∨
                ∃ n, (k, n) ∈ v_tickets o ∧ ticket_due n t = true in
  (c_tickets c !! k = None → c_tickets (cycle cfg o c) !! k = None) ∧
  (∀ t, c_tickets c !! k = Some t →
     (gone t → c_tickets (cycle cfg o c) !! k = None) ∧
     (¬ gone t → c_tickets (cycle cfg o c) !! k = Some t)).
Proof.
  intros c1 gone. unfold cycle.
  destruct (tickets_after_deletes k _ c (cycle_deletes cfg o c)) as [H1 H2].
  destruct (tickets_after_deletes k _ c (pass1_deletes (cfg_ticket_ttl cfg) o)) as [P1 P2].
  assert (T1 : TDelete k ∈ pass1_ops (cfg_ticket_ttl cfg) o ↔ due_at (v_inactive o) (cfg_ticket_ttl cfg) k).
  { rewrite elem_pass1. split.
    - intros (k' & n & Ha & Hb & [[= <-]|?]); [|done]. by exists n.
    - intros (n & Ha & Hb). exists k, n. auto. }
  assert (T2 : TDelete k ∈ cycle_ops cfg o c ↔
          due_at (v_inactive o) (cfg_ticket_ttl cfg) k ∨
          ∃ n t, (k, n) ∈ v_tickets o ∧ c_tickets c1 !! k = Some t ∧ ticket_due n t = true).
  { unfold cycle_ops. rewrite !elem_of_app, T1, elem_pass2, elem_pass3. split.
    - intros [?|[(k'&n&t&?&?&?&[= <-])|(?&?&?&?&?)]]; [by left| |done]. right. by exists n, t.
    - intros [?|(n & t & ? & ? & ?)]; [by left|]. right. left. exists k, n, t. done. }
  split.
  - intros Hn. destruct (decide (TDelete k ∈ cycle_ops cfg o c)) as [Hd|Hd]; [auto|].
    by rewrite H2.
  - intros t Ht. split.
    + intros [Hg|(n & Hn & Hd)].
      * apply H1, T2. by left.
      * destruct (decide (TDelete k ∈ pass1_ops (cfg_ticket_ttl cfg) o)) as [Hp|Hp].
        { apply H1, T2. left. by apply T1. }
        apply H1, T2. right. exists n, t. split_and!; try done. unfold c1. by rewrite P2.
    + intros Hg. rewrite H2; [done|]. rewrite T2. intros [Hd|(n & t' & Hn & Ht' & Hd)].
      * apply Hg. by left.
      * destruct (decide (TDelete k ∈ pass1_ops (cfg_ticket_ttl cfg) o)) as [Hp|Hp].
        { apply Hg. left. by apply T1. }
        unfold c1 in Ht'. rewrite P2 in Ht' by done. assert (t' = t) as -> by congruence.
        apply Hg. right. by exists n.
Qed.

(** Visits and keys. *)
Lemma visit_of_key (vs : list visit) k : k ∈ vs.*1 ↔ ∃ n, (k, n) ∈ vs.
Proof.
  rewrite elem_of_list_fmap. split.
  - intros ([k' n] & -> & H). by exists n.
  - intros (n & H). by exists (k, n).
Qed.

Lemma fit_inactive cfg o c k :
  orders_fit cfg o c → k ∈ c_inactive c ↔ ∃ n, (k, n) ∈ v_inactive o.
Proof. intros (H & _ & _). rewrite <-visit_of_key, H. by rewrite elem_of_elements. Qed.

Lemma elem_keys {A} (m : gmap string A) k : k ∈ (map_to_list m).*1 ↔ is_Some (m !! k).
Proof.
  rewrite elem_of_list_fmap. split.
  - intros ([k' x] & -> & H). apply elem_of_map_to_list in H. by exists x.
  - intros [x Hx]. exists (k, x). split; [done|]. by apply elem_of_map_to_list.
Qed.

Lemma fit_assign cfg o c k :
  orders_fit cfg o c → is_Some (c_assign c !! k) ↔ ∃ n, (k, n) ∈ v_assign o.
Proof. intros (_ & _ & H). rewrite <-visit_of_key, H. by rewrite elem_keys. Qed.

Lemma fit_tickets cfg o c k :
  orders_fit cfg o c →
  (∃ n, (k, n) ∈ v_tickets o) ↔
  is_Some (c_tickets c !! k) ∧ ¬ due_at (v_inactive o) (cfg_ticket_ttl cfg) k.
Proof.
  intros (_ & H & _). rewrite <-visit_of_key, H, elem_keys.
  destruct (tickets_after_deletes k _ c (pass1_deletes (cfg_ticket_ttl cfg) o)) as [P1 P2].
  assert (T1 : TDelete k ∈ pass1_ops (cfg_ticket_ttl cfg) o ↔ due_at (v_inactive o) (cfg_ticket_ttl cfg) k).
  { rewrite elem_pass1. split.
    - intros (k' & n & Ha & Hb & [[= <-]|?]); [|done]. by exists n.
    - intros (n & Ha & Hb). exists k, n. auto. }
  rewrite <-T1. destruct (decide (TDelete k ∈ pass1_ops (cfg_ticket_ttl cfg) o)) as [Hd|Hd].
  - rewrite P1 by done. split; [by intros [? ?]|tauto].
  - rewrite P2 by done. tauto.
Qed.

Lemma id_due_spec limit n k : id_due limit n k = true ↔ OlderThan limit n k.
Proof. unfold id_due, OlderThan. lia. Qed.
Lemma ticket_due_spec n t : ticket_due n t = true ↔ ExpiredAt n t.
Proof. unfold ticket_due, ExpiredAt. lia. Qed.

(** C22 *)
Definition at_time (t : instant) (o : cycle_orders) : Prop := ∀ v, v ∈ cycle_visits o → v.2 = t.

Lemma at_time_inactive t o : at_time t o → ∀ k n, (k, n) ∈ v_inactive o → n = t.
Proof. intros H k n Hin. apply (H (k, n)). unfold cycle_visits. set_solver. Qed.
Lemma at_time_tickets t o : at_time t o → ∀ k n, (k, n) ∈ v_tickets o → n = t.
Proof. intros H k n Hin. apply (H (k, n)). unfold cycle_visits. set_solver. Qed.
Lemma at_time_assign t o : at_time t o → ∀ k n, (k, n) ∈ v_assign o → n = t.
Proof. intros H k n Hin. apply (H (k, n)). unfold cycle_visits. set_solver. Qed.

Local Instance older_dec limit n k : Decision (OlderThan limit n k).
Proof. unfold OlderThan. apply _. Defined.
Local Instance expired_dec n t : Decision (ExpiredAt n t).
Proof. unfold ExpiredAt. apply _. Defined.

Lemma expiry_exact cfg o c t :
  orders_fit cfg o c → at_time t o →
  (∀ k, k ∈ c_inactive (cycle cfg o c) ↔
        k ∈ c_inactive c ∧ ¬ OlderThan (cfg_ticket_ttl cfg) t k) ∧
  (∀ k tk, c_tickets (cycle cfg o c) !! k = Some tk ↔
        c_tickets c !! k = Some tk ∧ ¬ ExpiredAt t tk ∧
        ¬ (k ∈ c_inactive c ∧ OlderThan (cfg_ticket_ttl cfg) t k)) ∧
  (∀ k a, c_assign (cycle cfg o c) !! k = Some a ↔
        c_assign c !! k = Some a ∧ ¬ OlderThan (cfg_ticket_ttl cfg + cfg_assign_ttl cfg) t k).
Proof.
  intros Hf Ht.
  assert (D1 : ∀ k, due_at (v_inactive o) (cfg_ticket_ttl cfg) k ↔
                    k ∈ c_inactive c ∧ OlderThan (cfg_ticket_ttl cfg) t k).
  { intros k. rewrite (fit_inactive _ _ _ _ Hf). split.
    - intros (n & Hn & Hd). split; [by exists n|].
      rewrite (at_time_inactive t o Ht k n Hn) in Hd. by apply id_due_spec.
    - intros [[n Hn] Hd]. exists n. split; [done|].
      rewrite (at_time_inactive t o Ht k n Hn). by apply id_due_spec. }
  split_and!.
  - intros k. rewrite cycle_inactive, D1. destruct (older_dec (cfg_ticket_ttl cfg) t k); tauto.
  - intros k tk. destruct (cycle_tickets cfg o c k) as [HN HS].
    destruct (c_tickets c !! k) as [t0|] eqn:Et.
    + destruct (HS t0 eq_refl) as [H1 H2].
      assert (G : (due_at (v_inactive o) (cfg_ticket_ttl cfg) k ∨
                ∃ n, (k, n) ∈ v_tickets o ∧ ticket_due n t0 = true) ↔
                (ExpiredAt t t0 ∨ (k ∈ c_inactive c ∧ OlderThan (cfg_ticket_ttl cfg) t k))).
      { rewrite D1. split.
        - intros [?|(n & Hn & Hd)]; [by right|left].
          rewrite (at_time_tickets t o Ht k n Hn) in Hd. by apply ticket_due_spec.
        - intros [He|?]; [|by left].
          destruct (decide (k ∈ c_inactive c ∧ OlderThan (cfg_ticket_ttl cfg) t k)) as [?|Hno]; [by left|].
          right. assert (∃ n, (k, n) ∈ v_tickets o) as [n Hn].
          { apply (fit_tickets cfg o c k Hf). split; [by exists t0|]. by rewrite D1. }
          exists n. split; [done|]. rewrite (at_time_tickets t o Ht k n Hn). by apply ticket_due_spec. }
      rewrite G in H1, H2.
      destruct (decide (ExpiredAt t t0 ∨ (k ∈ c_inactive c ∧ OlderThan (cfg_ticket_ttl cfg) t k))) as [Hg|Hg].
      * rewrite (H1 Hg). split; [done|]. intros ([= <-] & Ha & Hb). tauto.
      * rewrite (H2 Hg). split.
        -- intros [= <-]. tauto.
        -- by intros ([= <-] & _).
    + rewrite HN by done. split; [done|]. by intros [? _].
  - intros k a. destruct (cycle_assign cfg o c k) as [H1 H2].
    destruct (older_dec (cfg_ticket_ttl cfg + cfg_assign_ttl cfg) t k) as [Hold|Hold].
    + split; [|tauto]. intros Ha.
      destruct (c_assign c !! k) as [a0|] eqn:Ea.
      * destruct (proj1 (fit_assign cfg o c k Hf)) as [n Hn]; [by exists a0|].
        rewrite H1 in Ha; [done|]. exists n. split; [done|].
        rewrite (at_time_assign t o Ht k n Hn). by apply id_due_spec.
      * rewrite H2 in Ha; [done|]. intros (n & Hn & _).
        assert (is_Some (c_assign c !! k)) as [? ?]; [|congruence].
        apply (fit_assign cfg o c k Hf). by exists n.
    + rewrite H2; [tauto|]. intros (n & Hn & Hd).
      rewrite (at_time_assign t o Ht k n Hn) in Hd. by apply id_due_spec in Hd.
Qed.

(** C22 with a cycle that takes time: readings anywhere between t1 and t2. *)
Lemma older_mono limit a b k : a <= b → OlderThan limit a k → OlderThan limit b k.
Proof. unfold OlderThan. intros H. pose proof (unix_secs_mono a b H). lia. Qed.
Lemma expired_mono a b t : a <= b → ExpiredAt a t → ExpiredAt b t.
Proof. unfold ExpiredAt. lia. Qed.

Lemma expiry_between cfg o c t1 t2 :
  orders_fit cfg o c → (∀ v, v ∈ cycle_visits o → t1 <= v.2 <= t2) →
  (∀ k, k ∈ c_inactive (cycle cfg o c) → k ∈ c_inactive c ∧ ¬ OlderThan (cfg_ticket_ttl cfg) t1 k) ∧
  (∀ k, k ∈ c_inactive c → ¬ OlderThan (cfg_ticket_ttl cfg) t2 k → k ∈ c_inactive (cycle cfg o c)) ∧
  (∀ k tk, c_tickets (cycle cfg o c) !! k = Some tk →
        c_tickets c !! k = Some tk ∧ ¬ ExpiredAt t1 tk ∧
        ¬ (k ∈ c_inactive c ∧ OlderThan (cfg_ticket_ttl cfg) t1 k)) ∧
  (∀ k tk, c_tickets c !! k = Some tk → ¬ ExpiredAt t2 tk →
        ¬ (k ∈ c_inactive c ∧ OlderThan (cfg_ticket_ttl cfg) t2 k) →
        c_tickets (cycle cfg o c) !! k = Some tk) ∧
  (∀ k a, c_assign (cycle cfg o c) !! k = Some a →
        c_assign c !! k = Some a ∧ ¬ OlderThan (cfg_ticket_ttl cfg + cfg_assign_ttl cfg) t1 k) ∧
  (∀ k a, c_assign c !! k = Some a → ¬ OlderThan (cfg_ticket_ttl cfg + cfg_assign_ttl cfg) t2 k →
        c_assign (cycle cfg o c) !! k = Some a).
Proof.
  intros Hf Ht.
  assert (Vi : ∀ k n, (k, n) ∈ v_inactive o → t1 <= n <= t2).
  { intros k n Hn. apply (Ht (k, n)). unfold cycle_visits. set_solver. }
  assert (Vt : ∀ k n, (k, n) ∈ v_tickets o → t1 <= n <= t2).
  { intros k n Hn. apply (Ht (k, n)). unfold cycle_visits. set_solver. }
  assert (Va : ∀ k n, (k, n) ∈ v_assign o → t1 <= n <= t2).
  { intros k n Hn. apply (Ht (k, n)). unfold cycle_visits. set_solver. }
  assert (D1 : ∀ k, k ∈ c_inactive c → OlderThan (cfg_ticket_ttl cfg) t1 k →
                 due_at (v_inactive o) (cfg_ticket_ttl cfg) k).
  { intros k Hk Ho. apply (fit_inactive cfg o c k Hf) in Hk as [n Hn]. exists n. split; [done|].
    apply id_due_spec. eapply older_mono; [|exact Ho]. by apply (Vi k). }
  assert (D2 : ∀ k, due_at (v_inactive o) (cfg_ticket_ttl cfg) k →
                 k ∈ c_inactive c ∧ OlderThan (cfg_ticket_ttl cfg) t2 k).
  { intros k (n & Hn & Hd). split; [apply (fit_inactive cfg o c k Hf); by exists n|].
    apply id_due_spec in Hd. eapply older_mono; [|exact Hd]. by apply (Vi k). }
  split_and!.
  - intros k [Hk Hd]%cycle_inactive. split; [done|]. intros Ho. by apply Hd, D1.
  - intros k Hk Ho. apply cycle_inactive. split; [done|]. intros Hd. apply D2 in Hd. tauto.
  - intros k tk Hk. destruct (cycle_tickets cfg o c k) as [HN HS].
    destruct (c_tickets c !! k) as [t0|] eqn:Et; [|rewrite HN in Hk; done].
    destruct (HS t0 eq_refl) as [H1 H2].
    assert (Hg : ¬ (due_at (v_inactive o) (cfg_ticket_ttl cfg) k ∨
                ∃ n, (k, n) ∈ v_tickets o ∧ ticket_due n t0 = true)).
    { intros Hg. rewrite (H1 Hg) in Hk. done. }
    rewrite (H2 Hg) in Hk. injection Hk as <-. split_and!; [done| |].
    + intros He. apply Hg. right. destruct (proj2 (fit_tickets cfg o c k Hf)) as [n Hn].
      { split; [by exists t0|tauto]. }
      exists n. split; [done|]. apply ticket_due_spec. eapply expired_mono; [|exact He]. by apply (Vt k).
    + intros [Hi Ho]. apply Hg. left. by apply D1.
  - intros k tk Hk He Hi. destruct (cycle_tickets cfg o c k) as [_ HS].
    apply (HS tk Hk). intros [Hd|(n & Hn & Hd)].
    + apply Hi. by apply D2.
    + apply He. apply ticket_due_spec in Hd. eapply expired_mono; [|exact Hd]. by apply (Vt k).
  - intros k a Ha. destruct (cycle_assign cfg o c k) as [H1 H2].
    destruct (older_dec (cfg_ticket_ttl cfg + cfg_assign_ttl cfg) t1 k) as [Ho|Ho].
    + exfalso. destruct (c_assign c !! k) as [a0|] eqn:Ea.
      * destruct (proj1 (fit_assign cfg o c k Hf)) as [n Hn]; [by exists a0|].
        rewrite H1 in Ha; [done|]. exists n. split; [done|].
        apply id_due_spec. eapply older_mono; [|exact Ho]. by apply (Va k).
      * rewrite H2 in Ha; [done|]. intros (n & Hn & _).
        assert (is_Some (c_assign c !! k)) as [? ?]; [|congruence].
        apply (fit_assign cfg o c k Hf). by exists n.
    + split; [|done]. rewrite H2 in Ha; [done|]. intros Hd. rewrite H1 in Ha by done. done.
  - intros k a Ha Ho. destruct (cycle_assign cfg o c k) as [H1 H2]. rewrite H2; [done|].
    intros (n & Hn & Hd). apply Ho. apply id_due_spec in Hd. eapply older_mono; [|exact Hd].
    by apply (Va k).
Qed.
