(** Proofs for C159. *)
From Coq Require Import Ascii String ZArith NArith Lia.
From stdpp Require Import prelude strings gmap.
From Verif.Model Require Import GoStrings Types Wire Proto ProtoMsg JsonMsg.
From Verif.Spec Require Import NamesSpec.
From Verif.Proofs Require Import NamesLemmas.
Local Open Scope string_scope.
Local Open Scope list_scope.

Lemma alike_leaf j j' : alike Leaf j j' → j = j'.
Proof. by inversion 1. Qed.
Lemma alike_list {A} (r : jv → option A) s j j' : (∀ v v', alike s v v' → r v = r v') → alike (Many s) j j' → r_list r j = r_list r j'.
Proof. intros H Hs. inversion Hs; subst; [done|]. simpl. by eapply mapM_same. Qed.

(** ** Maps *)
Lemma mapM_perm {A B} (f : A → option B) l l' : l ≡ₚ l' → match mapM f l, mapM f l' with Some k, Some k' => k ≡ₚ k' | None, None => True | _, _ => False end.
Proof.
  induction 1 as [|x l l' _ IH|x y l|l1 l2 l3 _ IH1 _ IH2]; simpl.
  - done.
  - destruct (f x); simpl; [|done]. destruct (mapM f l), (mapM f l'); simpl; try done. by constructor.
  - destruct (f x), (f y); simpl; try done; destruct (mapM f l); simpl; try done. apply perm_swap.
  - destruct (mapM f l1), (mapM f l2), (mapM f l3); try done. by etrans.
Qed.
Lemma mapM_keys {A B} (r : A → option B) (l : list (string * A)) k :
  mapM (λ kv : string * A, x ← r kv.2; Some (kv.1, x)) l = Some k → map fst k = map fst l.
Proof.
  revert k. induction l as [|[a b] l IH]; intros k; simpl; [by intros [= <-]|]. destruct (r b); simpl; [|done].
  destruct (mapM _ l) as [k'|]; simpl; [|done]. intros [= <-]. simpl. f_equal. by apply IH.
Qed.
Lemma map_perm {A} (r : jv → option A) l l' : l ≡ₚ l' → r_map r (JDict l) = r_map r (JDict l').
Proof.
  intros Hp. simpl. assert (map fst l ≡ₚ map fst l') as Hk by (by apply Permutation_map).
  destruct (decide (NoDup (map fst l))) as [Hn|Hn].
  - rewrite !bool_decide_eq_true_2; [|by rewrite <-Hk|done].
    pose proof (mapM_perm (λ kv : string * jv, x ← r kv.2; Some (kv.1, x)) _ _ Hp) as Hm.
    destruct (mapM _ l) as [k|] eqn:E, (mapM _ l') as [k'|] eqn:E'; try done. simpl. f_equal. apply list_to_map_proper; [|done].
    apply mapM_keys in E. change (NoDup (map fst k)). by rewrite E.
  - rewrite !bool_decide_eq_false_2; [done| |done]. by rewrite <-Hk.
Qed.
Lemma alike_map {A} (r : jv → option A) s j j' : (∀ v v', alike s v v' → r v = r v') → alike (Dict s) j j' → r_map r j = r_map r j'.
Proof.
  intros H Hs. inversion Hs as [|?|?|s' l l' m Hp HF]; subst; [done|]. rewrite (map_perm r _ _ Hp). clear Hs Hp. simpl.
  assert (map fst m = map fst l') as -> by (induction HF as [|x y m l' [E _] _ IH]; [done|]; simpl; by rewrite E, IH).
  erewrite mapM_same; [done| |exact HF]. simpl. intros x y [-> Hv]. by rewrite (H _ _ Hv).
Qed.

(** ** Messages *)
Section object.
  Context {M : Type} (tab : list (N * list string)) (step : N → jv → M → option M) (fs : list (string * shape)).
  Context (Hcom : ∀ n m v w acc, n ≠ m → n ∈ tab.*1 → m ∈ tab.*1 → (a ← step n v acc; step m w a) = (a ← step m w acc; step n v a)).
  Context (Htab : forallb (λ k, existsb (λ f, String.eqb k f.1 || String.eqb k (snake f.1))%bool fs) (concat tab.*2) = true).
  Context (Hfs : Forall (λ f, field_no tab (snake f.1) = field_no tab f.1 ∧
    (∀ n v v' acc, field_no tab f.1 = Some n → alike f.2 v v' → step n v acc = step n v' acc)) fs).
  Notation canon := (field_no tab).

  Lemma field_in k n : canon k = Some n → n ∈ tab.*1 ∧ k ∈ concat tab.*2.
  Proof.
    clear. induction tab as [|[m ks] tab' IH]; simpl; [done|]. destruct (existsb (String.eqb k) ks) eqn:E.
    - intros [= <-]. split; [left|]. apply existsb_exists in E as (k' & Hk & ->%String.eqb_eq). apply elem_of_app. left. by apply elem_of_list_In.
    - intros H. destruct (IH H) as [H1 H2]. split; [by right|]. apply elem_of_app. by right.
  Qed.
  Lemma unknown_none x : unknown fs x → canon x.1 = None.
  Proof using Htab.
    intros Hu. destruct (canon x.1) as [n|] eqn:E; [|done]. exfalso. apply field_in in E as [_ E]. rewrite forallb_forall in Htab.
    apply elem_of_list_In in E. specialize (Htab _ E). apply existsb_exists in Htab as ([name s] & Hin & Heq). apply elem_of_list_In in Hin.
    destruct (Hu name s Hin) as [H1 H2]. apply orb_true_iff in Heq as [Heq|Heq]; apply String.eqb_eq in Heq; done.
  Qed.

  Definition one (x : string * jv) (acc : M) : option M :=
    match canon x.1 with None => Some acc | Some n => if is_null x.2 then Some acc else step n x.2 acc end.
  Lemma read_one x l acc : read_members canon step (x :: l) acc = a ← one x acc; read_members canon step l a.
  Proof. destruct x as [k v]. rewrite read_cons. unfold one. simpl. destruct (canon k); [|done]. by destruct (is_null v). Qed.
  Lemma one_swap x y acc : (∀ n, canon x.1 = Some n → canon y.1 = Some n → False) → (a ← one x acc; one y a) = (a ← one y acc; one x a).
  Proof using Hcom.
    intros Hd. unfold one. destruct (canon x.1) as [n|] eqn:Ex, (canon y.1) as [m|] eqn:Ey; simpl; try done.
    - destruct (is_null x.2), (is_null y.2); simpl; try done; try (by destruct (step _ _ acc)).
      apply Hcom; [intros ->; by eapply Hd|by eapply field_in|by eapply field_in].
    - destruct (is_null x.2); simpl; [done|]. by destruct (step n x.2 acc).
    - destruct (is_null y.2); simpl; [done|]. by destruct (step m y.2 acc).
  Qed.
  Lemma read_perm l l' : l ≡ₚ l' → NoDup (omap (λ kv, canon kv.1) l) → ∀ acc, read_members canon step l acc = read_members canon step l' acc.
  Proof using Hcom.
    induction 1 as [|x l l' _ IH|x y l|l1 l2 l3 H1 IH1 _ IH2]; intros Hn acc.
    - done.
    - rewrite !read_one. destruct (one x acc) as [a|]; [|done]. simpl. apply IH. csimpl in Hn. destruct (canon x.1); [by apply NoDup_cons in Hn as [_ Hn]|done].
    - rewrite !read_one.
      assert (∀ z w, (a ← one z acc; read_members canon step (w :: l) a) = (b ← (a ← one z acc; one w a); read_members canon step l b)) as E.
      { intros z w. destruct (one z acc); [|done]. cbn [mbind option_bind]. by rewrite read_one. }
      rewrite !E, one_swap; [done|]. intros n E1 E2. csimpl in Hn. rewrite E1, E2 in Hn. apply NoDup_cons in Hn as [Hn _]. apply Hn. left.
    - rewrite IH1 by done. apply IH2. by rewrite <-(omap_Permutation _ _ _ H1).
  Qed.
  Lemma object_perm init l l' : l ≡ₚ l' → read_object canon step init (JDict l) = read_object canon step init (JDict l').
  Proof using Hcom.
    intros Hp. simpl. pose proof (omap_Permutation (λ kv : string * jv, canon kv.1) _ _ Hp) as Ho.
    destruct (decide (NoDup (omap (λ kv, canon kv.1) l))) as [Hn|Hn].
    - rewrite !bool_decide_eq_true_2; [by apply read_perm|by rewrite <-Ho|done].
    - rewrite !bool_decide_eq_false_2; [done| |done]. by rewrite <-Ho.
  Qed.
  Lemma object_unknown init u m : Forall (unknown fs) u → read_object canon step init (JDict (u ++ m)) = read_object canon step init (JDict m).
  Proof using Htab.
    intros Hu. induction Hu as [|x u Hx Hu IH]; [done|]. rewrite <-IH. simpl. rewrite (unknown_none _ Hx).
    destruct x as [k v]. simpl. pose proof (unknown_none _ Hx) as E. simpl in E. by rewrite E.
  Qed.
  Lemma object_alike init j j' : alike (Obj fs) j j' → read_object canon step init j = read_object canon step init j'.
  Proof using Hcom Htab Hfs.
    intros Ha. inversion Ha as [|fs' l l' u u' m m' Hl Hl' Hu Hu' HF|?|?]; subst; [done|].
    rewrite (object_perm _ _ _ Hl), (object_perm _ _ _ Hl'), !object_unknown by done. clear - HF Hfs. rewrite Forall_forall in Hfs.
    assert (Forall2 (λ x y, canon x.1 = canon y.1 ∧ ∀ acc, one x acc = one y acc) m m') as HF'.
    { eapply Forall2_impl; [exact HF|]. intros [k v] [k' v'] (name & s & Hin & Hx & Hy & Hv). simpl in *. destruct (Hfs _ Hin) as [E Hs]. simpl in E, Hs.
      assert (canon k = canon name) as Ek by (destruct Hx as [-> | ->]; congruence).
      assert (canon k' = canon name) as Ek' by (destruct Hy as [-> | ->]; congruence).
      split; [congruence|]. intros acc. unfold one. simpl. rewrite Ek, Ek'. destruct (canon name) as [n|] eqn:En; [|done].
      assert (is_null v = is_null v') as -> by (by destruct Hv). destruct (is_null v'); [done|]. by apply Hs. }
    simpl. assert (omap (λ kv, canon kv.1) m = omap (λ kv, canon kv.1) m') as ->.
    { clear HF. induction HF' as [|x y m m' [E _] _ IH]; [done|]. csimpl. by rewrite E, IH. }
    destruct (bool_decide _); [|done]. generalize init. clear HF. induction HF' as [|x y m m' [_ E] _ IH]; intros a; [done|].
    rewrite !read_one, E. destruct (one y a); [apply IH|done].
  Qed.
End object.

Ltac bind_cases := repeat (cbn [mbind option_bind]; try reflexivity;
  match goal with |- context [mbind ?f ?e] => lazymatch e with context [mbind _ _] => fail | _ => destruct e end end).
Ltac commute := intros n m v w acc Hne Hn Hm; apply elem_of_list_In in Hn, Hm; vm_compute in Hn, Hm;
  destruct acc; destruct_or!; subst; try done; cbn beta iota; bind_cases.
Ltac fields := repeat (apply Forall_cons; split; [cbn [fst snd]; split; [reflexivity|]; intros ? v v' acc [= <-] Hv|]); [..|apply Forall_nil; exact I].
Ltac same_value := match goal with H : alike Leaf _ _ |- _ => by rewrite (alike_leaf _ _ H) end.
Ltac object := apply object_alike; [commute|reflexivity|fields; try same_value].

Lemma filterable_alike c j j' : alike filterable_shape j j' → r_filterable c j = r_filterable c j'.
Proof. object. Qed.
Lemma ticket_alike c j j' : alike ticket_shape j j' → r_ticket c j = r_ticket c j'.
Proof. object. by rewrite (filterable_alike c _ _ Hv). Qed.
Lemma assignment_alike c j j' : alike assignment_shape j j' → r_assignment c j = r_assignment c j'.
Proof. object. Qed.
Lemma roster_alike c j j' : alike roster_shape j j' → r_roster c j = r_roster c j'.
Proof.
  object.
  - by rewrite (assignment_alike c _ _ Hv).
  - by rewrite (alike_list _ _ _ _ (ticket_alike c) Hv).
Qed.
Lemma tag_filter_alike j j' : alike (Obj (leaves ["tag"])) j j' → r_tag_filter j = r_tag_filter j'.
Proof. object. Qed.
Lemma string_filter_alike j j' : alike (Obj (leaves ["stringArg"; "value"])) j j' → r_string_filter j = r_string_filter j'.
Proof. object. Qed.
Lemma double_filter_alike c j j' : alike (Obj (leaves ["doubleArg"; "minimum"; "maximum"; "bounds"])) j j' → r_double_filter c j = r_double_filter c j'.
Proof. object. Qed.
Lemma time_filter_alike c j j' : alike (Obj (leaves ["start"; "end"; "bounds"])) j j' → r_time_filter c j = r_time_filter c j'.
Proof. object. Qed.
Lemma pool_alike c j j' : alike pool_shape j j' → r_pool c j = r_pool c j'.
Proof.
  object.
  - by rewrite (alike_list _ _ _ _ tag_filter_alike Hv).
  - by rewrite (alike_list _ _ _ _ string_filter_alike Hv).
  - by rewrite (alike_list _ _ _ _ (double_filter_alike c) Hv).
  - by rewrite (time_filter_alike c _ _ Hv).
  - by rewrite (roster_alike c _ _ Hv).
Qed.
Lemma profile_alike c j j' : alike profile_shape j j' → r_profile c j = r_profile c j'.
Proof. object. by rewrite (alike_map _ _ _ _ (pool_alike c) Hv). Qed.
Lemma match_alike c j j' : alike match_shape j j' → r_match c j = r_match c j'.
Proof. object. by rewrite (alike_map _ _ _ _ (roster_alike c) Hv). Qed.
Lemma spec_alike c j j' : alike spec_shape j j' → r_spec c j = r_spec c j'.
Proof. object. Qed.
Lemma request_alike c j j' : alike request_shape j j' → r_request c j = r_request c j'.
Proof.
  object.
  - by rewrite (profile_alike c _ _ Hv).
  - by rewrite (alike_list _ _ _ _ (spec_alike c) Hv).
Qed.
Lemma result_alike c j j' : alike result_shape j j' → r_result c j = r_result c j'.
Proof. object. by rewrite (match_alike c _ _ Hv). Qed.
Lemma create_alike c j j' : alike create_shape j j' → r_create c j = r_create c j'.
Proof. object. by rewrite (ticket_alike c _ _ Hv). Qed.
Lemma ids_alike j j' : alike ids_shape j j' → r_ids j = r_ids j'.
Proof. object. Qed.
Lemma assign_alike c j j' : alike assign_shape j j' → r_assign c j = r_assign c j'.
Proof. object. by rewrite (roster_alike c _ _ Hv). Qed.
Lemma watch_alike c j j' : alike watch_shape j j' → r_watch c j = r_watch c j'.
Proof. object. by rewrite (assignment_alike c _ _ Hv). Qed.
