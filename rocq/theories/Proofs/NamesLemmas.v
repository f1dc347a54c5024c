(** Proofs for C158. *)
From Coq Require Import Ascii String ZArith NArith Lia.
From stdpp Require Import prelude strings gmap.
From Verif.Model Require Import GoStrings Types Wire Proto ProtoMsg JsonMsg ExampleCalls.
From Verif.Spec Require Import NamesSpec.
Local Open Scope string_scope.
Local Open Scope list_scope.

Lemma same_leaf j j' : same Leaf j j' → j = j'.
Proof. by inversion 1. Qed.
Lemma same_null s j j' : same s j j' → j = JNull ↔ j' = JNull.
Proof. by destruct 1. Qed.

Lemma mapM_same {A B} (r : A → option B) (R : A → A → Prop) l l' : (∀ x y, R x y → r x = r y) → Forall2 R l l' → mapM r l = mapM r l'.
Proof. intros H. induction 1 as [|x y l l' Hxy _ IH]; [done|]. simpl. by rewrite (H _ _ Hxy), IH. Qed.
Lemma list_same {A} (r : jv → option A) s j j' : (∀ v v', same s v v' → r v = r v') → same (Many s) j j' → r_list r j = r_list r j'.
Proof. intros H Hs. inversion Hs; subst; [done|]. simpl. by eapply mapM_same. Qed.
Lemma map_same {A} (r : jv → option A) s j j' : (∀ v v', same s v v' → r v = r v') → same (Dict s) j j' → r_map r j = r_map r j'.
Proof.
  intros H Hs. inversion Hs as [|?|?|s' l l' HF]; subst; [done|]. simpl.
  assert (map fst l = map fst l') as -> by (clear Hs; induction HF as [|x y l l' [E _] _ IH]; [done|]; simpl; by rewrite E, IH).
  erewrite mapM_same; [done| |exact HF]. simpl. intros x y [-> Hv]. by rewrite (H _ _ Hv).
Qed.

Definition is_null (j : jv) : bool := match j with JNull => true | _ => false end.
Lemma read_cons {M} canon (step : N → jv → M → option M) k v l acc : read_members canon step ((k, v) :: l) acc =
  match canon k with
  | None => read_members canon step l acc
  | Some n => if is_null v then read_members canon step l acc else acc' ← step n v acc; read_members canon step l acc'
  end.
Proof. cbn [read_members]. destruct (canon k); [|done]. by destruct v. Qed.

Section object.
  Context {M : Type} (tab : list (N * list string)) (step : N → jv → M → option M) (fs : list (string * shape)).
  Context (Hfs : Forall (λ f, field_no tab (snake f.1) = field_no tab f.1 ∧
    (∀ n v v' acc, field_no tab f.1 = Some n → same f.2 v v' → step n v acc = step n v' acc)) fs).
  Notation member := (λ x y : string * jv, x = y ∨ ∃ name s, (name, s) ∈ fs ∧ (x.1 = name ∨ x.1 = snake name) ∧ (y.1 = name ∨ y.1 = snake name) ∧ same s x.2 y.2).
  Lemma names_same l l' : Forall2 member l l' → omap (λ kv, field_no tab kv.1) l = omap (λ kv, field_no tab kv.1) l'.
  Proof using Hfs.
    induction 1 as [|x y l l' Hm _ IH]; [done|]. csimpl. rewrite IH.
    assert (field_no tab x.1 = field_no tab y.1) as ->; [|done].
    destruct Hm as [-> |(name & s & Hin & Hx & Hy & _)]; [done|]. rewrite Forall_forall in Hfs. destruct (Hfs _ Hin) as [E _]. simpl in E.
    destruct Hx as [-> | ->], Hy as [-> | ->]; congruence.
  Qed.
  Lemma members_same l l' acc : Forall2 member l l' → read_members (field_no tab) step l acc = read_members (field_no tab) step l' acc.
  Proof using Hfs.
    intros H. revert acc. induction H as [|[k v] [k' v'] l l' Hm _ IH]; intros acc; [done|]. rewrite !read_cons.
    assert (field_no tab k = field_no tab k' ∧ is_null v = is_null v' ∧ ∀ n, field_no tab k = Some n → step n v acc = step n v' acc) as (E1 & E2 & E3).
    { destruct Hm as [[= <- <-]|(name & s & Hin & Hx & Hy & Hv)]; [done|].
      pose proof Hfs as Hf. rewrite Forall_forall in Hf. destruct (Hf _ Hin) as [E Hs]. simpl in E, Hs, Hx, Hy, Hv.
      assert (field_no tab k = field_no tab name) as -> by (destruct Hx as [-> | ->]; congruence).
      assert (field_no tab k' = field_no tab name) as -> by (destruct Hy as [-> | ->]; congruence).
      split; [done|]. split; [by destruct Hv|]. intros n En. by apply Hs. }
    rewrite <-E1, <-E2. destruct (field_no tab k) as [n|]; [|apply IH]. rewrite <-(E3 n eq_refl).
    destruct (is_null v); [apply IH|]. destruct (step n v acc); [apply IH|done].
  Qed.
  Lemma object_same init j j' : same (Obj fs) j j' → read_object (field_no tab) step init j = read_object (field_no tab) step init j'.
  Proof using Hfs.
    intros Hs. inversion Hs as [|fs' l l' HF|?|?]; subst; [done|]. simpl. rewrite (names_same _ _ HF). by rewrite (members_same _ _ init HF).
  Qed.
End object.

Ltac field_cases :=
  repeat (apply Forall_cons; split; [cbn [fst snd]; split; [reflexivity|]; intros ? v v' acc [= <-] Hv|]); [..|apply Forall_nil; exact I].
Ltac leaf := match goal with H : same Leaf _ _ |- _ => by rewrite (same_leaf _ _ H) end.

Lemma filterable_same c j j' : same filterable_shape j j' → r_filterable c j = r_filterable c j'.
Proof. apply object_same. field_cases; leaf. Qed.
Lemma ticket_same c j j' : same ticket_shape j j' → r_ticket c j = r_ticket c j'.
Proof. apply object_same. field_cases; try leaf. by rewrite (filterable_same c _ _ Hv). Qed.
Lemma assignment_same c j j' : same assignment_shape j j' → r_assignment c j = r_assignment c j'.
Proof. apply object_same. field_cases; leaf. Qed.
Lemma roster_same c j j' : same roster_shape j j' → r_roster c j = r_roster c j'.
Proof.
  apply object_same. field_cases; try leaf.
  - by rewrite (assignment_same c _ _ Hv).
  - by rewrite (list_same _ _ _ _ (ticket_same c) Hv).
Qed.
Lemma tag_filter_same j j' : same (Obj (leaves ["tag"])) j j' → r_tag_filter j = r_tag_filter j'.
Proof. apply object_same. field_cases; leaf. Qed.
Lemma string_filter_same j j' : same (Obj (leaves ["stringArg"; "value"])) j j' → r_string_filter j = r_string_filter j'.
Proof. apply object_same. field_cases; leaf. Qed.
Lemma double_filter_same c j j' : same (Obj (leaves ["doubleArg"; "minimum"; "maximum"; "bounds"])) j j' → r_double_filter c j = r_double_filter c j'.
Proof. apply object_same. field_cases; leaf. Qed.
Lemma time_filter_same c j j' : same (Obj (leaves ["start"; "end"; "bounds"])) j j' → r_time_filter c j = r_time_filter c j'.
Proof. apply object_same. field_cases; leaf. Qed.
Lemma pool_same c j j' : same pool_shape j j' → r_pool c j = r_pool c j'.
Proof.
  apply object_same. field_cases; try leaf.
  - by rewrite (list_same _ _ _ _ tag_filter_same Hv).
  - by rewrite (list_same _ _ _ _ string_filter_same Hv).
  - by rewrite (list_same _ _ _ _ (double_filter_same c) Hv).
  - by rewrite (time_filter_same c _ _ Hv).
  - by rewrite (roster_same c _ _ Hv).
Qed.
Lemma profile_same c j j' : same profile_shape j j' → r_profile c j = r_profile c j'.
Proof. apply object_same. field_cases; try leaf. by rewrite (map_same _ _ _ _ (pool_same c) Hv). Qed.
Lemma match_same c j j' : same match_shape j j' → r_match c j = r_match c j'.
Proof. apply object_same. field_cases; try leaf. by rewrite (map_same _ _ _ _ (roster_same c) Hv). Qed.
Lemma spec_same c j j' : same spec_shape j j' → r_spec c j = r_spec c j'.
Proof. apply object_same. field_cases; leaf. Qed.
Lemma request_same c j j' : same request_shape j j' → r_request c j = r_request c j'.
Proof.
  apply object_same. field_cases.
  - by rewrite (profile_same c _ _ Hv).
  - by rewrite (list_same _ _ _ _ (spec_same c) Hv).
Qed.
Lemma result_same c j j' : same result_shape j j' → r_result c j = r_result c j'.
Proof. apply object_same. field_cases. by rewrite (match_same c _ _ Hv). Qed.
Lemma create_same c j j' : same create_shape j j' → r_create c j = r_create c j'.
Proof. apply object_same. field_cases. by rewrite (ticket_same c _ _ Hv). Qed.
Lemma ids_same j j' : same ids_shape j j' → r_ids j = r_ids j'.
Proof. apply object_same. field_cases; leaf. Qed.
Lemma assign_same c j j' : same assign_shape j j' → r_assign c j = r_assign c j'.
Proof. apply object_same. field_cases. by rewrite (roster_same c _ _ Hv). Qed.
Lemma watch_same c j j' : same watch_shape j j' → r_watch c j = r_watch c j'.
Proof. apply object_same. field_cases; try leaf. by rewrite (assignment_same c _ _ Hv). Qed.
Lemma created_same j j' : same created_shape j j' → r_create_response (Some j) = r_create_response (Some j').
Proof.
  intros Hs. inversion Hs as [|fs l l' HF|?|?]; subst; [done|]. simpl. clear Hs. generalize false at 1 2. generalize "" at 1 2.
  induction HF as [|[k v] [k' v'] l l' Hm _ IH]; intros id seen; [done|].
  assert ((String.eqb k "ticketId" || String.eqb k "ticket_id")%bool = (String.eqb k' "ticketId" || String.eqb k' "ticket_id")%bool ∧ v = v') as [E <-].
  { destruct Hm as [[= <- <-]|(name & s & [= -> ->]%elem_of_list_singleton & Hx & Hy & Hv)]; [done|]. apply same_leaf in Hv. simpl in Hx, Hy, Hv. subst v'.
    split; [|done]. by destruct Hx as [-> | ->], Hy as [-> | ->]. }
  cbn [r_created]. rewrite <-E. destruct (_ || _)%bool; [|done]. destruct seen; [done|]. destruct v; try done; apply IH.
Qed.

Lemma table_text c value table s : (∀ z, value s = Some z ↔ (s, z) ∈ table) → EnumText table (jc_skip_enum c) s (r_enum c value (JText s)).
Proof.
  intros H. unfold EnumText, r_enum. destruct (value s) as [z|] eqn:E; [left; exists z; split; [by apply H|done]|]. right.
  split; [|done]. intros ([s' z] & -> & Hin)%elem_of_list_fmap. apply H in Hin. simpl in *. congruence.
Qed.
Ltac each_text s := repeat match goal with |- context [String.eqb s ?t] => destruct (String.eqb_spec s t) as [-> |]; [simpl|] end.
Lemma bounds_texts c s : EnumText bounds_table (jc_skip_enum c) s (r_enum c bounds_value (JText s)).
Proof.
  apply table_text. intros z. unfold bounds_value, bounds_table. cbn [existsb].
  rewrite !elem_of_cons, elem_of_nil. each_text s; simpl; (split; [intros [= <-]; tauto|]); intros H; destruct_or!; simplify_eq; done.
Qed.
Lemma type_texts c s : EnumText type_table (jc_skip_enum c) s (r_enum c type_value (JText s)).
Proof.
  apply table_text. intros z. unfold type_value, type_table.
  rewrite !elem_of_cons, elem_of_nil. each_text s; simpl; (split; [intros [= <-]; tauto|]); intros H; destruct_or!; simplify_eq; done.
Qed.
