(** Proofs for C159: numbers in quotes. *)
From Coq Require Import Ascii String ZArith NArith Lia.
From stdpp Require Import prelude strings gmap.
From Verif.Model Require Import GoStrings Types Wire Proto ProtoMsg JsonMsg.
From Verif.Proofs Require Import NamesLemmas.
Local Open Scope string_scope.
Local Open Scope list_scope.

Lemma members_at {M} canon (step : N → jv → M → option M) pre k n v v' post acc : canon k = Some n → v ≠ JNull → v' ≠ JNull →
  (∀ a, step n v a = step n v' a) → read_members canon step (pre ++ (k, v) :: post) acc = read_members canon step (pre ++ (k, v') :: post) acc.
Proof.
  intros Hk Hv Hv' E. revert acc. induction pre as [|[k0 v0] pre IH]; intros acc.
  - simpl. rewrite Hk, E. by destruct v, v'.
  - simpl. destruct (canon k0); [|apply IH]. destruct v0; try apply IH; destruct (step _ _ acc); try done; apply IH.
Qed.
Lemma object_at {M} canon (step : N → jv → M → option M) init pre k n v v' post : canon k = Some n → v ≠ JNull → v' ≠ JNull →
  (∀ a, step n v a = step n v' a) → read_object canon step init (JDict (pre ++ (k, v) :: post)) = read_object canon step init (JDict (pre ++ (k, v') :: post)).
Proof.
  intros Hk Hv Hv' E. unfold read_object. rewrite (members_at _ _ _ _ _ _ _ _ _ Hk Hv Hv' E). by rewrite !omap_app.
Qed.
Lemma map_at {A} (r : jv → option A) pre k v v' post : r v = r v' → r_map r (JDict (pre ++ (k, v) :: post)) = r_map r (JDict (pre ++ (k, v') :: post)).
Proof.
  intros E. unfold r_map. rewrite !map_app. simpl. destruct (bool_decide _); [|done].
  assert (∀ f : string * jv → option (string * A), f (k, v) = f (k, v') → mapM f (pre ++ (k, v) :: post) = mapM f (pre ++ (k, v') :: post)) as Hm.
  { intros f Hf. induction pre as [|x pre IH]; simpl; [by rewrite Hf|]. destruct (f x); [|done]. simpl. by rewrite IH. }
  rewrite (Hm _); [done|]. simpl. by rewrite E.
Qed.
Lemma double_quoted c t : t ∉ ["NaN"; "Infinity"; "-Infinity"] → r_double c (JText t) = r_double c (JNum t).
Proof.
  intros Ht. simpl. rewrite !not_elem_of_cons in Ht. destruct Ht as (H1 & H2 & H3 & _).
  apply String.eqb_neq in H1 as ->. apply String.eqb_neq in H2 as ->. by apply String.eqb_neq in H3 as ->.
Qed.
Lemma port_quoted c t pre post : r_spec c (JDict (pre ++ ("port", JText t) :: post)) = r_spec c (JDict (pre ++ ("port", JNum t) :: post)).
Proof. by apply object_at with (n := 3%N). Qed.
Lemma filter_quoted c t k pre post : t ∉ ["NaN"; "Infinity"; "-Infinity"] → k = "minimum" ∨ k = "maximum" →
  r_double_filter c (JDict (pre ++ (k, JText t) :: post)) = r_double_filter c (JDict (pre ++ (k, JNum t) :: post)).
Proof.
  intros Ht [-> | ->]; [apply object_at with (n := 2%N)|apply object_at with (n := 3%N)]; try done; intros a; by rewrite (double_quoted _ _ Ht).
Qed.
Lemma attribute_quoted c t k a b pre post : t ∉ ["NaN"; "Infinity"; "-Infinity"] →
  r_filterable c (JDict (pre ++ ("doubleArgs", JDict (a ++ (k, JText t) :: b)) :: post)) =
  r_filterable c (JDict (pre ++ ("doubleArgs", JDict (a ++ (k, JNum t) :: b)) :: post)).
Proof.
  intros Ht. apply object_at with (n := 3%N); try done. intros f. by rewrite (map_at (r_double c) a k _ _ b (double_quoted c t Ht)).
Qed.
