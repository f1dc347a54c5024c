(** The last line of the log (C148). *)
From Coq Require Import Ascii String ZArith Lia.
From stdpp Require Import prelude strings gmap.
From Verif.Model Require Import GoStrings Types Cache FinalLog.
From Verif.Spec Require Import PageSpec.
From Verif.Proofs Require Import StringLemmas PageText.
Local Open Scope string_scope.

Lemma dec_plain n c : Has c (dec n) → is_digit c = true.
Proof.
  unfold dec. rewrite format_Z_nonneg by lia. generalize (format_N_digits (Z.to_N (Z.of_nat n))). generalize (format_N (Z.to_N (Z.of_nat n))).
  intros s H Hc. revert H. induction Hc as [s|d s Hc IH]; cbn; intros [? ?]%andb_true_iff; auto.
Qed.
Lemma dec_space n : ¬ Has " " (dec n).
Proof. by intros H%dec_plain. Qed.
Lemma dec_inj m n : dec m = dec n → m = n.
Proof. intros E%format_Z_inj_nonneg; lia. Qed.
Lemma same_front a s t : a +:+ s = a +:+ t → s = t.
Proof. induction a as [|c a IH]; [done|]. intros E. apply IH. by injection E. Qed.
Lemma final_text_inj n m : final_text n = final_text m → n = m.
Proof.
  destruct n as [a b c d], m as [a' b' c' d']. unfold final_text. cbn [n_tickets n_active n_inactive n_assigned]. intros E%same_front.
  destruct (cut " " _ ("tickets, " +:+ _) _ ("tickets, " +:+ _) (dec_space a) (dec_space a') E) as [->%dec_inj E1%same_front].
  destruct (cut " " _ ("active, " +:+ _) _ ("active, " +:+ _) (dec_space b) (dec_space b') E1) as [->%dec_inj E2%same_front].
  destruct (cut " " _ ("inactive, " +:+ _) _ ("inactive, " +:+ _) (dec_space c) (dec_space c') E2) as [->%dec_inj E3%same_front].
  by destruct (cut " " _ "assignments" _ "assignments" (dec_space d) (dec_space d') E3) as [->%dec_inj _].
Qed.

Lemma difference_size I (T : gmap string ticket) : length (set_difference I T) = size (dom T ∖ I).
Proof.
  unfold set_difference. rewrite fmap_length. induction T as [|k t T Hk IH] using map_ind.
  - rewrite map_to_list_empty, dom_empty_L. by rewrite (difference_disjoint_L ∅ I) by set_solver.
  - rewrite (filter_Permutation _ _ _ (map_to_list_insert T k t Hk)), filter_cons. cbn [fst]. rewrite dom_insert_L. apply not_elem_of_dom in Hk.
    case_decide as Hi; cbn [length]; rewrite IH.
    + assert (({[k]} ∪ dom T) ∖ I = {[k]} ∪ (dom T ∖ I)) as -> by set_solver.
      pose proof (size_union (C := gset string) {[k]} (dom T ∖ I) ltac:(set_solver)) as ->. by rewrite size_singleton.
    + f_equal. apply leibniz_equiv. intros x. set_solver.
Qed.
Lemma adds_up c : let n := final_counts c c c c c in
  (n_tickets n + size (c_inactive c ∖ dom (c_tickets c)) = n_active n + n_inactive n)%nat.
Proof.
  cbn. rewrite difference_size, <- size_dom. set (T := dom (c_tickets c)). set (I := c_inactive c).
  assert (size T = (size (T ∖ I) + size (T ∩ I))%nat) as E1.
  { rewrite <- size_union by set_solver. f_equal. apply leibniz_equiv. intros x. destruct (decide (x ∈ I)); set_solver. }
  assert (size I = (size (I ∖ T) + size (T ∩ I))%nat) as E2.
  { rewrite <- size_union by set_solver. f_equal. apply leibniz_equiv. intros x. destruct (decide (x ∈ T)); set_solver. }
  lia.
Qed.
