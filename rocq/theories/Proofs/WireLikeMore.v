(** Proofs for C160: updates of other versions in the caches of replicas. *)
From Coq Require Import Ascii String ZArith NArith Lia.
From stdpp Require Import prelude strings gmap.
From Verif.Model Require Import GoStrings Types Wire Proto ProtoMsg MemRepl Cache.
From Verif.Spec Require Import WireLikeSpec.
From Verif.Proofs Require Import WireLemmas DamageLemmas WireLikeLemmas.

(** The same update, with its ticket or assignment encoded by another version. *)
Definition update_like (u u' : update) : Prop :=
  u_cmd u = u_cmd u' ∧ u_key u = u_key u' ∧
  (u_value u = u_value u' ∨
   (u_cmd u = CmdTicket ∧ is_Some (unmarshal_ticket_err (u_value u)) ∧ wlike ticket_w (u_value u) (u_value u')) ∨
   (u_cmd u = CmdAssign ∧ is_Some (unmarshal assignment_step empty_assignment (u_value u)) ∧ wlike assignment_w (u_value u) (u_value u'))).

Lemma update_like_ops u u' : update_like u u' → update_ops u = update_ops u'.
Proof.
  intros (Ec & Ek & H). unfold update_ops. rewrite <-Ec, <-Ek. destruct H as [E|[(E & [t Ht] & Hw)|(E & [a Ha] & Hw)]].
  - by rewrite E.
  - rewrite E. pose proof Ht as Ht'. unfold unmarshal_ticket_err in Ht'. rewrite (ticket_good _ _ _ Hw) in Ht'.
    by rewrite (undamaged_ticket _ _ _ Ht), (undamaged_ticket _ _ _ Ht').
  - rewrite E. pose proof Ha as Ha'. rewrite (assignment_good _ _ _ Hw) in Ha'.
    by rewrite (undamaged_assignment _ _ Ha), (undamaged_assignment _ _ Ha').
Qed.
Lemma updates_like c us us' : Forall2 update_like us us' → apply_updates c us = apply_updates c us'.
Proof.
  intros H. revert c. induction H as [|u u' us us' Hu _ IH]; intros c; [done|].
  unfold apply_updates in *. simpl. unfold apply_update at 2 4. rewrite (update_like_ops _ _ Hu). apply IH.
Qed.
