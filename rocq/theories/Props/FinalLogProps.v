(** C148: the line about the cache at the end of om-core's log. *)
From Coq Require Import Ascii String ZArith Lia.
From stdpp Require Import prelude strings gmap.
From Verif.Model Require Import GoStrings Types Cache Replica FinalLog.
From Verif.Proofs Require Import CacheWitness FinalLogLemmas.
Local Open Scope string_scope.

(** The line tells its four numbers. *)
Theorem C148_readable : ∀ n m, final_text n = final_text m → n = m.
Proof. exact final_text_inj. Qed.
Print Assumptions C148_readable.

(** They are the numbers of tickets, of tickets that are not inactive, of inactive ids and of
    assignments, each at its time. *)
Theorem C148_counts : ∀ c1 c2 c3 c4 c5, final_counts c1 c2 c3 c4 c5 =
  Counts (size (dom (c_tickets c1))) (size (dom (c_tickets c3) ∖ c_inactive c2)) (size (c_inactive c4)) (size (dom (c_assign c5))).
Proof. intros. unfold final_counts. by rewrite difference_size, !size_dom. Qed.
Print Assumptions C148_counts.

(** "The tickets are the active and the inactive ones": false, even if nothing changes any
    more, as ids without a ticket can be inactive. *)
Definition C148_adds_up : Prop := ∀ cfg es, let c := hev_run cfg empty_cache es in let n := final_counts c c c c c in
  n_tickets n = (n_active n + n_inactive n)%nat.
Theorem C148_adds_up_refuted : ¬ C148_adds_up.
Proof. intros H. specialize (H w_cfg [HUpd (Update CmdDeactivate w_id "")]). by vm_compute in H. Qed.
Print Assumptions C148_adds_up_refuted.
Theorem C148_adds_up_partial : ∀ c, let n := final_counts c c c c c in
  (n_tickets n + size (c_inactive c ∖ dom (c_tickets c)) = n_active n + n_inactive n)%nat.
Proof. exact adds_up. Qed.
Print Assumptions C148_adds_up_partial.

(** "No more are active than there are": true if nothing changes, false while updates are
    still applied. *)
Definition C148_active : Prop := ∀ c us, (n_active (final_counts c c (apply_updates c us) (apply_updates c us) (apply_updates c us)) <= n_tickets (final_counts c c c c c))%nat.
Theorem C148_active_refuted : ¬ C148_active.
Proof. intros H. specialize (H empty_cache [w_create; w_activate]). vm_compute in H. lia. Qed.
Print Assumptions C148_active_refuted.
Theorem C148_active_partial : ∀ c, (n_active (final_counts c c c c c) <= n_tickets (final_counts c c c c c))%nat.
Proof. intros c. rewrite C148_counts. cbn. apply subseteq_size. set_solver. Qed.
Print Assumptions C148_active_partial.

Example C148_example : let c := apply_updates empty_cache [w_create; Update CmdDeactivate "2000-1" ""; w_activate; Update CmdAssign w_id ""] in
  final_line c c c c c = "Final state of local cache: 1 tickets, 1 active, 1 inactive, 1 assignments".
Proof. vm_compute. reflexivity. Qed.
