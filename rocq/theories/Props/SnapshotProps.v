(** Property theorems about the snapshot of active tickets: C29, C30. *)
From Coq Require Import Ascii String ZArith NArith.
From stdpp Require Import prelude strings gmap.
From Verif.Model Require Import GoStrings Types Proto Cache Replica Snapshot.
From Verif.Spec Require Import CacheSpec.
From Verif.Proofs Require Import SnapshotLemmas.

(** C29: the full claim is [SnapshotOnlyActive] (SnapshotLemmas.v). It is false: a
    ticket created after the inactive set was read and before the ticket map is
    read is taken although it was never active. *)
Theorem C29_snapshot_race_refuted : ¬ SnapshotOnlyActive.
Proof. exact snapshot_race. Qed.
Print Assumptions C29_snapshot_race_refuted.

(** Missing from the full claim: ids that are created or deactivated (added to the
    inactive set) while the snapshot is taken. *)
Theorem C29_snapshot_active_partial : ∀ c0 ops s k t,
  snapshot_ok c0 ops s → (k, t) ∈ taken c0 ops s →
  IStore k ∉ take (sn_end s - sn_begin s) (drop (sn_begin s) ops) →
  ∃ i, sn_mid s <= i <= sn_end s ∧ Active (cache_at c0 ops i) k.
Proof. exact quiet_taken_active. Qed.
Print Assumptions C29_snapshot_active_partial.

(** A history with one active and one inactive ticket; during the snapshot the
    first one is deactivated and the second one activated. *)
Definition c29_c0 : cache :=
  apply_updates empty_cache [Update CmdTicket "17-1" ""; Update CmdTicket "17-2" ""; Update CmdActivate "17-1" ""].
Definition c29_ops : list mapop := [IStore "17-1"; IDelete "17-2"].
Definition c29_snap : snapshot :=
  Snapshot 0 2 2 (λ k, if decide (k = "17-2"%string) then 2 else 0) (λ _, 2) ["17-2"; "17-1"]%string.
Lemma c29_snap_ok : snapshot_ok c29_c0 c29_ops c29_snap.
Proof.
  unfold snapshot_ok. cbn [c29_snap sn_begin sn_mid sn_end sn_at_inactive sn_at_ticket sn_order].
  split; [lia|]. split; [simpl; lia|]. split; [intros k; case_decide; lia|]. split; [lia|].
  split; [by apply (bool_decide_eq_true_1 _)|].
  intros k. unfold seen_ticket, cache_at. cbn [sn_at_ticket c29_ops take]. cbn [apply_ops foldl apply_op c_tickets].
  rewrite elem_of_cons, elem_of_list_singleton. split.
  - intros [-> | ->]; eexists; vm_compute; reflexivity.
  - intros [t Ht]. change ((<["17-2"%string := stored_ticket "17-2" ""]>
              (<["17-1"%string := stored_ticket "17-1" ""]> (∅ : gmap string ticket))) !! k = Some t) in Ht.
    apply lookup_insert_Some in Ht as [[<- _]|[_ Ht]]; [by left|].
    apply lookup_insert_Some in Ht as [[<- _]|[_ Ht]]; [by right|]. by rewrite lookup_empty in Ht.
Qed.
Example C29_example :
  snapshot_ok c29_c0 c29_ops c29_snap ∧ (taken c29_c0 c29_ops c29_snap).*1 = ["17-2"; "17-1"]%string ∧
  IStore "17-2" ∉ take 2 (drop 0 c29_ops).
Proof.
  split; [exact c29_snap_ok|]. split; [vm_compute; reflexivity|].
  apply (bool_decide_eq_true_1 _). vm_compute. reflexivity.
Qed.

(** C30: a ticket that is cached and active all the time is taken, and no id is
    taken twice. *)
Theorem C30_stably_active_taken : ∀ c0 ops s k t,
  snapshot_ok c0 ops s →
  (∀ i, sn_begin s <= i <= sn_end s →
        c_tickets (cache_at c0 ops i) !! k = Some t ∧ k ∉ c_inactive (cache_at c0 ops i)) →
  (k, t) ∈ taken c0 ops s ∧ NoDup (taken c0 ops s).*1.
Proof. exact stably_active_taken. Qed.
Print Assumptions C30_stably_active_taken.

(** A ticket that is inactive while the inactive set is read is not taken. *)
Theorem C30_stably_inactive_not_taken : ∀ c0 ops s k t,
  snapshot_ok c0 ops s →
  (∀ i, sn_begin s <= i <= sn_mid s → k ∈ c_inactive (cache_at c0 ops i)) →
  (k, t) ∉ taken c0 ops s.
Proof. exact stably_inactive_not_taken. Qed.
Print Assumptions C30_stably_inactive_not_taken.

(** Every ticket taken was in the ticket map during the traversal of that map, and
    was not marked inactive at some moment of the traversal of the inactive set. *)
Theorem C30_taken_was_cached : ∀ c0 ops s k t,
  snapshot_ok c0 ops s → (k, t) ∈ taken c0 ops s →
  ∃ i, sn_mid s <= i <= sn_end s ∧ c_tickets (cache_at c0 ops i) !! k = Some t.
Proof. exact taken_was_cached. Qed.
Print Assumptions C30_taken_was_cached.

Theorem C30_taken_not_inactive : ∀ c0 ops s k t,
  snapshot_ok c0 ops s → (k, t) ∈ taken c0 ops s →
  ∃ i, sn_begin s <= i <= sn_mid s ∧ k ∉ c_inactive (cache_at c0 ops i).
Proof. exact taken_not_inactive. Qed.
Print Assumptions C30_taken_not_inactive.

(** The tickets taken have different ids, whatever the writer does meanwhile. *)
Theorem C30_ids_distinct : ∀ cfg es1 es2 s,
  let c0 := hev_run cfg empty_cache es1 in
  let ops := hev_ops cfg c0 es2 in
  snapshot_ok c0 ops s → NoDup (map tk_id (active_tickets c0 ops s)).
Proof. exact snapshot_ids_distinct. Qed.
Print Assumptions C30_ids_distinct.

(** The same traversal over a cache that does not change: only the active ticket. *)
Example C30_example :
  (taken c29_c0 [] (Snapshot 0 0 0 (λ _, 0) (λ _, 0) ["17-2"; "17-1"]%string)).*1 = ["17-1"%string] ∧
  snapshot_ok c29_c0 c29_ops c29_snap.
Proof. split; [vm_compute; reflexivity|exact c29_snap_ok]. Qed.
