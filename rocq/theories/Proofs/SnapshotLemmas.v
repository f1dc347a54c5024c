(** Snapshots. *)
From Coq Require Import Ascii String ZArith NArith Lia.
From stdpp Require Import prelude strings gmap.
From Verif.Model Require Import GoStrings Types Proto Cache Replica Snapshot.
From Verif.Spec Require Import CacheSpec.
From Verif.Proofs Require Import CacheLemmas HistoryLemmas.

Lemma elem_taken c0 ops s k t :
  (k, t) ∈ taken c0 ops s ↔ k ∈ sn_order s ∧ dumped c0 ops s k = false ∧ seen_ticket c0 ops s k = Some t.
Proof.
  unfold taken. rewrite elem_of_list_omap. split.
  - intros (k' & Hk & He). destruct (dumped c0 ops s k') eqn:Hd; [done|].
    destruct (seen_ticket c0 ops s k') eqn:Ht; [|done]. by simplify_eq.
  - intros (Hk & Hd & Ht). exists k. split; [done|]. by rewrite Hd, Ht.
Qed.

Lemma taken_nodup c0 ops s : NoDup (sn_order s) → NoDup (taken c0 ops s).*1.
Proof.
  unfold taken. induction (sn_order s) as [|k l IH]; intros Hn; [constructor|].
  apply NoDup_cons in Hn as [Hk Hn]. cbn [omap list_omap].
  destruct (dumped c0 ops s k) eqn:Hd; [by apply IH|].
  destruct (seen_ticket c0 ops s k) as [t|] eqn:Ht; [|by apply IH].
  simpl. constructor; [|by apply IH]. intros Hin. apply elem_of_list_fmap in Hin as ([k' t'] & -> & Hin).
  apply elem_of_list_omap in Hin as (k'' & Hk'' & He). simpl in *.
  destruct (dumped c0 ops s k''); [done|]. destruct (seen_ticket c0 ops s k''); [|done]. by simplify_eq.
Qed.

(** C30 *)
Lemma stably_active_taken c0 ops s k t :
  snapshot_ok c0 ops s →
  (∀ i, sn_begin s <= i <= sn_end s →
        c_tickets (cache_at c0 ops i) !! k = Some t ∧ k ∉ c_inactive (cache_at c0 ops i)) →
  (k, t) ∈ taken c0 ops s ∧ NoDup (taken c0 ops s).*1.
Proof.
  intros (H1 & H2 & H3 & H4 & H5 & H6) Hact. split; [|by apply taken_nodup].
  specialize (H3 k). specialize (H4 k).
  assert (seen_ticket c0 ops s k = Some t) as Hs by (apply Hact; lia).
  apply elem_taken. split_and!; [by apply H6; rewrite Hs| |done].
  apply bool_decide_eq_false_2. apply Hact. lia.
Qed.

Lemma stably_inactive_not_taken c0 ops s k t :
  snapshot_ok c0 ops s →
  (∀ i, sn_begin s <= i <= sn_mid s → k ∈ c_inactive (cache_at c0 ops i)) →
  (k, t) ∉ taken c0 ops s.
Proof.
  intros (H1 & H2 & H3 & H4 & H5 & H6) Hin Ht. apply elem_taken in Ht as (_ & Hd & _).
  apply bool_decide_eq_false_1 in Hd. apply Hd, Hin, H3.
Qed.

Lemma taken_was_cached c0 ops s k t :
  snapshot_ok c0 ops s → (k, t) ∈ taken c0 ops s →
  ∃ i, sn_mid s <= i <= sn_end s ∧ c_tickets (cache_at c0 ops i) !! k = Some t.
Proof.
  intros (H1 & H2 & H3 & H4 & H5 & H6) Ht. apply elem_taken in Ht as (_ & _ & Hs).
  exists (sn_at_ticket s k). split; [apply H4|done].
Qed.

Lemma taken_not_inactive c0 ops s k t :
  snapshot_ok c0 ops s → (k, t) ∈ taken c0 ops s →
  ∃ i, sn_begin s <= i <= sn_mid s ∧ k ∉ c_inactive (cache_at c0 ops i).
Proof.
  intros (H1 & H2 & H3 & H4 & H5 & H6) Ht. apply elem_taken in Ht as (_ & Hd & _).
  apply bool_decide_eq_false_1 in Hd. exists (sn_at_inactive s k). split; [apply H3|done].
Qed.

(** C29, partial *)
Lemma inactive_only_by_store c ops k :
  k ∉ c_inactive c → IStore k ∉ ops → k ∉ c_inactive (apply_ops c ops).
Proof.
  revert c. induction ops as [|o ops IH]; intros c Hk Ho; [done|].
  rewrite apply_ops_cons. apply not_elem_of_cons in Ho as [Ho1 Ho2]. apply IH; [|done].
  destruct o; simpl; try done; [|set_solver]. apply not_elem_of_union. split; [|done].
  apply not_elem_of_singleton. congruence.
Qed.

Lemma cache_at_split c0 ops i j :
  i <= j → cache_at c0 ops j = apply_ops (cache_at c0 ops i) (take (j - i) (drop i ops)).
Proof.
  intros Hij. unfold cache_at. rewrite <-apply_ops_app. f_equal.
  rewrite <-(take_drop i (take j ops)). rewrite take_take. rewrite (Nat.min_l i j) by lia.
  f_equal. by rewrite skipn_firstn_comm.
Qed.

Lemma quiet_taken_active c0 ops s k t :
  snapshot_ok c0 ops s → (k, t) ∈ taken c0 ops s →
  IStore k ∉ take (sn_end s - sn_begin s) (drop (sn_begin s) ops) →
  ∃ i, sn_mid s <= i <= sn_end s ∧ Active (cache_at c0 ops i) k.
Proof.
  intros Hok Ht Hq. assert (Hok' := Hok). destruct Hok as (H1 & H2 & H3 & H4 & H5 & H6).
  apply elem_taken in Ht as (_ & Hd & Hs). apply bool_decide_eq_false_1 in Hd.
  exists (sn_at_ticket s k). split; [apply H4|]. split; [by exists t|].
  specialize (H3 k). specialize (H4 k).
  rewrite (cache_at_split c0 ops (sn_at_inactive s k)) by lia.
  apply inactive_only_by_store; [done|]. intros Hin. apply Hq.
  set (a := sn_at_inactive s k) in *. set (b := sn_at_ticket s k) in *.
  apply elem_of_list_lookup in Hin as [i Hi].
  apply lookup_take_Some in Hi as [Hi Hlt]. rewrite lookup_drop in Hi.
  apply elem_of_list_lookup. exists (a + i - sn_begin s). apply lookup_take_Some. split; [|lia].
  rewrite lookup_drop. by replace (sn_begin s + (a + i - sn_begin s)) with (a + i) by lia.
Qed.

(** The full claim. *)
Definition SnapshotOnlyActive : Prop := ∀ cfg es1 es2 s k t,
  let c0 := hev_run cfg empty_cache es1 in
  let ops := hev_ops cfg c0 es2 in
  snapshot_ok c0 ops s → (k, t) ∈ taken c0 ops s →
  ∃ i, sn_begin s <= i <= sn_end s ∧ Active (cache_at c0 ops i) k.

Definition race_update : update := Update CmdTicket "17-1" "".
Definition race : snapshot :=
  Snapshot 0 0 2 (λ _, 0) (λ _, 2) ["17-1"%string].

Lemma race_ok : snapshot_ok empty_cache (update_ops race_update) race.
Proof.
  unfold snapshot_ok. cbn [race sn_begin sn_mid sn_end sn_at_inactive sn_at_ticket sn_order].
  split_and!; try (intros; simpl; lia); try (simpl; lia).
  - apply NoDup_singleton.
  - intros k. rewrite elem_of_list_singleton. unfold seen_ticket, cache_at. simpl. split.
    + intros ->. rewrite lookup_insert. by eexists.
    + intros [t Ht]. apply lookup_insert_Some in Ht as [[-> _]|[_ Ht]]; [done|]. by rewrite lookup_empty in Ht.
Qed.

Lemma snapshot_race : ¬ SnapshotOnlyActive.
Proof.
  intros H.
  destruct (H default_config [] [HUpd race_update] race "17-1"%string
              (stored_ticket "17-1" "")) as (i & Hi & [t Ht] & Hn).
  - exact race_ok.
  - vm_compute. left.
  - simpl in Hi. assert (i = 0 ∨ i = 1 ∨ i = 2) as [->|[->| ->]] by lia.
    + vm_compute in Ht. discriminate Ht.
    + vm_compute in Ht. discriminate Ht.
    + apply Hn. vm_compute. reflexivity.
Qed.

(** ** Ids *)
Definition keys_match (c : cache) : Prop := ∀ k t, c_tickets c !! k = Some t → tk_id t = k.

Lemma run_keys_match cfg es : keys_match (hev_run cfg empty_cache es).
Proof. intros k t Ht. destruct (run_sound cfg es) as (H & _). destruct (H k t Ht) as (v & _ & ->). done. Qed.

(** The operations of the writer over a whole history. *)
Definition ops_match (ops : list mapop) : Prop := ∀ k t, TStore k t ∈ ops → tk_id t = k.

Lemma apply_keys_match c ops : keys_match c → ops_match ops → keys_match (apply_ops c ops).
Proof.
  revert c. induction ops as [|o ops IH]; intros c Hc Ho; [done|]. rewrite apply_ops_cons.
  apply IH; [|intros k t Hk; apply Ho; by right].
  destruct o as [k t|k|k|k|k a|k]; simpl; try done; intros k' t' Ht; simpl in Ht.
  - apply lookup_insert_Some in Ht as [[<- <-]|[_ Ht]]; [apply Ho; left|by apply Hc].
  - apply lookup_delete_Some in Ht as [_ Ht]. by apply Hc.
Qed.

Lemma hev_ops_match cfg es : ∀ c, ops_match (hev_ops cfg c es).
Proof.
  induction es as [|e es IH]; intros c k t; cbn [hev_ops].
  - intros H. by apply elem_of_nil in H.
  - rewrite elem_of_app. intros [H|H]; [|by eapply IH]. destruct e as [u|o].
    + unfold update_ops in H. destruct u as [[] k' v]; simpl in H; set_solver.
    + pose proof (cycle_deletes cfg o c) as Hd. rewrite Forall_forall in Hd. by apply Hd in H.
Qed.

Lemma hev_ops_run cfg es : ∀ c, apply_ops c (hev_ops cfg c es) = hev_run cfg c es.
Proof.
  induction es as [|e es IH]; intros c; [done|]. cbn [hev_ops]. rewrite apply_ops_app.
  replace (apply_ops c _) with (hev_step cfg c e); [apply IH|]. by destruct e.
Qed.

Lemma snapshot_ids_nodup c0 ops s :
  snapshot_ok c0 ops s → (∀ i, keys_match (cache_at c0 ops i)) →
  NoDup (map tk_id (active_tickets c0 ops s)).
Proof.
  intros (_ & _ & _ & _ & Hn & _) Hm.
  assert (map tk_id (active_tickets c0 ops s) = (taken c0 ops s).*1) as ->; [|by apply taken_nodup].
  change (map tk_id (active_tickets c0 ops s)) with (tk_id <$> (taken c0 ops s).*2).
  apply list_eq. intros i. rewrite !list_lookup_fmap.
  destruct (taken c0 ops s !! i) as [[k t]|] eqn:E; [|done]. simpl. f_equal.
  apply elem_of_list_lookup_2, elem_taken in E as (_ & _ & Hs). by apply Hm in Hs.
Qed.

Lemma snapshot_ids_distinct cfg es1 es2 s :
  let c0 := hev_run cfg empty_cache es1 in
  let ops := hev_ops cfg c0 es2 in
  snapshot_ok c0 ops s → NoDup (map tk_id (active_tickets c0 ops s)).
Proof.
  intros c0 ops Hs. apply snapshot_ids_nodup; [done|]. intros i. unfold cache_at.
  apply apply_keys_match; [apply run_keys_match|]. intros k t Hk.
  apply (hev_ops_match cfg es2 c0 k t). apply elem_of_take in Hk as (j & Hj & _). by eapply elem_of_list_lookup_2.
Qed.
