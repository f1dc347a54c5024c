(** Snapshots of a history, and what functions receive. *)
From Coq Require Import Ascii String ZArith NArith.
From stdpp Require Import prelude strings gmap relations.
From Verif.Model Require Import GoStrings Types Filter Wire Proto Cache Replica Handlers Snapshot Chunk System.
From Verif.Spec Require Import HandlerSpec CacheSpec ChunkSpec SystemSpec EndToEndSpec.
From Verif.Proofs Require Import CacheLemmas HistoryLemmas HistoryMore SnapshotLemmas HandlerLemmas HandlerMore ChunkLemmas ChunkMore MemSystemMore.

(** ** Points inside a run *)
Lemma cache_at_app c o1 o2 i :
  cache_at c (o1 ++ o2) i =
    if decide (i <= length o1) then cache_at c o1 i else cache_at (apply_ops c o1) o2 (i - length o1).
Proof.
  unfold cache_at. destruct (decide (i <= length o1)) as [H|H].
  - by rewrite take_app_le.
  - rewrite take_app_ge by lia. by rewrite apply_ops_app.
Qed.

Lemma keep_ops c ops k t :
  c_tickets c !! k = Some t → k ∉ c_inactive c →
  (∀ t', TStore k t' ∉ ops) → TDelete k ∉ ops → IStore k ∉ ops →
  c_tickets (apply_ops c ops) !! k = Some t ∧ k ∉ c_inactive (apply_ops c ops).
Proof.
  revert c. induction ops as [|o ops IH]; intros c Ht Hi H1 H2 H3; [done|]. rewrite apply_ops_cons.
  apply not_elem_of_cons in H2 as [H2 H2']. apply not_elem_of_cons in H3 as [H3 H3'].
  assert (H1' : ∀ t', TStore k t' ∉ ops) by (intros t' Hx; apply (H1 t'); by right).
  apply IH; try done.
  - destruct o as [k' t'|k'|k'|k'|k' a|k']; simpl; try done.
    + rewrite lookup_insert_ne; [done|]. intros ->. apply (H1 t'). left.
    + rewrite lookup_delete_ne; [done|]. congruence.
  - destruct o as [k' t'|k'|k'|k'|k' a|k']; simpl; try done; [|set_solver].
    apply not_elem_of_union. split; [|done]. apply not_elem_of_singleton. congruence.
Qed.

Lemma take_not_elem {A} (x : A) n l : x ∉ l → x ∉ take n l.
Proof. intros H Hx. apply H. apply elem_of_take in Hx as (j & Hj & _). by eapply elem_of_list_lookup_2. Qed.

(** The ticket stays in place, active, at every point of a run that has no new
    ticket and no deactivation for its id and in which it does not expire. *)
Lemma stays_active cfg es : ∀ c k v i,
  c_tickets c !! k = Some (stored_ticket k v) → k ∉ c_inactive c →
  tickets_for k (hev_updates es) = [] →
  (∀ w, Update CmdDeactivate k w ∉ hev_updates es) →
  (∀ x, x ∈ hev_visits es → ¬ OlderThan (cfg_ticket_ttl cfg) x.2 k ∧ ¬ ExpiredAt x.2 (stored_ticket k v)) →
  c_tickets (cache_at c (hev_ops cfg c es) i) !! k = Some (stored_ticket k v) ∧
  k ∉ c_inactive (cache_at c (hev_ops cfg c es) i).
Proof.
  induction es as [|e es IH]; intros c k v i Ht Hi Hn Hd Hv.
  { cbn [hev_ops]. unfold cache_at. by rewrite take_nil. }
  cbn [hev_ops].
  set (o1 := match e with HUpd u => update_ops u | HCycle o => cycle_ops cfg o c end).
  assert (Hs : apply_ops c o1 = hev_step cfg c e) by (by destruct e).
  assert (Hk : ∀ n, c_tickets (cache_at c o1 n) !! k = Some (stored_ticket k v) ∧ k ∉ c_inactive (cache_at c o1 n)).
  { intros n. destruct e as [u|o].
    - assert (H1 : ∀ t', TStore k t' ∉ o1).
      { intros t' Hx. unfold o1, update_ops in Hx. destruct u as [[] k' w]; simpl in *; try set_solver.
        assert (k' = k) as -> by set_solver. rewrite decide_True in Hn by done. done. }
      assert (H2 : TDelete k ∉ o1).
      { intros Hx. unfold o1, update_ops in Hx. destruct u as [[] k' w]; simpl in *; set_solver. }
      assert (H3 : IStore k ∉ o1).
      { intros Hx. unfold o1, update_ops in Hx. destruct u as [[] k' w]; simpl in *; set_solver. }
      apply keep_ops; try done; try (by apply take_not_elem). intros t'. by apply take_not_elem.
    - pose proof (cycle_deletes cfg o c) as Hdel. rewrite Forall_forall in Hdel.
      assert (Hvs : ∀ m, (k, m) ∈ cycle_visits o → ¬ OlderThan (cfg_ticket_ttl cfg) m k ∧ ¬ ExpiredAt m (stored_ticket k v)).
      { intros m Hm. apply (Hv (k, m)). cbn [hev_visits]. apply elem_of_app. by left. }
      apply keep_ops; try done.
      + intros t'. apply take_not_elem. intros Hx. by apply Hdel in Hx.
      + apply take_not_elem. unfold o1, cycle_ops. rewrite !elem_of_app, elem_pass1, elem_pass2, elem_pass3.
        intros [(k' & n' & H1 & H2 & [[= <-]|?])|[(k' & n' & t' & H1 & H2 & H3 & [= <-])|(?&?&?&?&?)]]; try done.
        * destruct (Hvs n') as [Ha _]; [unfold cycle_visits; set_solver|]. apply Ha. by apply id_due_spec.
        * destruct (Hvs n') as [_ Ha]; [unfold cycle_visits; set_solver|]. apply Ha.
          assert (t' = stored_ticket k v) as ->; [|by apply ticket_due_spec].
          assert (Hp : Forall is_delete (pass1_ops (cfg_ticket_ttl cfg) o)) by apply pass1_deletes.
          destruct (tickets_after_deletes k _ c Hp) as [Hx1 Hx2].
          destruct (decide (TDelete k ∈ pass1_ops (cfg_ticket_ttl cfg) o)) as [Hy|Hy].
          -- rewrite (Hx1 Hy) in H2. done.
          -- rewrite (Hx2 Hy) in H2. congruence.
      + apply take_not_elem. intros Hx. by apply Hdel in Hx. }
  rewrite cache_at_app. destruct (decide (i <= length o1)); [apply Hk|].
  assert (Hend : cache_at c o1 (length o1) = apply_ops c o1) by (unfold cache_at; by rewrite firstn_all).
  destruct (Hk (length o1)) as [Hk1 Hk2]. rewrite Hend, Hs in Hk1, Hk2. rewrite Hs. apply IH; try done.
  - destruct e as [u|o]; [|done]. change (hev_updates (HUpd u :: es)) with ([u] ++ hev_updates es) in Hn.
    rewrite tickets_for_app in Hn. by apply app_eq_nil in Hn as [_ ?].
  - intros w Hw. apply (Hd w). destruct e as [u|o]; [by right|done].
  - intros x Hx. apply Hv. destruct e as [u|o]; [done|]. cbn [hev_visits]. apply elem_of_app. by right.
Qed.

(** Every ticket seen by a snapshot was applied from the history. *)
Lemma store_from_history cfg es : ∀ c k t,
  TStore k t ∈ hev_ops cfg c es → ∃ v, Update CmdTicket k v ∈ hev_updates es ∧ t = stored_ticket k v.
Proof.
  induction es as [|e es IH]; intros c k t; cbn [hev_ops].
  - intros H. by apply elem_of_nil in H.
  - rewrite elem_of_app. intros [H|H].
    + destruct e as [u|o].
      * unfold update_ops in H. destruct u as [[] k' w]; simpl in *; set_solver.
      * pose proof (cycle_deletes cfg o c) as Hdel. rewrite Forall_forall in Hdel. by apply Hdel in H.
    + apply IH in H as (v & Hv & ->). exists v. split; [|done]. destruct e; [by right|done].
Qed.

Lemma ticket_by_store ops : ∀ c k t,
  c_tickets (apply_ops c ops) !! k = Some t → c_tickets c !! k = Some t ∨ TStore k t ∈ ops.
Proof.
  induction ops as [|o ops IH]; intros c k t Ht; [by left|]. rewrite apply_ops_cons in Ht.
  apply IH in Ht as [Ht|Ht]; [|right; by right].
  destruct o as [k' t'|k'|k'|k'|k' a|k']; simpl in Ht; try by left.
  - apply lookup_insert_Some in Ht as [[-> ->]|[_ Ht]]; [right; left|by left].
  - apply lookup_delete_Some in Ht as [_ Ht]. by left.
Qed.

Lemma snapshot_source cfg es1 es2 sn t :
  let c0 := hev_run cfg empty_cache es1 in
  let ops := hev_ops cfg c0 es2 in
  t ∈ active_tickets c0 ops sn →
  ∃ v, Update CmdTicket (tk_id t) v ∈ hev_updates (es1 ++ es2) ∧ t = stored_ticket (tk_id t) v.
Proof.
  intros c0 ops Ht. unfold active_tickets in Ht. apply elem_of_list_fmap in Ht as ([k t'] & -> & Ht). simpl.
  apply elem_taken in Ht as (_ & _ & Hs). unfold seen_ticket, cache_at in Hs.
  rewrite hev_updates_app.
  apply ticket_by_store in Hs as [Hs|Hs].
  - destruct (run_sound cfg es1) as (H & _). apply H in Hs as (v & Hv & ->). change (tk_id (stored_ticket k v)) with k.
    exists v. split; [|done]. apply elem_of_app. left. apply tickets_for_elem. by apply last_Some_elem_of.
  - assert (Hs' : TStore k t' ∈ ops).
    { apply elem_of_take in Hs as (j & Hj & _). by eapply elem_of_list_lookup_2. }
    apply store_from_history in Hs' as (v & Hv & ->). change (tk_id (stored_ticket k v)) with k.
    exists v. split; [|done]. apply elem_of_app. by right.
Qed.

(** ** What functions get *)
Lemma create_call_stored cfg cl now req v id :
  SaneTTL (cfg_ticket_ttl cfg) → CreateCall cfg cl now req → Creates cl v →
  StoredAs (cfg_ticket_ttl cfg) now id req (stored_ticket id v) ∧
  ∀ q, filter_in (Some q) (tk_attrs (stored_ticket id v)) ≠ Panic.
Proof.
  intros Httl (Hn & Hok & o & v' & Ho & Hc & Hl & Hcr) Hv. unfold Creates in *.
  assert (v' = v) as -> by congruence. split.
  - destruct (create_ticket_spec _ _ _ _ Httl Hn Hok Ho) as (v' & Hc' & Hst).
    assert (v' = v) as -> by congruence. by apply Hst.
  - intros q. destruct (stored_no_panic _ _ _ _ id _ q Httl Hn Hok Ho Hc Hl) as [b ->]. done.
Qed.

Lemma functions_get p ts got :
  NoFilterPanic p ts → CountFits p ts → FunctionGets p ts got →
  pr_name got = pr_name p ∧ pr_ext got = pr_ext p ∧ ∀ n, PoolTickets got n = filter (Eligible p n) ts.
Proof.
  intros Hp Hf (tsn & cs & rcs & <- & Hnf & Hb & Hcs & Hfit & Hg).
  unfold CountFits in Hf. rewrite map_length in Hf.
  destruct (chunks_transfer ticket_size max_pb_size (empty_chunk_size p) p tsn Hnf Hp Hf) as (rs & Hrs & Ht).
  unfold build_requests in Hb. rewrite Hrs in Hb. injection Hb as <-.
  destruct (Ht rcs Hcs Hfit) as (pools & Hg' & Hpools).
  assert (got = Profile (pr_name p) pools (pr_ext p)) as -> by congruence.
  split; [done|]. split; [done|]. intros n. unfold PoolTickets. cbn [pr_pools]. rewrite Hpools.
  destruct (filter (Eligible p n) tsn.*1) as [|a l]; done.
Qed.

Lemma functions_served p tsn :
  NamesFit p tsn → NoFilterPanic p tsn.*1 → CountFits p tsn.*1 →
  ∃ cs, build_requests p tsn = Done cs ∧
    ∀ rcs, rcs.*1 = cs → pool_orders_fit rcs → ∃ got, get_chunked_request rcs = Done (Received got).
Proof.
  intros Hnf Hp Hf. unfold CountFits in Hf. rewrite map_length in Hf.
  destruct (chunks_transfer ticket_size max_pb_size (empty_chunk_size p) p tsn Hnf Hp Hf) as (rs & Hrs & Ht).
  exists (requests_of p rs). unfold build_requests. rewrite Hrs. split; [done|].
  intros rcs Hcs Hfit. destruct (Ht rcs Hcs Hfit) as (pools & Hg & _). by eexists.
Qed.

(** ** Tickets that are not offered *)

(** [k] is inactive or not there. *)
Definition hidden (c : cache) (k : string) : Prop := k ∈ c_inactive c ∨ c_tickets c !! k = None.

(** Operations that keep it so, at every point: no ticket is stored, and it is made
    active only right after the ticket has been deleted. *)
Inductive hiding (k : string) : list mapop → Prop :=
| H_nil : hiding k []
| H_other o ops : (∀ t, o ≠ TStore k t) → o ≠ IDelete k → hiding k ops → hiding k (o :: ops)
| H_pair ops : hiding k ops → hiding k (TDelete k :: IDelete k :: ops).

Lemma hiding_app k o1 o2 : hiding k o1 → hiding k o2 → hiding k (o1 ++ o2).
Proof. induction 1; intros Ho; simpl; [done|by constructor; auto|by apply H_pair; auto]. Qed.

Lemma hiding_others k ops : (∀ t, TStore k t ∉ ops) → IDelete k ∉ ops → hiding k ops.
Proof.
  induction ops as [|o ops IH]; intros H1 H2; [constructor|]. apply not_elem_of_cons in H2 as [H2 H2']. apply H_other.
  - intros t ->. apply (H1 t). left.
  - congruence.
  - apply IH; [|done]. intros t Ht. apply (H1 t). by right.
Qed.

Lemma hidden_step c k o : (∀ t, o ≠ TStore k t) → o ≠ IDelete k → hidden c k → hidden (apply_op c o) k.
Proof.
  intros H1 H2 [Hh|Hh]; destruct o as [k' t'|k'|k'|k'|k' a|k']; simpl; try (left; by simpl); try (right; by simpl).
  - left. simpl. set_solver.
  - left. simpl. apply elem_of_difference. split; [done|]. apply not_elem_of_singleton. congruence.
  - right. simpl. rewrite lookup_insert_ne; [done|]. intros ->. by apply (H1 t').
  - right. simpl. by apply lookup_delete_None; right.
Qed.

Lemma hiding_at k ops : hiding k ops → ∀ c i, hidden c k → hidden (cache_at c ops i) k.
Proof.
  unfold cache_at. induction 1 as [|o ops H1 H2 Ho IH|ops Ho IH]; intros c i Hh.
  - by rewrite take_nil.
  - destruct i as [|i]; [done|]. cbn [take]. rewrite apply_ops_cons. apply IH. by apply hidden_step.
  - destruct i as [|i]; [done|]. cbn [take]. rewrite apply_ops_cons.
    assert (Hd : hidden (apply_op c (TDelete k)) k) by (right; simpl; by rewrite lookup_delete).
    destruct i as [|i]; [done|]. cbn [take]. rewrite apply_ops_cons. apply IH. right. simpl. by rewrite lookup_delete.
Qed.

Lemma cycle_hiding cfg o c k : hiding k (cycle_ops cfg o c).
Proof.
  unfold cycle_ops. apply hiding_app; [|apply hiding_app; apply hiding_others].
  - unfold pass1_ops. induction (v_inactive o) as [|[k' n] l IH]; [constructor|].
    cbn [mbind list_bind]. apply hiding_app; [|exact IH]. unfold inactive_visit_ops. simpl.
    destruct (id_due _ n k'); [|constructor]. destruct (decide (k' = k)) as [->|Hne]; [apply H_pair; constructor|].
    apply hiding_others; set_solver.
  - intros t. rewrite elem_pass2. by intros (?&?&?&?&?&?&?).
  - rewrite elem_pass2. by intros (?&?&?&?&?&?&?).
  - intros t. rewrite elem_pass3. by intros (?&?&?&?&?).
  - rewrite elem_pass3. by intros (?&?&?&?&?).
Qed.

Lemma run_hiding cfg es : ∀ c k,
  tickets_for k (hev_updates es) = [] → (∀ w, Update CmdActivate k w ∉ hev_updates es) →
  hiding k (hev_ops cfg c es) ∧ ∀ t, TStore k t ∉ hev_ops cfg c es.
Proof.
  intros c k Hn Ha. assert (Hs : ∀ t, TStore k t ∉ hev_ops cfg c es).
  { intros t Ht. apply store_from_history in Ht as (v & Hv & _).
    assert (v ∈ tickets_for k (hev_updates es)) as Hx; [|rewrite Hn in Hx; by apply elem_of_nil in Hx].
    unfold tickets_for. apply elem_of_list_omap. eexists. split; [exact Hv|]. simpl. by rewrite decide_True. }
  split; [|done]. clear Hn. revert c Hs. induction es as [|e es IH]; intros c Hs; [constructor|].
  cbn [hev_ops] in *. apply hiding_app.
  - destruct e as [u|o]; [|apply cycle_hiding]. apply hiding_others.
    + intros t Ht. apply (Hs t). apply elem_of_app. by left.
    + unfold update_ops. destruct u as [[] k' w]; simpl; set_solver.
  - apply IH.
    + intros w Hw. apply (Ha w). destruct e; [by right|done].
    + intros t Ht. apply (Hs t). apply elem_of_app. by right.
Qed.

Lemma hidden_not_taken cfg c es k sn t :
  hidden c k → tickets_for k (hev_updates es) = [] → (∀ w, Update CmdActivate k w ∉ hev_updates es) →
  snapshot_ok c (hev_ops cfg c es) sn → (k, t) ∉ taken c (hev_ops cfg c es) sn.
Proof.
  intros Hh Hn Ha (H1 & H2 & H3 & H4 & H5 & H6) Ht.
  destruct (run_hiding cfg es c k Hn Ha) as [Hhd Hs].
  apply elem_taken in Ht as (_ & Hd & Hseen). apply bool_decide_eq_false_1 in Hd.
  destruct (hiding_at _ _ Hhd c (sn_at_inactive sn k) Hh) as [Hx|Hx]; [done|].
  specialize (H3 k). specialize (H4 k). unfold seen_ticket in Hseen.
  rewrite (cache_at_split c _ (sn_at_inactive sn k)) in Hseen by lia.
  apply ticket_by_store in Hseen as [Hy|Hy]; [congruence|].
  apply (Hs t). apply elem_of_take in Hy as (j & Hj & _). rewrite lookup_drop in Hj. by eapply elem_of_list_lookup_2.
Qed.

Lemma not_offered cfg es1 es2 sn k :
  let c0 := hev_run cfg empty_cache es1 in
  let ops := hev_ops cfg c0 es2 in
  snapshot_ok c0 ops sn →
  last (state_cmds_for k (hev_updates es1)) ≠ Some true →
  tickets_for k (hev_updates es2) = [] → (∀ w, Update CmdActivate k w ∉ hev_updates es2) →
  ∀ t, t ∈ active_tickets c0 ops sn → tk_id t ≠ k.
Proof.
  intros c0 ops Hok Hl Hn Ha t Ht <-.
  unfold active_tickets in Ht. apply elem_of_list_fmap in Ht as ([k t'] & -> & Ht). cbn [fst snd] in *.
  assert (tk_id t' = k) as Hk.
  { apply elem_taken in Ht as (_ & _ & Hs). unfold seen_ticket, cache_at in Hs.
    assert (Hkm : keys_match (apply_ops c0 (take (sn_at_ticket sn k) ops))); [|by apply Hkm in Hs].
    apply apply_keys_match; [apply run_keys_match|]. intros k' t'' Hx.
    apply (hev_ops_match cfg es2 c0 k' t''). apply elem_of_take in Hx as (j & Hj & _). by eapply elem_of_list_lookup_2. }
  rewrite Hk in *. revert Ht. eapply hidden_not_taken; try done.
  destruct (decide (k ∈ c_inactive c0)) as [|Hi]; [by left|].
  destruct (c_tickets c0 !! k) as [t0|] eqn:Et; [|by right]. exfalso. apply Hl. eapply run_active.
  split; [by eexists|exact Hi].
Qed.
