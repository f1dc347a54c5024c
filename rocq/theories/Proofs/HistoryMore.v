(** More lemmas about histories: C07, C19, C24, C57, C58. *)
From Coq Require Import Ascii String ZArith NArith Lia ZifyBool ZifyN.
From stdpp Require Import prelude strings gmap.
From Verif.Model Require Import GoStrings Types Wire Proto Cache Replica Handlers.
From Verif.Spec Require Import FilterSpec HandlerSpec CacheSpec.
From Verif.Proofs Require Import MemLemmas HandlerLemmas CacheLemmas HistoryLemmas.
Local Open Scope string_scope.
Local Open Scope Z_scope.

Local Arguments stored_ticket : simpl never.
Local Arguments unmarshal_assignment : simpl never.
Local Arguments tickets_for : simpl never.
Local Arguments state_cmds_for : simpl never.
Local Arguments assigns_for : simpl never.

(** ** C19 *)
Lemma no_state_no_ticket k u : last (state_cmds_for k [u]) = None → last (tickets_for k [u]) = None.
Proof.
  destruct u as [cm key v]. unfold state_cmds_for, tickets_for. destruct cm; simpl; try done.
  by destruct (decide (key = k)).
Qed.

Lemma run_active cfg es k :
  Active (hev_run cfg empty_cache es) k → last (state_cmds_for k (hev_updates es)) = Some true.
Proof.
  induction es as [|e es IH] using rev_ind.
  - intros [[? ?] _]. done.
  - rewrite hev_run_app, hev_updates_app. destruct e as [u|o]; cbn [hev_run foldl hev_step hev_updates].
    + rewrite state_cmds_for_app, last_app. intros [Ht Hi].
      rewrite update_tickets in Ht. rewrite update_inactive in Hi.
      destruct (last (state_cmds_for k [u])) as [b|] eqn:E.
      * by destruct b.
      * rewrite (no_state_no_ticket k u E) in Ht. apply IH. by split.
    + rewrite app_nil_r. intros Ha. apply IH.
      assert (Hk : k ∉ c_inactive (hev_run cfg empty_cache es)).
      { intros Hk. eapply (expiry_never_revives cfg o _ (length (cycle_ops cfg o (hev_run cfg empty_cache es))) k Hk).
        rewrite firstn_all. exact Ha. }
      split; [|done]. destruct Ha as [[t Ht] _].
      destruct (cycle_tickets cfg o (hev_run cfg empty_cache es) k) as [HN _].
      destruct (c_tickets (hev_run cfg empty_cache es) !! k); [by eexists|]. by rewrite HN in Ht.
Qed.

Lemma inactive_at_birth_update cfg es u n k :
  Active (apply_ops (hev_run cfg empty_cache es) (take n (update_ops u))) k →
  last (state_cmds_for k (hev_updates es ++ (if (n =? 0)%nat then [] else [u]))) = Some true.
Proof.
  destruct n as [|n]; [simpl; rewrite app_nil_r; apply run_active|]. cbn [Nat.eqb].
  assert (Hfull : Active (hev_run cfg empty_cache (es ++ [HUpd u])) k →
                  last (state_cmds_for k (hev_updates es ++ [u])) = Some true).
  { intros H%run_active. by rewrite hev_updates_app in H. }
  rewrite hev_run_app in Hfull. cbn [hev_run foldl hev_step] in Hfull.
  unfold apply_update in Hfull.
  destruct u as [cm key v]. destruct cm; cbn [update_ops u_cmd u_key u_value] in *;
    try (rewrite take_ge by (simpl; lia); exact Hfull).
  destruct n as [|n]; [|rewrite take_ge by (simpl; lia); exact Hfull].
  cbn [take]. rewrite apply_ops_cons. simpl. intros [Ht Hi]. simpl in *.
  assert (key ≠ k) as Hne by set_solver.
  rewrite state_cmds_for_app, last_app.
  replace (last (state_cmds_for k [Update CmdTicket key v])) with (@None bool)
    by (unfold state_cmds_for; simpl; by rewrite decide_False).
  apply (run_active cfg es k). split; [done|set_solver].
Qed.

Lemma inactive_at_birth_cycle cfg es o n k :
  Active (apply_ops (hev_run cfg empty_cache es) (take n (cycle_ops cfg o (hev_run cfg empty_cache es)))) k →
  last (state_cmds_for k (hev_updates es)) = Some true.
Proof.
  intros Ha. apply (run_active cfg es k).
  assert (Hk : k ∉ c_inactive (hev_run cfg empty_cache es)).
  { intros Hk. by eapply (expiry_never_revives cfg o _ n k Hk). }
  split; [|done]. destruct Ha as [[t Ht] _].
  destruct (tickets_after_deletes k (take n (cycle_ops cfg o (hev_run cfg empty_cache es)))
              (hev_run cfg empty_cache es)) as [P1 P2]; [apply Forall_take, cycle_deletes|].
  destruct (decide (TDelete k ∈ take n (cycle_ops cfg o (hev_run cfg empty_cache es)))) as [Hd|Hd].
  - by rewrite P1 in Ht.
  - rewrite P2 in Ht by done. by eexists.
Qed.

(** ** C07, C24 *)
Lemma honest_expires_in_time ttl now t u :
  CreatedFrom ttl now t u → NotFromTheFuture now t →
  ExpiresInTime ttl (u_key u) (stored_ticket (u_key u) (u_value u)).
Proof.
  intros (H1 & H2 & H3 & (o & Ho & Hc) & H5 & H6) Hf.
  destruct (create_ticket_spec ttl now o t H1 H2 H3 Ho) as (v & Hv & Hst).
  assert (v = u_value u) as -> by congruence.
  destruct (Hst H5 (u_key u)) as (_ & _ & a & cr & ex & z & _ & _ & _ & _ & _ & Hex & Hcr & Hz & Hexp).
  unfold ExpiresInTime. rewrite Hex. unfold as_time.
  assert (Hcrle : z <= now).
  { destruct Hcr as [C1 C2]. destruct (client_ctime t) as [c|] eqn:Ec.
    - destruct (decide (ValidTs c)) as [Hvd|Hvd].
      + rewrite (C1 c eq_refl Hvd) in Hz. unfold Denotes in Hz.
        specialize (Hf c Ec Hvd). unfold as_time, giga in Hf. lia.
      + destruct C2 as [Hd _]; [by intros c' [= <-]|]. unfold Denotes in *. lia.
    - destruct C2 as [Hd _]; [done|]. unfold Denotes in *. lia. }
  assert (Hle : ts_seconds ex * giga + ts_nanos ex <= z + ttl * giga).
  { destruct Hexp as [E1 E2]. destruct (tk_exp t) as [e|] eqn:Ee.
    - destruct (decide (ValidTs e)) as [Hvd|Hvd].
      + destruct (decide (as_time (Some e) <= z + ttl * giga)) as [Hle|Hle].
        * rewrite (E1 e (as_time (Some e)) eq_refl Hvd); [exact Hle|done|exact Hle].
        * assert (Denotes ex (z + ttl * 1000000000)) as Hd.
          { apply E2. intros e' z' [= <-] _ Hdz. unfold Denotes, as_time, giga in *. lia. }
          unfold Denotes, giga in *. lia.
      + assert (Denotes ex (z + ttl * 1000000000)) as Hd.
        { apply E2. by intros e' z' [= <-]. }
        unfold Denotes, giga in *. lia.
    - assert (Denotes ex (z + ttl * 1000000000)) as Hd by (by apply E2).
      unfold Denotes, giga in *. lia. }
  assert (now < (unix_secs now + 1) * giga).
  { unfold unix_secs, giga. Z.div_mod_to_equations. lia. }
  unfold giga in *. lia.
Qed.

Lemma gone_after_ttl cfg o c k t :
  orders_fit cfg o c → c_tickets c !! k = Some t → ExpiresInTime (cfg_ticket_ttl cfg) k t →
  (∀ x, x ∈ cycle_visits o → OlderThan (cfg_ticket_ttl cfg) x.2 k) →
  c_tickets (cycle cfg o c) !! k = None.
Proof.
  intros Hf Hk He Hv. destruct (cycle_tickets cfg o c k) as [_ HS]. destruct (HS t Hk) as [H1 _].
  assert (D : Decision (due_at (v_inactive o) (cfg_ticket_ttl cfg) k)).
  { destruct (decide (Exists (λ v : visit, v.1 = k ∧ id_due (cfg_ticket_ttl cfg) v.2 k = true) (v_inactive o))) as [E|E].
    - left. apply Exists_exists in E as ([k' n] & Hin & Hk' & Hd). simpl in *. subst k'. by exists n.
    - right. intros (n & Hin & Hd). apply E. apply Exists_exists. by exists (k, n). }
  destruct D as [D|D]; [apply H1; by left|].
  destruct (proj2 (fit_tickets cfg o c k Hf)) as [n Hn]; [split; [by exists t|done]|].
  apply H1. right. exists n. split; [done|]. apply ticket_due_spec.
  eapply expires_in_time_older; [done|]. apply (Hv (k, n)). unfold cycle_visits. set_solver.
Qed.

Lemma honest_gone_after_ttl cfg es o k now t v :
  CreatedFrom (cfg_ticket_ttl cfg) now t (Update CmdTicket k v) → NotFromTheFuture now t →
  (∀ w, Update CmdTicket k w ∈ hev_updates es → w = v) →
  orders_fit cfg o (hev_run cfg empty_cache es) →
  (∀ x, x ∈ cycle_visits o → OlderThan (cfg_ticket_ttl cfg) x.2 k) →
  c_tickets (cycle cfg o (hev_run cfg empty_cache es)) !! k = None.
Proof.
  intros Hc Hn Hw Hf Hv.
  destruct (c_tickets (hev_run cfg empty_cache es) !! k) as [t0|] eqn:Et.
  - eapply gone_after_ttl; [done|done| |done].
    destruct (run_sound cfg es) as (H1 & _ & _). destruct (H1 k t0 Et) as (w & Hl & ->).
    assert (w = v) as ->.
    { apply Hw. assert (w ∈ tickets_for k (hev_updates es)) as Hin.
      { apply last_Some in Hl as [l ->]. set_solver. }
      unfold tickets_for in Hin. apply elem_of_list_omap in Hin as ([cm key w'] & Hu & Hf').
      simpl in Hf'. destruct cm; try done. destruct (decide (key = k)) as [->|]; [|done]. by injection Hf' as ->. }
    by apply (honest_expires_in_time _ now t (Update CmdTicket k v)).
  - destruct (cycle_tickets cfg o (hev_run cfg empty_cache es) k) as [HN _]. by apply HN.
Qed.

Lemma replicas_agree_honest cfg es1 es2 o1 o2 T :
  hev_updates es1 = hev_updates es2 →
  (∀ x, x ∈ hev_visits es1 → x.2 <= T) → (∀ x, x ∈ hev_visits es2 → x.2 <= T) →
  orders_fit cfg o1 (hev_run cfg empty_cache es1) → orders_fit cfg o2 (hev_run cfg empty_cache es2) →
  at_time T o1 → at_time T o2 →
  (∀ u, u ∈ hev_updates es1 → u_cmd u = CmdTicket →
        ∃ now t, CreatedFrom (cfg_ticket_ttl cfg) now t u ∧ NotFromTheFuture now t) →
  cycle cfg o1 (hev_run cfg empty_cache es1) = cycle cfg o2 (hev_run cfg empty_cache es2).
Proof.
  intros E B1 B2 F1 F2 A1 A2 H. eapply replicas_agree; try done.
  intros u Hu Hc. destruct (H u Hu Hc) as (now & t & H1 & H2). by eapply honest_expires_in_time.
Qed.

(** ** C57, C58 *)
Lemma size_delete_in (m : gmap string ticket) k :
  size (delete k m) = (size m - (if bool_decide (is_Some (m !! k)) then 1 else 0))%nat.
Proof.
  case_bool_decide as H.
  - destruct H as [x Hx]. rewrite map_size_delete. rewrite Hx. lia.
  - rewrite delete_notin; [lia|]. destruct (m !! k); [|done]. exfalso. apply H. by eexists.
Qed.

Lemma size_pos (m : gmap string ticket) k : is_Some (m !! k) → (1 <= size m)%nat.
Proof.
  intros [x Hx]. destruct (size m) eqn:E; [|lia].
  apply map_size_empty_inv in E. subst m. by rewrite lookup_empty in Hx.
Qed.

Lemma pass1_count ttl vs : ∀ c,
  pass1_existed ttl c vs + Z.of_nat (size (c_tickets (apply_ops c (mbind (inactive_visit_ops ttl) vs)))) =
  Z.of_nat (size (c_tickets c)).
Proof.
  induction vs as [|v vs IH]; intros c; [simpl; lia|].
  rewrite bind_cons, apply_ops_app. cbn [pass1_existed].
  specialize (IH (apply_ops c (inactive_visit_ops ttl v))).
  rewrite <-Z.add_assoc, IH. unfold inactive_visit_ops. destruct (id_due ttl v.2 v.1); simpl; [|lia].
  rewrite size_delete_in. case_bool_decide as Hs; [|lia].
  pose proof (size_pos _ _ Hs). lia.
Qed.

Lemma size_of_keys {A} (m : gmap string A) : length (map_to_list m).*1 = size m.
Proof. by rewrite fmap_length. Qed.

Lemma gauges_exact cfg o c :
  orders_fit cfg o c →
  cycle_gauges cfg o c =
    Gauges (Z.of_nat (size (c_tickets c))) (Z.of_nat (size (c_inactive c))) (Z.of_nat (size (c_assign c))).
Proof.
  intros (H1 & H2 & H3). unfold cycle_gauges.
  apply Permutation_length in H1, H2, H3. rewrite !fmap_length in H1.
  rewrite size_of_keys in H2. rewrite fmap_length in H2.
  rewrite size_of_keys in H3. rewrite fmap_length in H3.
  f_equal; [|exact (f_equal Z.of_nat H1)|exact (f_equal Z.of_nat H3)].
  etrans; [|apply (pass1_count (cfg_ticket_ttl cfg) (v_inactive o))].
  f_equal. exact (f_equal Z.of_nat H2).
Qed.

(** The tickets that can appear in pools, and the ids marked inactive without a
    ticket. *)
Definition active_ids (c : cache) : gset string := dom (c_tickets c) ∖ c_inactive c.
Definition dangling_ids (c : cache) : gset string := c_inactive c ∖ dom (c_tickets c).

Lemma active_ids_spec c k : k ∈ active_ids c ↔ Active c k.
Proof. unfold active_ids, Active. by rewrite elem_of_difference, elem_of_dom. Qed.

Lemma active_gauge_exact cfg o c :
  orders_fit cfg o c →
  active_gauge (cycle_gauges cfg o c) =
    Z.of_nat (size (active_ids c)) - Z.of_nat (size (dangling_ids c)).
Proof.
  intros H. rewrite gauges_exact by done. unfold active_gauge. simpl.
  rewrite <-size_dom. unfold active_ids, dangling_ids.
  set (T := dom (c_tickets c)). set (I := c_inactive c).
  assert (E1 : size T = (size (T ∖ I) + size (T ∩ I))%nat).
  { rewrite <-size_union by set_solver. f_equal. apply leibniz_equiv. intros x.
    destruct (decide (x ∈ I)); set_solver. }
  assert (E2 : size I = (size (I ∖ T) + size (T ∩ I))%nat).
  { rewrite <-size_union by set_solver. f_equal. apply leibniz_equiv. intros x.
    destruct (decide (x ∈ T)); set_solver. }
  lia.
Qed.
