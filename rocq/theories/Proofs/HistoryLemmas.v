(** Lemmas about histories of updates and expiration cycles. *)
From Coq Require Import Ascii String ZArith NArith Lia ZifyBool ZifyN.
From stdpp Require Import prelude strings gmap.
From Verif.Model Require Import GoStrings Types Proto Cache Replica.
From Verif.Spec Require Import CacheSpec.
From Verif.Proofs Require Import MemLemmas CacheLemmas.
Local Open Scope Z_scope.

Local Arguments stored_ticket : simpl never.
Local Arguments unmarshal_assignment : simpl never.

(** ** Updates only *)

Lemma apply_updates_app c us1 us2 :
  apply_updates c (us1 ++ us2) = apply_updates (apply_updates c us1) us2.
Proof. apply foldl_app. Qed.

Lemma tickets_for_app k us1 us2 : tickets_for k (us1 ++ us2) = tickets_for k us1 ++ tickets_for k us2.
Proof. apply omap_app. Qed.
Lemma state_cmds_for_app k us1 us2 :
  state_cmds_for k (us1 ++ us2) = state_cmds_for k us1 ++ state_cmds_for k us2.
Proof. apply omap_app. Qed.
Lemma assigns_for_app k us1 us2 : assigns_for k (us1 ++ us2) = assigns_for k us1 ++ assigns_for k us2.
Proof. apply omap_app. Qed.

(** The effect of one update on key [k]. *)
Lemma update_tickets c u k :
  c_tickets (apply_update c u) !! k =
    match last (tickets_for k [u]) with
    | Some v => Some (stored_ticket k v)
    | None => c_tickets c !! k
    end.
Proof.
  destruct u as [cm key v]. unfold tickets_for. destruct cm; simpl; try done.
  destruct (decide (key = k)) as [->|Hne]; simpl.
  - by rewrite lookup_insert.
  - by rewrite lookup_insert_ne.
Qed.

Lemma update_inactive c u k :
  k ∈ c_inactive (apply_update c u) ↔
    match last (state_cmds_for k [u]) with
    | Some b => b = false
    | None => k ∈ c_inactive c
    end.
Proof.
  destruct u as [cm key v]. unfold state_cmds_for. simpl.
  destruct (decide (key = k)) as [->|Hne]; destruct cm; simpl; set_solver.
Qed.

Lemma update_assign c u k :
  c_assign (apply_update c u) !! k =
    match last (assigns_for k [u]) with
    | Some v => Some (unmarshal_assignment v)
    | None => c_assign c !! k
    end.
Proof.
  destruct u as [cm key v]. unfold assigns_for. destruct cm; simpl; try done.
  destruct (decide (key = k)) as [->|Hne]; simpl.
  - by rewrite lookup_insert.
  - by rewrite lookup_insert_ne.
Qed.

Lemma last_app_match {A} (l1 l2 : list A) :
  last (l1 ++ l2) = match last l2 with Some x => Some x | None => last l1 end.
Proof. apply last_app. Qed.

(** C20, as equations. *)
Lemma updates_char us :
  let c := apply_updates empty_cache us in
  (∀ k, c_tickets c !! k = stored_ticket k <$> last (tickets_for k us)) ∧
  (∀ k, k ∈ c_inactive c ↔ last (state_cmds_for k us) = Some false) ∧
  (∀ k, c_assign c !! k = unmarshal_assignment <$> last (assigns_for k us)).
Proof.
  induction us as [|u us (H1 & H2 & H3)] using rev_ind.
  - split_and!; intros k; simpl; [done|set_solver|done].
  - intros c. unfold c. rewrite apply_updates_app. simpl. split_and!; intros k.
    + rewrite update_tickets, tickets_for_app, last_app_match, H1.
      by destruct (last (tickets_for k [u])).
    + rewrite update_inactive, state_cmds_for_app, last_app_match.
      destruct (last (state_cmds_for k [u])) as [b|]; [|apply H2]. split; [by intros ->|by intros [= ->]].
    + rewrite update_assign, assigns_for_app, last_app_match, H3.
      by destruct (last (assigns_for k [u])).
Qed.

Lemma last_not_nil {A} (l : list A) : l ≠ [] ↔ is_Some (last l).
Proof.
  destruct l as [|x l]; simpl; [split; [done|by intros [? ?]]|].
  split; [|done]. intros _. revert x. induction l as [|y l IH]; intros x; simpl; [by eexists|apply IH].
Qed.

Lemma ticket_then_state k us : tickets_for k us ≠ [] → state_cmds_for k us ≠ [].
Proof.
  induction us as [|[cm key v] us IH]; [done|].
  change (Update cm key v :: us) with ([Update cm key v] ++ us).
  rewrite tickets_for_app, state_cmds_for_app. intros H Hn.
  apply app_eq_nil in Hn as [Hn1 Hn2]. apply IH; [|done]. intros Ht. apply H. rewrite Ht, app_nil_r.
  unfold tickets_for, state_cmds_for in *. destruct cm; simpl in *; try done.
  by destruct (decide (key = k)).
Qed.

Lemma last_command_wins us k :
  Active (apply_updates empty_cache us) k ↔
    tickets_for k us ≠ [] ∧ last (state_cmds_for k us) = Some true.
Proof.
  destruct (updates_char us) as (H1 & H2 & _). unfold Active. rewrite H1, H2, last_not_nil, fmap_is_Some.
  split.
  - intros [Ht Hs]. split; [done|].
    assert (is_Some (last (state_cmds_for k us))) as [b Hb].
    { apply last_not_nil, ticket_then_state. by apply last_not_nil. }
    rewrite Hb. destruct b; [done|]. by rewrite Hb in Hs.
  - intros [Ht Hs]. split; [done|]. by rewrite Hs.
Qed.

(** Commands for other ids have no influence. *)
Definition for_key (k : string) (us : list update) : list update := filter (λ u, u_key u = k) us.

Lemma for_key_tickets k us : tickets_for k (for_key k us) = tickets_for k us.
Proof.
  induction us as [|[cm key v] us IH]; [done|]. unfold for_key in *. rewrite filter_cons.
  destruct (decide (u_key (Update cm key v) = k)) as [E|E]; simpl in *; unfold tickets_for in *; simpl.
  - by rewrite IH.
  - rewrite IH. destruct cm; simpl; try done. by rewrite decide_False.
Qed.
Lemma for_key_states k us : state_cmds_for k (for_key k us) = state_cmds_for k us.
Proof.
  induction us as [|[cm key v] us IH]; [done|]. unfold for_key in *. rewrite filter_cons.
  destruct (decide (u_key (Update cm key v) = k)) as [E|E]; simpl in *; unfold state_cmds_for in *; simpl.
  - by rewrite IH.
  - rewrite IH. by rewrite decide_False.
Qed.

Lemma other_ids_irrelevant us us' k :
  for_key k us = for_key k us' →
  c_tickets (apply_updates empty_cache us) !! k = c_tickets (apply_updates empty_cache us') !! k ∧
  (k ∈ c_inactive (apply_updates empty_cache us) ↔ k ∈ c_inactive (apply_updates empty_cache us')).
Proof.
  intros E. destruct (updates_char us) as (H1 & H2 & _). destruct (updates_char us') as (H1' & H2' & _).
  rewrite H1, H1', H2, H2'.
  rewrite <-(for_key_tickets k us), <-(for_key_states k us), E, for_key_tickets, for_key_states. done.
Qed.

Lemma updates_never_remove us us' k :
  is_Some (c_tickets (apply_updates empty_cache us) !! k) →
  is_Some (c_tickets (apply_updates empty_cache (us ++ us')) !! k).
Proof.
  destruct (updates_char us) as (H1 & _). destruct (updates_char (us ++ us')) as (H1' & _).
  rewrite H1, H1', !fmap_is_Some, tickets_for_app, last_app_match.
  intros H. by destruct (last (tickets_for k us')); [eexists|].
Qed.

(** ** C21 *)

Definition t_before_i (os : list mapop) : Prop :=
  ∀ l1 k l2, os = l1 ++ IDelete k :: l2 → TDelete k ∈ l1.

Lemma t_before_i_no_idelete os : (∀ k, IDelete k ∉ os) → t_before_i os.
Proof. intros H l1 k l2 ->. destruct (H k). set_solver. Qed.

Lemma t_before_i_app os1 os2 : t_before_i os1 → t_before_i os2 → t_before_i (os1 ++ os2).
Proof.
  intros H1 H2 l1 k l2 E. apply app_eq_app in E as (l & [[-> E]|[-> E]]).
  - destruct l as [|x l]; simpl in E.
    + rewrite app_nil_r in *. apply (H2 [] k l2) in E || (symmetry in E; apply (H2 [] k l2) in E).
      by apply elem_of_nil in E.
    + injection E as <- E. by apply (H1 l1 k l).
  - apply H2 in E. set_solver.
Qed.

Lemma t_before_i_pass1 ttl vs : t_before_i (mbind (inactive_visit_ops ttl) vs).
Proof.
  induction vs as [|v vs IH].
  - apply t_before_i_no_idelete. intros k. apply not_elem_of_nil.
  - rewrite bind_cons. apply t_before_i_app; [|done].
    unfold inactive_visit_ops. destruct (id_due ttl v.2 v.1).
    + intros l1 k l2 E. destruct l1 as [|x [|y l1]]; simplify_eq/=.
      * apply elem_of_list_here.
      * destruct l1; done.
    + apply t_before_i_no_idelete. intros k. apply not_elem_of_nil.
Qed.

Lemma t_before_i_cycle cfg o c : t_before_i (cycle_ops cfg o c).
Proof.
  unfold cycle_ops. apply t_before_i_app; [apply t_before_i_pass1|].
  apply t_before_i_no_idelete. intros k. rewrite elem_of_app, elem_pass2, elem_pass3.
  intros [(?&?&?&?&?&?&?)|(?&?&?&?&?)]; done.
Qed.

Lemma t_before_i_prefix os n : t_before_i os → t_before_i (take n os).
Proof.
  intros H l1 k l2 E. apply (H l1 k (l2 ++ drop n os)).
  rewrite <-(take_drop n os) at 1. rewrite E. by rewrite <-app_assoc.
Qed.

Lemma expiry_never_revives cfg o c n k :
  k ∈ c_inactive c → ¬ Active (apply_ops c (take n (cycle_ops cfg o c))) k.
Proof.
  intros Hk [[t Ht] Hi].
  assert (Hdel : Forall is_delete (take n (cycle_ops cfg o c))) by apply Forall_take, cycle_deletes.
  destruct (decide (IDelete k ∈ take n (cycle_ops cfg o c))) as [Hd|Hd].
  - apply elem_of_list_split in Hd as (l1 & l2 & E).
    pose proof (t_before_i_prefix _ n (t_before_i_cycle cfg o c) _ _ _ E) as Hin.
    destruct (tickets_after_deletes k _ c Hdel) as [H1 _]. rewrite H1 in Ht; [done|].
    rewrite E. set_solver.
  - apply Hi. by apply inactive_after_deletes.
Qed.

(** ** Histories with cycles *)

Local Arguments tickets_for : simpl never.
Local Arguments state_cmds_for : simpl never.
Local Arguments assigns_for : simpl never.
Local Arguments apply_update : simpl never.
Local Arguments cycle : simpl never.

Lemma hev_run_app cfg c es1 es2 : hev_run cfg c (es1 ++ es2) = hev_run cfg (hev_run cfg c es1) es2.
Proof. apply foldl_app. Qed.
Lemma hev_updates_app es1 es2 : hev_updates (es1 ++ es2) = hev_updates es1 ++ hev_updates es2.
Proof. induction es1 as [|[]]; simpl; [done| |done]. by f_equal. Qed.
Lemma hev_visits_app es1 es2 : hev_visits (es1 ++ es2) = hev_visits es1 ++ hev_visits es2.
Proof. induction es1 as [|[] es1 IH]; simpl; rewrite ?IH, ?app_assoc; done. Qed.
Lemma hev_fits_app cfg es1 : ∀ c es2,
  hev_fits cfg c (es1 ++ es2) ↔ hev_fits cfg c es1 ∧ hev_fits cfg (hev_run cfg c es1) es2.
Proof.
  induction es1 as [|e es1 IH]; intros c es2; simpl; [tauto|]. rewrite IH. tauto.
Qed.

(** What is in the cache always comes from the last commands. *)
Lemma run_sound cfg es :
  let c := hev_run cfg empty_cache es in
  let us := hev_updates es in
  (∀ k t, c_tickets c !! k = Some t → ∃ v, last (tickets_for k us) = Some v ∧ t = stored_ticket k v) ∧
  (∀ k, k ∈ c_inactive c → last (state_cmds_for k us) = Some false) ∧
  (∀ k a, c_assign c !! k = Some a → ∃ v, last (assigns_for k us) = Some v ∧ a = unmarshal_assignment v).
Proof.
  induction es as [|e es (H1 & H2 & H3)] using rev_ind.
  - split_and!; intros k *; simpl; set_solver.
  - intros c us. unfold c, us. rewrite hev_run_app, hev_updates_app. simpl.
    destruct e as [u|o]; simpl.
    + split_and!.
      * intros k t. rewrite update_tickets, tickets_for_app, last_app_match.
        destruct (last (tickets_for k [u])) as [v|]; [|by apply H1]. intros [= <-]. by exists v.
      * intros k. rewrite update_inactive, state_cmds_for_app, last_app_match.
        destruct (last (state_cmds_for k [u])) as [b|]; [|by apply H2]. by intros ->.
      * intros k a. rewrite update_assign, assigns_for_app, last_app_match.
        destruct (last (assigns_for k [u])) as [v|]; [|by apply H3]. intros [= <-]. by exists v.
    + rewrite app_nil_r. split_and!.
      * intros k t Ht. destruct (cycle_tickets cfg o (hev_run cfg empty_cache es) k) as [HN HS].
        destruct (c_tickets (hev_run cfg empty_cache es) !! k) as [t0|] eqn:Et.
        -- destruct (HS t0 eq_refl) as [Ha Hb].
           destruct (tickets_after_deletes k _ (hev_run cfg empty_cache es)
                       (cycle_deletes cfg o (hev_run cfg empty_cache es))) as [P1 P2].
           unfold cycle in Ht.
           destruct (decide (TDelete k ∈ cycle_ops cfg o (hev_run cfg empty_cache es))) as [Hd|Hd].
           ++ rewrite P1 in Ht by done. done.
           ++ rewrite P2 in Ht by done. apply H1. congruence.
        -- rewrite HN in Ht; done.
      * intros k Hk. apply cycle_inactive in Hk as [Hk _]. by apply H2.
      * intros k a Ha.
        destruct (assign_after_deletes k _ (hev_run cfg empty_cache es)
                       (cycle_deletes cfg o (hev_run cfg empty_cache es))) as [P1 P2].
        unfold cycle in Ha.
        destruct (decide (ADelete k ∈ cycle_ops cfg o (hev_run cfg empty_cache es))) as [Hd|Hd].
        -- rewrite P1 in Ha by done. done.
        -- rewrite P2 in Ha by done. by apply H3.
Qed.

(** Inactive ids that are not old stay. *)
Lemma run_inactive_kept cfg es k :
  (∀ v, v ∈ hev_visits es → ¬ OlderThan (cfg_ticket_ttl cfg) v.2 k) →
  last (state_cmds_for k (hev_updates es)) = Some false → k ∈ c_inactive (hev_run cfg empty_cache es).
Proof.
  induction es as [|e es IH] using rev_ind; [done|].
  rewrite hev_visits_app, hev_updates_app, hev_run_app, state_cmds_for_app, last_app_match.
  intros Hv. assert (Hv1 : ∀ v, v ∈ hev_visits es → ¬ OlderThan (cfg_ticket_ttl cfg) v.2 k) by set_solver.
  destruct e as [u|o]; simpl.
  - rewrite update_inactive. destruct (last (state_cmds_for k [u])) as [b|]; [by intros [= ->]|].
    by apply IH.
  - intros Hl. apply cycle_inactive. split; [by apply IH|]. intros (n & Hn & Hd).
    apply (Hv (k, n)); [|by apply id_due_spec]. simpl. unfold cycle_visits. set_solver.
Qed.

Lemma run_assign_kept cfg es k v :
  (∀ x, x ∈ hev_visits es → ¬ OlderThan (cfg_ticket_ttl cfg + cfg_assign_ttl cfg) x.2 k) →
  last (assigns_for k (hev_updates es)) = Some v →
  c_assign (hev_run cfg empty_cache es) !! k = Some (unmarshal_assignment v).
Proof.
  induction es as [|e es IH] using rev_ind; [done|].
  rewrite hev_visits_app, hev_updates_app, hev_run_app, assigns_for_app, last_app_match.
  intros Hv. assert (Hv1 : ∀ v, v ∈ hev_visits es →
      ¬ OlderThan (cfg_ticket_ttl cfg + cfg_assign_ttl cfg) v.2 k) by set_solver.
  destruct e as [u|o]; simpl.
  - rewrite update_assign. destruct (last (assigns_for k [u])) as [b|]; [by intros [= ->]|].
    by apply IH.
  - intros Hl. destruct (cycle_assign cfg o (hev_run cfg empty_cache es) k) as [_ H2].
    rewrite H2; [by apply IH|]. intros (n & Hn & Hd).
    apply (Hv (k, n)); [|by apply id_due_spec]. simpl. unfold cycle_visits. set_solver.
Qed.

(** C28 *)
Lemma assignments_last_write_wins cfg es k :
  (∀ x, x ∈ hev_visits es → ¬ OlderThan (cfg_ticket_ttl cfg + cfg_assign_ttl cfg) x.2 k) →
  c_assign (hev_run cfg empty_cache es) !! k =
    unmarshal_assignment <$> last (assigns_for k (hev_updates es)).
Proof.
  intros Hv. destruct (last (assigns_for k (hev_updates es))) as [v|] eqn:E.
  - by rewrite (run_assign_kept cfg es k v).
  - simpl. destruct (c_assign (hev_run cfg empty_cache es) !! k) as [a|] eqn:Ea; [|done].
    destruct (run_sound cfg es) as (_ & _ & H). apply H in Ea as (v & Hv' & _). congruence.
Qed.

(** Tickets that are neither expired nor (if inactive) old stay. *)
Lemma run_ticket_kept cfg es k v :
  (∀ x, x ∈ hev_visits es → ¬ OlderThan (cfg_ticket_ttl cfg) x.2 k) →
  (∀ x, x ∈ hev_visits es → ¬ ExpiredAt x.2 (stored_ticket k v)) →
  last (tickets_for k (hev_updates es)) = Some v →
  c_tickets (hev_run cfg empty_cache es) !! k = Some (stored_ticket k v).
Proof.
  induction es as [|e es IH] using rev_ind; [done|].
  rewrite hev_visits_app, hev_updates_app, hev_run_app, tickets_for_app, last_app_match.
  intros Hv He.
  assert (Hv1 : ∀ v, v ∈ hev_visits es → ¬ OlderThan (cfg_ticket_ttl cfg) v.2 k) by set_solver.
  assert (He1 : ∀ x, x ∈ hev_visits es → ¬ ExpiredAt x.2 (stored_ticket k v)) by set_solver.
  destruct e as [u|o]; simpl.
  - rewrite update_tickets. destruct (last (tickets_for k [u])) as [b|]; [by intros [= ->]|].
    by apply IH.
  - intros Hl. destruct (cycle_tickets cfg o (hev_run cfg empty_cache es) k) as [_ HS].
    apply HS; [by apply IH|]. intros [(n & Hn & Hd)|(n & Hn & Hd)].
    + apply (Hv (k, n)); [|by apply id_due_spec]. simpl. unfold cycle_visits. set_solver.
    + apply (He (k, n)); [|by apply ticket_due_spec]. simpl. unfold cycle_visits. set_solver.
Qed.

Lemma expires_in_time_older ttl k t now :
  ExpiresInTime ttl k t → OlderThan ttl now k → ExpiredAt now t.
Proof.
  unfold ExpiresInTime, OlderThan, ExpiredAt, unix_secs. intros H1 H2.
  assert ((id_time k + ttl + 1) <= now / giga) by lia.
  assert (now / giga * giga <= now) by (unfold giga; Z.div_mod_to_equations; lia).
  assert ((id_time k + ttl + 1) * giga <= now / giga * giga).
  { apply Z.mul_le_mono_nonneg_r; [done|lia]. }
  lia.
Qed.

Section final.
  Context (cfg : config) (es : list hev) (o : cycle_orders) (T : instant) (k : string).
  Hypothesis Hbefore : ∀ x, x ∈ hev_visits es → x.2 <= T.
  Hypothesis Hfit : orders_fit cfg o (hev_run cfg empty_cache es).
  Hypothesis Hat : at_time T o.
  Let c := hev_run cfg empty_cache es.
  Let us := hev_updates es.

  Lemma final_inactive :
    k ∈ c_inactive (cycle cfg o c) ↔
      last (state_cmds_for k us) = Some false ∧ ¬ OlderThan (cfg_ticket_ttl cfg) T k.
  Proof.
    destruct (expiry_exact cfg o c T Hfit Hat) as (H & _ & _). rewrite H.
    split; intros [H1 H2]; (split; [|done]).
    - by apply (run_sound cfg es).
    - apply run_inactive_kept; [|done]. intros x Hx Ho. apply H2.
      eapply older_mono; [|exact Ho]. by apply Hbefore.
  Qed.

  Lemma final_assign a :
    c_assign (cycle cfg o c) !! k = Some a ↔
      (∃ v, last (assigns_for k us) = Some v ∧ a = unmarshal_assignment v) ∧
      ¬ OlderThan (cfg_ticket_ttl cfg + cfg_assign_ttl cfg) T k.
  Proof.
    destruct (expiry_exact cfg o c T Hfit Hat) as (_ & _ & H). rewrite H.
    split; intros [H1 H2]; (split; [|done]).
    - by apply (run_sound cfg es).
    - destruct H1 as (v & Hv & ->). apply run_assign_kept; [|done]. intros x Hx Ho. apply H2.
      eapply older_mono; [|exact Ho]. by apply Hbefore.
  Qed.

  Lemma final_tickets t :
    (∀ v, last (tickets_for k us) = Some v → ExpiresInTime (cfg_ticket_ttl cfg) k (stored_ticket k v)) →
    c_tickets (cycle cfg o c) !! k = Some t ↔
      (∃ v, last (tickets_for k us) = Some v ∧ t = stored_ticket k v) ∧ ¬ ExpiredAt T t.
  Proof.
    intros Hin. destruct (expiry_exact cfg o c T Hfit Hat) as (_ & H & _). rewrite H. split.
    - intros (H1 & H2 & _). split; [|done]. by apply (run_sound cfg es).
    - intros [(v & Hv & ->) He].
      assert (Hold : ¬ OlderThan (cfg_ticket_ttl cfg) T k).
      { intros Ho. apply He. eapply expires_in_time_older; [by apply Hin|done]. }
      split_and!; [|done|tauto]. apply run_ticket_kept; [| |done].
      + intros x Hx Ho. apply Hold. eapply older_mono; [|exact Ho]. by apply Hbefore.
      + intros x Hx Ho. apply He. eapply expired_mono; [|exact Ho]. by apply Hbefore.
  Qed.
End final.

Lemma cache_ext c1 c2 :
  (∀ k t, c_tickets c1 !! k = Some t ↔ c_tickets c2 !! k = Some t) →
  (∀ k, k ∈ c_inactive c1 ↔ k ∈ c_inactive c2) →
  (∀ k a, c_assign c1 !! k = Some a ↔ c_assign c2 !! k = Some a) → c1 = c2.
Proof.
  destruct c1, c2. simpl. intros H1 H2 H3. f_equal.
  - apply map_eq. intros k. apply option_eq. intros t. apply H1.
  - set_solver.
  - apply map_eq. intros k. apply option_eq. intros t. apply H3.
Qed.

(** C23 *)
Lemma replicas_agree cfg es1 es2 o1 o2 T :
  hev_updates es1 = hev_updates es2 →
  (∀ x, x ∈ hev_visits es1 → x.2 <= T) → (∀ x, x ∈ hev_visits es2 → x.2 <= T) →
  orders_fit cfg o1 (hev_run cfg empty_cache es1) → orders_fit cfg o2 (hev_run cfg empty_cache es2) →
  at_time T o1 → at_time T o2 →
  (∀ u, u ∈ hev_updates es1 → u_cmd u = CmdTicket →
        ExpiresInTime (cfg_ticket_ttl cfg) (u_key u) (stored_ticket (u_key u) (u_value u))) →
  cycle cfg o1 (hev_run cfg empty_cache es1) = cycle cfg o2 (hev_run cfg empty_cache es2).
Proof.
  intros E B1 B2 F1 F2 A1 A2 Hexp.
  assert (Hin : ∀ k v, last (tickets_for k (hev_updates es1)) = Some v →
             ExpiresInTime (cfg_ticket_ttl cfg) k (stored_ticket k v)).
  { intros k v Hl. assert (v ∈ tickets_for k (hev_updates es1)) as Hv.
    { apply last_Some in Hl as [l ->]. set_solver. }
    unfold tickets_for in Hv. apply elem_of_list_omap in Hv as ([cm key w] & Hu & Hf).
    simpl in Hf. destruct cm; try done. destruct (decide (key = k)) as [->|]; [|done].
    injection Hf as ->. by apply (Hexp _ Hu). }
  apply cache_ext; intros k.
  - intros t. rewrite !(final_tickets cfg _ _ T) by (rewrite <-?E; auto). by rewrite E.
  - rewrite !(final_inactive cfg _ _ T) by done. by rewrite E.
  - intros a. rewrite !(final_assign cfg _ _ T) by done. by rewrite E.
Qed.

(** C25, updates only. *)
Lemma suffix_same us1 us2 k :
  tickets_for k us2 ≠ [] →
  c_tickets (apply_updates empty_cache (us1 ++ us2)) !! k = c_tickets (apply_updates empty_cache us2) !! k ∧
  (k ∈ c_inactive (apply_updates empty_cache (us1 ++ us2)) ↔ k ∈ c_inactive (apply_updates empty_cache us2)) ∧
  (Active (apply_updates empty_cache (us1 ++ us2)) k ↔ Active (apply_updates empty_cache us2) k).
Proof.
  intros Hne. destruct (updates_char (us1 ++ us2)) as (H1 & H2 & _).
  destruct (updates_char us2) as (H1' & H2' & _).
  assert (E1 : last (tickets_for k (us1 ++ us2)) = last (tickets_for k us2)).
  { rewrite tickets_for_app, last_app_match. apply last_not_nil in Hne as [x ->]. done. }
  assert (E2 : last (state_cmds_for k (us1 ++ us2)) = last (state_cmds_for k us2)).
  { rewrite state_cmds_for_app, last_app_match.
    apply ticket_then_state, last_not_nil in Hne as [x ->]. done. }
  unfold Active. rewrite H1, H1', H2, H2', E1, E2. done.
Qed.

(** C25 with cycles. *)
Lemma late_joiner cfg es1 es2 us1 o1 o2 T k :
  hev_updates es1 = us1 ++ hev_updates es2 → tickets_for k (hev_updates es2) ≠ [] →
  (∀ x, x ∈ hev_visits es1 → x.2 <= T) → (∀ x, x ∈ hev_visits es2 → x.2 <= T) →
  orders_fit cfg o1 (hev_run cfg empty_cache es1) → orders_fit cfg o2 (hev_run cfg empty_cache es2) →
  at_time T o1 → at_time T o2 →
  (∀ v, Update CmdTicket k v ∈ hev_updates es2 → ExpiresInTime (cfg_ticket_ttl cfg) k (stored_ticket k v)) →
  let c1 := cycle cfg o1 (hev_run cfg empty_cache es1) in
  let c2 := cycle cfg o2 (hev_run cfg empty_cache es2) in
  c_tickets c1 !! k = c_tickets c2 !! k ∧ (k ∈ c_inactive c1 ↔ k ∈ c_inactive c2) ∧
  (Active c1 k ↔ Active c2 k).
Proof.
  intros E Hne B1 B2 F1 F2 A1 A2 Hexp c1 c2.
  assert (E1 : last (tickets_for k (hev_updates es1)) = last (tickets_for k (hev_updates es2))).
  { rewrite E, tickets_for_app, last_app_match. apply last_not_nil in Hne as [x ->]. done. }
  assert (E2 : last (state_cmds_for k (hev_updates es1)) = last (state_cmds_for k (hev_updates es2))).
  { rewrite E, state_cmds_for_app, last_app_match.
    apply ticket_then_state, last_not_nil in Hne as [x ->]. done. }
  assert (Hin : ∀ v, last (tickets_for k (hev_updates es2)) = Some v →
             ExpiresInTime (cfg_ticket_ttl cfg) k (stored_ticket k v)).
  { intros v Hl. assert (v ∈ tickets_for k (hev_updates es2)) as Hv.
    { apply last_Some in Hl as [l ->]. set_solver. }
    unfold tickets_for in Hv. apply elem_of_list_omap in Hv as ([cm key w] & Hu & Hf).
    simpl in Hf. destruct cm; try done. destruct (decide (key = k)) as [->|]; [|done].
    injection Hf as ->. by apply Hexp. }
  assert (Ht : c_tickets c1 !! k = c_tickets c2 !! k).
  { apply option_eq. intros t. unfold c1, c2.
    rewrite !(final_tickets cfg _ _ T) by (rewrite ?E1; auto). by rewrite E1. }
  assert (Hi : k ∈ c_inactive c1 ↔ k ∈ c_inactive c2).
  { unfold c1, c2. rewrite !(final_inactive cfg _ _ T) by done. by rewrite E2. }
  split_and!; [done|done|]. unfold Active. by rewrite Ht, Hi.
Qed.
