(** Lemmas about Model/Timing.v. *)
From Coq Require Import Ascii String ZArith NArith Lia.
From stdpp Require Import prelude strings gmap relations.
From Verif.Model Require Import GoStrings Types Cache MemRepl Queues Replica Timing.
From Verif.Spec Require Import CacheSpec TimingSpec.
From Verif.Proofs Require Import CacheLemmas.
Local Open Scope Z_scope.

(** ** The outgoing queue *)

Definition o_waits (p : oparams) (n : instant) (ph : ophase) (i : nat) (o : offered) : Prop :=
  of_at o <= n ∧
  match ph with
  | OCollect start b =>
      (n < start + op_wait p →
       n + op_wait p + ((Z.of_nat i + Z.of_nat (length b)) / batch_size p + 1) * op_send p
         <= answer_by p o) ∧
      (n = start + op_wait p →
       n + op_wait p + (Z.of_nat i / batch_size p + 2) * op_send p <= answer_by p o)
  | OSend a b => a + op_wait p + (Z.of_nat i / batch_size p + 2) * op_send p <= answer_by p o
  end.

Definition o_phase_ok (p : oparams) (n : instant) (ph : ophase) : Prop :=
  match ph with
  | OCollect start b =>
      start <= n <= start + op_wait p ∧ Z.of_nat (length b) < batch_size p ∧
      ∀ o, o ∈ b → of_at o <= n ∧ start + op_wait p + op_send p <= answer_by p o
  | OSend a b =>
      a <= n <= a + op_send p ∧ Z.of_nat (length b) <= batch_size p ∧ b ≠ [] ∧
      ∀ o, o ∈ b → of_at o <= n ∧ a + op_send p <= answer_by p o
  end.

Definition o_inv (p : oparams) (s : ostate) : Prop :=
  (os_done s).*1 ++ o_taken s ++ os_waiting s = os_all s ∧
  (∀ o t, (o, t) ∈ os_done s → of_at o <= t <= answer_by p o ∧ t <= os_now s) ∧
  o_phase_ok p (os_now s) (os_phase s) ∧
  (∀ i o, os_waiting s !! i = Some o → o_waits p (os_now s) (os_phase s) i o).

Lemma o_inv_init p t : SaneOut p → o_inv p (o_init t).
Proof.
  intros [Hw Hd]. split; [done|]. split; [by intros ?? ?%elem_of_nil|]. split.
  - simpl. split; [lia|]. split; [unfold batch_size; simpl; lia|]. by intros ? ?%elem_of_nil.
  - by intros i o.
Qed.

Lemma div_carry (i b t : Z) : 0 <= i → 0 <= b < t → (i + b) / t <= i / t + 1.
Proof.
  intros Hi Hb. transitivity ((i + 1 * t) / t).
  - apply Z.div_le_mono; lia.
  - rewrite Z.div_add by lia. lia.
Qed.

Lemma o_inv_step p s s' : SaneOut p → o_inv p s → ostep p s s' → o_inv p s'.
Proof.
  intros [Hw HD] (Hord & Hdone & Hph & Hwt) Hstep.
  assert (Hbs : 1 <= batch_size p) by (unfold batch_size; lia).
  destruct Hstep as [r n w ph dn al|n o w start b dn al|n w start b dn al Hf|
    n d start b dn al Hd Hl|n d w a b dn al Hd Hl|n w a b dn al]; unfold o_inv, o_taken in *; simpl in *.
  - (* offer *)
    split; [rewrite <-Hord, <-!app_assoc; done|]. split; [done|]. split; [done|].
    intros i o [Hi|[Hi Ho]]%lookup_app_Some; [by apply Hwt|].
    destruct (i - length w)%nat as [|j] eqn:Ei; [|by destruct j].
    simpl in Ho. inversion Ho; subst o. assert (i = length w) as -> by lia.
    unfold o_waits, answer_by. simpl. split; [lia|].
    destruct ph as [start b|a b]; simpl in Hph.
    + destruct Hph as (Hn & Hlen & _). split; intros Hc; [|lia].
      pose proof (div_carry (Z.of_nat (length w)) (Z.of_nat (length b)) (batch_size p) ltac:(lia) ltac:(lia)).
      nia.
    + destruct Hph as (Hn & _). lia.
  - (* accept *)
    destruct Hph as (Hn & Hlen & Hb).
    assert (Hsz : Z.of_nat (length (b ++ [o])) = Z.of_nat (length b) + 1) by (rewrite app_length; simpl; lia).
    assert (Hwo := Hwt 0%nat o eq_refl). unfold o_waits in Hwo. destruct Hwo as (Hat & Hearly & Hlate).
    assert (Ho : start + op_wait p + op_send p <= answer_by p o).
    { destruct (decide (n < start + op_wait p)) as [Hc|Hc].
      - specialize (Hearly Hc). rewrite Z.div_small in Hearly by lia. lia.
      - specialize (Hlate ltac:(lia)). rewrite Z.div_small in Hlate by lia. lia. }
    assert (Hb' : ∀ o', o' ∈ b ++ [o] → of_at o' <= n ∧ start + op_wait p + op_send p <= answer_by p o').
    { intros o' [Ho'|Ho']%elem_of_app; [by apply Hb|].
      apply elem_of_list_singleton in Ho' as ->. split; [lia|done]. }
    assert (Hw' : ∀ i o', w !! i = Some o' → of_at o' <= n ∧
        (n < start + op_wait p →
         n + op_wait p + ((Z.of_nat i + Z.of_nat (length (b ++ [o]))) / batch_size p + 1) * op_send p
           <= answer_by p o') ∧
        (n = start + op_wait p →
         n + op_wait p + (Z.of_nat i / batch_size p + 2) * op_send p <= answer_by p o')).
    { intros i o' Hi. destruct (Hwt (S i) o' Hi) as (H1 & H2 & H3). split; [done|]. split; intros Hc.
      - specialize (H2 Hc). replace (Z.of_nat i + Z.of_nat (length (b ++ [o])))
          with (Z.of_nat (S i) + Z.of_nat (length b)) by (clear -Hsz; lia). done.
      - specialize (H3 Hc). etransitivity; [|exact H3].
        apply Zplus_le_compat_l, Z.mul_le_mono_nonneg_r; [done|].
        apply Zplus_le_compat_r, Z.div_le_mono; lia. }
    unfold o_full. destruct (Z.leb_spec (op_thr p) (Z.of_nat (length (b ++ [o])))) as [Hfull|Hfull].
    + split; [rewrite <-Hord; simpl; by rewrite <-!app_assoc|]. split; [done|]. split.
      * simpl. split; [lia|]. split; [lia|]. split; [by destruct b|].
        intros o' Ho'. destruct (Hb' o' Ho'). split; [done|]. lia.
      * intros i o' Hi. destruct (Hw' i o' Hi) as (H1 & H2 & H3). split; [done|].
        destruct (decide (n < start + op_wait p)) as [Hc|Hc]; [|apply H3; lia].
        specialize (H2 Hc).
        assert (Z.of_nat (length (b ++ [o])) = batch_size p) as E.
        { clear -Hfull Hsz Hlen. unfold batch_size in *. lia. }
        rewrite E in H2. replace (Z.of_nat i + batch_size p) with (Z.of_nat i + 1 * batch_size p) in H2 by lia.
        rewrite Z.div_add in H2 by lia. nia.
    + split; [rewrite <-Hord; simpl; by rewrite <-!app_assoc|]. split; [done|]. split.
      * simpl. split; [lia|]. split; [unfold batch_size; lia|]. done.
      * intros i o' Hi. exact (Hw' i o' Hi).
  - (* timer *)
    destruct Hph as (Hn & Hlen & Hb). assert (Hn' : n = start + op_wait p) by lia.
    split; [rewrite <-Hord; by destruct b|]. split; [done|].
    destruct b as [|o0 b0].
    + split; [simpl; split; [lia|]; split; [lia|]; by intros ? ?%elem_of_nil|].
      intros i o Hi. destruct (Hwt i o Hi) as (H1 & _ & H3). split; [done|]. simpl.
      specialize (H3 Hn'). split; [|lia]. intros _.
      rewrite Z.add_0_r. nia.
    + split.
      * split; [lia|]. split; [lia|]. split; [done|]. intros o Ho. destruct (Hb o Ho). split; [done|lia].
      * intros i o Hi. destruct (Hwt i o Hi) as (H1 & _ & H3). split; [done|]. by apply H3.
  - (* idle *)
    destruct Hph as (Hn & Hlen & Hb). split; [done|]. split.
    { intros o t Ho. destruct (Hdone o t Ho). split; [done|lia]. }
    split; [|by intros i o].
    split; [lia|]. split; [done|]. intros o Ho. destruct (Hb o Ho). split; [lia|done].
  - (* work *)
    destruct Hph as (Hn & Hlen & Hne & Hb). split; [done|]. split.
    { intros o t Ho. destruct (Hdone o t Ho). split; [done|lia]. }
    split.
    + split; [lia|]. split; [done|]. split; [done|]. intros o Ho. destruct (Hb o Ho). split; [lia|done].
    + intros i o Hi. destruct (Hwt i o Hi) as (H1 & H2). split; [lia|done].
  - (* return *)
    destruct Hph as (Hn & Hlen & Hne & Hb). split.
    { rewrite <-Hord, fmap_app. simpl. rewrite <-app_assoc. f_equal.
      assert (E : (map (λ o, (o, n)) b).*1 = b); [|by rewrite E].
      clear. induction b; simpl; [done|]. by f_equal. }
    split.
    { intros o t [Ho|Ho]%elem_of_app; [by apply Hdone|].
      apply elem_of_list_fmap in Ho as (o' & [= -> ->] & Ho'). destruct (Hb o' Ho'). lia. }
    split; [simpl; split; [lia|]; split; [lia|]; by intros ? ?%elem_of_nil|].
    intros i o Hi. destruct (Hwt i o Hi) as (H1 & H2). split; [done|]. simpl in *.
    split; [|lia]. intros _. rewrite Z.add_0_r. nia.
Qed.

Lemma o_inv_reach p t s : SaneOut p → rtc (ostep p) (o_init t) s → o_inv p s.
Proof.
  intros Hp. apply rtc_ind_r; [by apply o_inv_init|]. intros y z _ Hyz IH. by eapply o_inv_step.
Qed.

(** Answers come in time, and nobody waits longer. *)
Lemma answered_in_time p t s : SaneOut p → rtc (ostep p) (o_init t) s →
  (∀ o t', (o, t') ∈ os_done s → of_at o <= t' <= answer_by p o) ∧
  (∀ o, o ∈ os_all s → o ∉ (os_done s).*1 → os_now s <= answer_by p o).
Proof.
  intros Hp Hr. destruct (o_inv_reach p t s Hp Hr) as (Hord & Hdone & Hph & Hwt).
  assert (Hbs : 1 <= batch_size p) by (unfold batch_size; lia).
  destruct Hp as [Hw HD].
  split; [intros o t' Ho; by destruct (Hdone o t' Ho)|].
  intros o Ho Hnd. rewrite <-Hord in Ho.
  apply elem_of_app in Ho as [Ho|[Ho|Ho]%elem_of_app]; [done| |].
  - unfold o_taken in Ho. destruct (os_phase s) as [start b|a b]; simpl in Hph.
    + destruct Hph as (Hn & _ & Hb). destruct (Hb o Ho). lia.
    + destruct Hph as (Hn & _ & _ & Hb). destruct (Hb o Ho). lia.
  - apply elem_of_list_lookup in Ho as [i Hi]. destruct (Hwt i o Hi) as (H1 & H2).
    assert (0 <= Z.of_nat i / batch_size p) by (apply Z.div_pos; lia).
    destruct (os_phase s) as [start b|a b]; simpl in Hph.
    + destruct Hph as (Hn & _ & _). destruct H2 as [H2 H3].
      destruct (decide (os_now s < start + op_wait p)) as [Hc|Hc].
      * specialize (H2 Hc).
        assert (0 <= (Z.of_nat i + Z.of_nat (length b)) / batch_size p) by (apply Z.div_pos; lia). nia.
      * specialize (H3 ltac:(lia)). nia.
    + destruct Hph as (Hn & _). nia.
Qed.

(** First come, first served. *)
Lemma answered_in_order p t s : SaneOut p → rtc (ostep p) (o_init t) s →
  (os_done s).*1 `prefix_of` os_all s.
Proof.
  intros Hp Hr. destruct (o_inv_reach p t s Hp Hr) as (Hord & _). rewrite <-Hord. by eexists.
Qed.

(** The loop with its timers is the loop of Model/Queues.v. *)
Lemma timed_batches p t s : rtc (ostep p) (o_init t) s →
  ∃ es, let q := q_run (op_thr p) q_init es in
    match os_phase s with
    | OCollect _ b => q_pending q = map of_req b ∧
        concat (q_batches q) = map of_req ((os_done s).*1)
    | OSend _ b => q_pending q = [] ∧ b ≠ [] ∧
        ∃ bs, q_batches q = bs ++ [map of_req b] ∧ concat bs = map of_req ((os_done s).*1)
    end.
Proof.
  apply (rtc_ind_r (λ s, ∃ es, let q := q_run (op_thr p) q_init es in
    match os_phase s with
    | OCollect _ b => q_pending q = map of_req b ∧
        concat (q_batches q) = map of_req ((os_done s).*1)
    | OSend _ b => q_pending q = [] ∧ b ≠ [] ∧
        ∃ bs, q_batches q = bs ++ [map of_req b] ∧ concat bs = map of_req ((os_done s).*1)
    end)); clear s.
  { by exists []. }
  intros s s' _ Hstep [es IH].
  destruct Hstep as [r n w ph dn al|n o w start b dn al|n w start b dn al Hf|
    n d start b dn al Hd Hl|n d w a b dn al Hd Hl|n w a b dn al]; simpl in *;
    try (by exists es).
  - destruct IH as [Hp Hb]. exists (es ++ [QReq (of_req o)]).
    unfold q_run. rewrite foldl_app. simpl. fold (q_run (op_thr p) q_init es). unfold q_flush. simpl.
    rewrite Hp. unfold o_full.
    assert (E : map of_req b ++ [of_req o] = map of_req (b ++ [o])) by by rewrite map_app.
    rewrite E, map_length.
    destruct (Z.leb_spec (op_thr p) (Z.of_nat (length (b ++ [o])))); simpl; [|done].
    destruct (map of_req (b ++ [o])) eqn:E2; [by destruct b|]. simpl.
    split; [done|]. split; [by destruct b|]. exists (q_batches (q_run (op_thr p) q_init es)).
    rewrite <-E2. done.
  - destruct IH as [Hp Hb]. exists (es ++ [QTimeout]).
    unfold q_run. rewrite foldl_app. simpl. fold (q_run (op_thr p) q_init es). unfold q_flush.
    rewrite Hp. destruct b as [|o b]; simpl; [done|].
    split; [done|]. split; [done|]. by exists (q_batches (q_run (op_thr p) q_init es)).
  - destruct IH as (Hp & Hne & bs & Hb & Hc). exists es. split; [done|].
    rewrite Hb, concat_app, Hc, fmap_app, map_app. simpl. rewrite app_nil_r. f_equal.
    clear. induction b; simpl; [done|]. by f_equal.
Qed.

(** ** The incoming queue *)

(** Something that expires at [x] is stored for [k]. *)
Definition i_due (cfg : config) (s : istate) (k : string) (x : instant) : Prop :=
  (∃ t, c_tickets (is_cache s) !! k = Some t ∧ x = as_time (tk_exp t)) ∨
  (k ∈ c_inactive (is_cache s) ∧ x = old_from (cfg_ticket_ttl cfg) k) ∨
  (is_Some (c_assign (is_cache s) !! k) ∧ x = old_from (cfg_ticket_ttl cfg + cfg_assign_ttl cfg) k).

Definition i_bound (p : iparams) (l : Z) (ph : iphase) (x : instant) : Prop :=
  match ph with
  | ISleep s => s <= x + ip_cycle p
  | IApply s _ _ _ _ => s <= x + ip_cycle p + ip_wait p
  | ICycle s => s <= x + ip_cycle p + ip_wait p + l
  end.

Definition i_phase_ok (p : iparams) (n : instant) (ph : iphase) : Prop :=
  match ph with
  | ISleep s => s <= n <= s + ip_wait p
  | IApply s r h m a => s <= r <= n ∧ n <= r + ip_apply p
  | ICycle s => s <= n <= s + ip_cycle p
  end.

Definition i_inv (cfg : config) (p : iparams) (l : Z) (s : istate) : Prop :=
  i_phase_ok p (is_now s) (is_phase s) ∧ StretchWithin l s ∧
  ∀ k x, i_due cfg s k x → ∃ tau, is_touched s !! k = Some tau ∧ tau <= is_now s ∧
    i_bound p l (is_phase s) (Z.max x tau).

Lemma update_other ca u k : u_key u ≠ k →
  c_tickets (apply_update ca u) !! k = c_tickets ca !! k ∧
  (k ∈ c_inactive (apply_update ca u) ↔ k ∈ c_inactive ca) ∧
  c_assign (apply_update ca u) !! k = c_assign ca !! k.
Proof.
  intros Hne. unfold apply_update, update_ops. destruct (u_cmd u); simpl; split_and!; try done;
    rewrite ?lookup_insert_ne by done; try done; set_solver.
Qed.

Lemma not_older limit s k : ¬ OlderThan limit s k → s < old_from limit k.
Proof.
  unfold OlderThan, old_from, unix_secs. intros H.
  assert (s / giga < id_time k + limit + 1) as Hlt by lia.
  pose proof (Z_div_mod_eq_full s giga). pose proof (Z.mod_pos_bound s giga ltac:(done)).
  unfold giga in *. lia.
Qed.

Lemma i_inv_init cfg p l t : SaneIn p → i_inv cfg p l (i_init t).
Proof.
  intros (Hw & Ha & Hc). split; [simpl; lia|]. split; [done|].
  intros k x [(t' & Ht & _)|[[Hi _]|[[a Ha'] _]]]; simpl in *; [done|set_solver|done].
Qed.

Lemma i_inv_step cfg p l s s' : SaneIn p → 0 <= l →
  i_inv cfg p l s → istep_within cfg p l s s' → i_inv cfg p l s'.
Proof.
  intros (Hw & Ha & Hc) Hl0 (Hph & Hst & Hdue) [Hstep Hst'].
  split; [|split; [exact Hst'|]].
  - destruct Hstep; unfold StretchWithin, i_phase_ok, i_came in *; simpl in *; try lia.
    by destruct ph.
  - destruct Hstep as [u n c ca ph to|d n c ca s0 to Hd Hl|n c ca s0 to Hwk|
      d n c ca s0 r h m a to Hd Hl|u n c ca s0 r h m a to|n c ca s0 r h m a to Hlim|n ca s0 r h m a to|
      d n c ca s0 to Hd Hl|o n c ca s0 to Hfit Hvis]; intros k x Hx;
      unfold StretchWithin, i_bound, i_phase_ok, i_came, i_due in *; simpl in *.
    + destruct (Hdue k x Hx) as (tau & Ht & Hn & Hb). exists tau. split; [done|]. split; [done|].
      by destruct ph.
    + destruct (Hdue k x Hx) as (tau & Ht & Hn & Hb). exists tau. split; [done|]. split; lia.
    + destruct (Hdue k x Hx) as (tau & Ht & Hn & Hb). exists tau. split; [done|]. split; lia.
    + destruct (Hdue k x Hx) as (tau & Ht & Hn & Hb). exists tau. split; [done|]. split; lia.
    + destruct (decide (u_key u = k)) as [<-|Hne].
      * exists n. rewrite lookup_insert. split; [done|]. split; lia.
      * destruct (update_other ca u k Hne) as (E1 & E2 & E3).
        rewrite E1, E2, E3 in Hx. rewrite lookup_insert_ne by done. by apply Hdue.
    + destruct (Hdue k x Hx) as (tau & Ht & Hn & Hb). exists tau. split; [done|]. split; lia.
    + destruct (Hdue k x Hx) as (tau & Ht & Hn & Hb). exists tau. split; [done|]. split; lia.
    + destruct (Hdue k x Hx) as (tau & Ht & Hn & Hb). exists tau. split; [done|]. split; lia.
    + destruct (expiry_between cfg o ca s0 n Hfit Hvis) as (E1 & _ & E2 & _ & E3 & _).
      assert (Hold : s0 <= x ∧ ((∃ t, c_tickets ca !! k = Some t ∧ x = as_time (tk_exp t)) ∨
        (k ∈ c_inactive ca ∧ x = old_from (cfg_ticket_ttl cfg) k) ∨
        (is_Some (c_assign ca !! k) ∧ x = old_from (cfg_ticket_ttl cfg + cfg_assign_ttl cfg) k))).
      { destruct Hx as [(t & Ht & ->)|[[Hi ->]|[[a Ha'] ->]]].
        - destruct (E2 k t Ht) as (Ht' & Hne & _). unfold ExpiredAt in Hne. split; [lia|]. left. eauto.
        - destruct (E1 k Hi) as (Hi' & Hno). pose proof (not_older _ _ _ Hno). split; [lia|]. right. left. done.
        - destruct (E3 k a Ha') as (Ha2 & Hno). pose proof (not_older _ _ _ Hno). split; [lia|].
          right. right. eauto. }
      destruct Hold as [Hs Hx']. destruct (Hdue k x Hx') as (tau & Ht & Hn & Hb).
      exists tau. split; [done|]. split; lia.
Qed.

Lemma i_inv_reach cfg p l t s : SaneIn p → 0 <= l →
  rtc (istep_within cfg p l) (i_init t) s → i_inv cfg p l s.
Proof.
  intros Hp Hl. apply rtc_ind_r; [by apply i_inv_init|]. intros y z _ Hyz IH. by eapply i_inv_step.
Qed.

Lemma gone_in_time cfg p l t s k x : SaneIn p → 0 <= l →
  rtc (istep_within cfg p l) (i_init t) s → i_due cfg s k x →
  ∃ tau, is_touched s !! k = Some tau ∧ tau <= is_now s ∧
    is_now s <= Z.max x tau + ip_wait p + l + 2 * ip_cycle p.
Proof.
  intros Hp Hl Hr Hx. destruct (i_inv_reach cfg p l t s Hp Hl Hr) as (Hph & Hst & Hdue).
  destruct (Hdue k x Hx) as (tau & Ht & Hn & Hb). exists tau. split; [done|]. split; [done|].
  destruct Hp as (Hw & Ha & Hc).
  unfold StretchWithin, i_bound, i_phase_ok in *. destruct (is_phase s); lia.
Qed.

(** *** How long a stretch takes *)

Definition i_count (p : iparams) (s : istate) : Prop :=
  i_phase_ok p (is_now s) (is_phase s) ∧
  match is_phase s with
  | IApply since r h m a =>
      (h + m = a + length (is_chan s))%nat ∧ r - since <= Z.of_nat a * ip_apply p
  | _ => True
  end.

Lemma i_count_reach cfg p t s : SaneIn p → rtc (istep cfg p) (i_init t) s → i_count p s.
Proof.
  intros (Hw & Ha & Hc). apply (rtc_ind_r (i_count p)); [split; simpl; [lia|done]|].
  clear s. intros s s' _ Hstep [Hph Hcnt].
  destruct Hstep; unfold i_count, i_phase_ok, i_came in *; simpl in *; try (split; [lia|done]).
  - destruct ph; simpl in *; [done| |done]. rewrite app_length. simpl. split; [done|].
    destruct Hcnt. split; [lia|done].
  - split; [lia|]. split; lia.
  - split; [lia|]. destruct Hcnt. split; [lia|]. rewrite Nat2Z.inj_succ. nia.
Qed.

Lemma stretch_length cfg p t s since r h m a : SaneIn p → rtc (istep cfg p) (i_init t) s →
  is_phase s = IApply since r h m a →
  (h + m = a + length (is_chan s))%nat ∧ is_now s - since <= (Z.of_nat a + 1) * ip_apply p.
Proof.
  intros Hp Hr E. destruct (i_count_reach cfg p t s Hp Hr) as [Hph Hcnt]. rewrite E in *. simpl in *.
  destruct Hcnt as [H1 H2]. split; [done|]. lia.
Qed.

(** Arrivals of at most [b] at once and then one in [g] nanoseconds, with [g]
    longer than the time of one round. *)
Lemma stretch_bounded cfg p t s since r h m a b g : SaneIn p → rtc (istep cfg p) (i_init t) s →
  is_phase s = IApply since r h m a → ip_apply p < g →
  Z.of_nat m * g <= b * g + (is_now s - since) →
  (is_now s - since) * (g - ip_apply p) <= (Z.of_nat h + b + 1) * ip_apply p * g.
Proof.
  intros Hp Hr E Hg Hrate. destruct (stretch_length _ _ _ _ _ _ _ _ _ Hp Hr E) as [H1 H2].
  destruct Hp as (Hw & Ha & Hc). set (A := ip_apply p) in *. set (d := is_now s - since) in *.
  assert (Z.of_nat a <= Z.of_nat h + Z.of_nat m) by lia.
  assert (d <= (Z.of_nat h + Z.of_nat m + 1) * A) by nia.
  assert (d * g <= (Z.of_nat h + Z.of_nat m + 1) * A * g) by nia.
  assert (Z.of_nat m * g * A <= (b * g + d) * A) by nia.
  lia.
Qed.

(** The 500 ms limit has no effect. *)
Lemma limit_no_effect cfg p t s s' since r h m a since' : SaneIn p → ip_apply p < lock_limit →
  rtc (istep cfg p) (i_init t) s → istep cfg p s s' →
  is_phase s = IApply since r h m a → is_phase s' = ICycle since' → is_chan s = [].
Proof.
  intros Hp Hlim Hr Hstep E E'. destruct (i_count_reach cfg p t s Hp Hr) as [Hph _].
  destruct Hstep; simpl in *; try done; simplify_eq; simpl in *; lia.
Qed.

Lemma limit_exact cfg p : SaneIn p → OnlyEmptyEnds cfg p ↔ ip_apply p < half_a_second.
Proof.
  intros Hp. split.
  - intros H. destruct (Z.lt_ge_cases (ip_apply p) half_a_second) as [Hlt|Hge]; [done|]. exfalso.
    destruct Hp as (Hw & Ha & Hc).
    set (u := Update CmdActivate "2-0"%string ""%string).
    assert (Hr : rtc (istep cfg p) (i_init 1)
      (IState (1 + ip_wait p + half_a_second) [u] empty_cache (IApply (1 + ip_wait p) (1 + ip_wait p) 0 1 0) ∅)).
    { eapply rtc_l; [apply (ISleeping cfg p (ip_wait p)); lia|].
      eapply rtc_l; [apply IWake; lia|].
      eapply rtc_l; [apply (IArrive cfg p u)|].
      eapply rtc_l; [apply (IWork cfg p half_a_second); unfold half_a_second in *; lia|]. apply rtc_refl. }
    specialize (H 1 _ (IState (1 + ip_wait p + half_a_second) [u] empty_cache (ICycle (1 + ip_wait p + half_a_second)) ∅)
      (1 + ip_wait p) (1 + ip_wait p) 0%nat 1%nat 0%nat (1 + ip_wait p + half_a_second) Hr).
    assert (E : [u] = []); [|done]. apply H; [|done|done]. apply ITimeout. unfold half_a_second, lock_limit. lia.
  - intros Hlt t s s' since r h m a since' Hr Hs E E'. exact (limit_no_effect cfg p t s s' since r h m a since' Hp Hlt Hr Hs E E').
Qed.

(** *** Updates that keep coming *)

(** A ticket with no expiration time, and an activation of nothing. *)
Definition blank_u : update := Update CmdTicket "1-0"%string ""%string.
Definition busy_u : update := Update CmdActivate "2-0"%string ""%string.

Fixpoint busy_cache (n : nat) : cache :=
  match n with O => apply_update empty_cache blank_u | S n => apply_update (busy_cache n) busy_u end.

Definition busy_touched (p : iparams) (n : nat) : gmap string instant :=
  let t0 : gmap string instant := {[ "1-0"%string := 1 + ip_wait p ]} in
  match n with O => t0 | S _ => <["2-0"%string := 1 + ip_wait p + Z.of_nat n * ip_apply p]> t0 end.

Definition busy_state (p : iparams) (n : nat) : istate :=
  let at_ := 1 + ip_wait p + Z.of_nat n * ip_apply p in
  IState at_ [] (busy_cache n) (IApply (1 + ip_wait p) at_ 0 (S n) (S n)) (busy_touched p n).

Lemma busy_run cfg p n : SaneIn p → rtc (istep cfg p) (i_init 1) (busy_state p n).
Proof.
  intros (Hw & Ha & Hc). induction n as [|n IH].
  - eapply rtc_l; [apply (ISleeping cfg p (ip_wait p)); lia|].
    eapply rtc_l; [apply IWake; lia|].
    eapply rtc_l; [apply (IArrive cfg p blank_u)|].
    eapply rtc_l; [apply IUpdate|].
    unfold busy_state. rewrite Z.mul_0_l, Z.add_0_r. apply rtc_refl.
  - eapply rtc_r; [eapply rtc_r; [eapply rtc_r; [exact IH|apply (IArrive cfg p busy_u)]|]|].
    + apply (IWork cfg p (ip_apply p)); lia.
    + assert (E : 1 + ip_wait p + Z.of_nat n * ip_apply p + ip_apply p
                  = 1 + ip_wait p + Z.of_nat (S n) * ip_apply p) by lia.
      rewrite E. simpl app.
      assert (Et : busy_touched p (S n)
        = <["2-0"%string := 1 + ip_wait p + Z.of_nat (S n) * ip_apply p]> (busy_touched p n)).
      { destruct n; [done|]. simpl. by rewrite insert_insert. }
      unfold busy_state. rewrite Et. apply (IUpdate cfg p busy_u).
Qed.

Lemma busy_ticket n : ∃ t, c_tickets (busy_cache n) !! "1-0"%string = Some t ∧ as_time (tk_exp t) = 0.
Proof.
  induction n as [|n IH]; [|exact IH]. eexists. split; [vm_compute; reflexivity|done].
Qed.

Lemma busy_touch p n : busy_touched p n !! "1-0"%string = Some (1 + ip_wait p).
Proof.
  destruct n; simpl; [apply lookup_insert|]. rewrite lookup_insert_ne by done. apply lookup_insert.
Qed.

(** However long [l] is, updates can keep coming for longer, and an expired
    ticket stays. *)
Lemma busy_for_ever cfg p l : SaneIn p → 0 < ip_apply p →
  ∃ s k t tau, rtc (istep cfg p) (i_init 1) s ∧ ¬ StretchWithin l s ∧
    c_tickets (is_cache s) !! k = Some t ∧ is_touched s !! k = Some tau ∧
    Z.max (as_time (tk_exp t)) tau + l < is_now s.
Proof.
  intros Hp Ha. set (n := Z.to_nat (Z.max 0 l + 1)). destruct (busy_ticket n) as (t & Ht & He).
  exists (busy_state p n), "1-0"%string, t, (1 + ip_wait p).
  assert (Z.of_nat n = Z.max 0 l + 1) as En by (unfold n; lia).
  assert (l < Z.of_nat n * ip_apply p) as Hlt by nia.
  split; [by apply busy_run|]. split; [unfold StretchWithin; simpl; lia|]. split; [done|].
  split; [apply busy_touch|]. rewrite He. simpl. destruct Hp. lia.
Qed.

Lemma gone_in_time_all cfg p l t s : SaneIn p → 0 <= l →
  rtc (istep_within cfg p l) (i_init t) s →
  let late x tau := is_touched s !! x.1 = Some tau ∧ tau <= is_now s ∧
    is_now s <= Z.max x.2 tau + ip_wait p + l + 2 * ip_cycle p in
  (∀ k tk, c_tickets (is_cache s) !! k = Some tk → ∃ tau, late (k, as_time (tk_exp tk)) tau) ∧
  (∀ k, k ∈ c_inactive (is_cache s) → ∃ tau, late (k, old_from (cfg_ticket_ttl cfg) k) tau) ∧
  (∀ k, is_Some (c_assign (is_cache s) !! k) →
     ∃ tau, late (k, old_from (cfg_ticket_ttl cfg + cfg_assign_ttl cfg) k) tau).
Proof.
  intros Hp Hl Hr late. split_and!.
  - intros k tk Hk. apply (gone_in_time cfg p l t s k _ Hp Hl Hr). left. eauto.
  - intros k Hk. apply (gone_in_time cfg p l t s k _ Hp Hl Hr). right. left. done.
  - intros k Hk. apply (gone_in_time cfg p l t s k _ Hp Hl Hr). right. right. done.
Qed.

Lemma no_hard_limit : ¬ HardLimit.
Proof.
  intros H. assert (Hp : SaneIn (IParams 0 1 0)) by by vm_compute.
  destruct (busy_for_ever default_config (IParams 0 1 0) (lock_limit + 1) Hp ltac:(done))
    as (s & k & t & tau & Hr & Hno & _).
  exact (Hno (H default_config (IParams 0 1 0) 1 s Hp Hr)).
Qed.

Lemma not_gone_in_time : ¬ GoneInTime.
Proof.
  intros H. assert (Hp : SaneIn (IParams 0 1 0)) by by vm_compute.
  destruct (H default_config (IParams 0 1 0) Hp) as [l Hl].
  destruct (busy_for_ever default_config (IParams 0 1 0) l Hp ltac:(done))
    as (s & k & t & tau & Hr & _ & Ht & Hto & Hlt).
  specialize (Hl 1 s k t tau Hr Ht Hto). lia.
Qed.
