(** C87 and C88: how long the two replication loops take. *)
From Coq Require Import Ascii String ZArith NArith Lia.
From stdpp Require Import prelude strings gmap relations.
From Verif.Model Require Import GoStrings Types Cache MemRepl Queues Replica Timing.
From Verif.Spec Require Import CacheSpec TimingSpec.
From Verif.Proofs Require Import CacheLemmas TimingLemmas.
Local Open Scope Z_scope.

(** C87: every request is answered at the latest after the waiting time, plus the
    time of two executions, plus one for each full batch of those that were waiting
    before it; and no request is unanswered longer. *)
Theorem C87_answered_in_time : ∀ p t s, SaneOut p → rtc (ostep p) (o_init t) s →
  (∀ o t', (o, t') ∈ os_done s → of_at o <= t' <= answer_by p o) ∧
  (∀ o, o ∈ os_all s → o ∉ (os_done s).*1 → os_now s <= answer_by p o).
Proof. exact answered_in_time. Qed.
Print Assumptions C87_answered_in_time.

(** Answers are given in the order of the requests. *)
Theorem C87_first_come_first_served : ∀ p t s, SaneOut p → rtc (ostep p) (o_init t) s →
  (os_done s).*1 `prefix_of` os_all s.
Proof. exact answered_in_order. Qed.
Print Assumptions C87_first_come_first_served.

(** The batches are those of the loop without timers that C12 is about. *)
Theorem C87_same_batches : ∀ p t s, rtc (ostep p) (o_init t) s →
  ∃ es, let q := q_run (op_thr p) q_init es in
    match os_phase s with
    | OCollect _ b => q_pending q = map of_req b ∧
        concat (q_batches q) = map of_req ((os_done s).*1)
    | OSend _ b => q_pending q = [] ∧ b ≠ [] ∧
        ∃ bs, q_batches q = bs ++ [map of_req b] ∧ concat bs = map of_req ((os_done s).*1)
    end.
Proof. exact timed_batches. Qed.
Print Assumptions C87_same_batches.

(** The bound is reached: a request that comes just when the timer of an almost
    empty batch fires has to wait for two executions and a whole waiting time. *)
Definition t87_p : oparams := OParams (500 * 1000000) 2 (20 * 1000000).
Definition t87_r (n : nat) : request := Request (Update CmdActivate "1-0" "") n.
Definition t87_x : offered := Offered (t87_r 0) 0 0.
Definition t87_a : offered := Offered (t87_r 1) (500 * 1000000) 0.
Example C87_example : ∃ s, SaneOut t87_p ∧ rtc (ostep t87_p) (o_init 0) s ∧
  os_done s = [(t87_x, 520 * 1000000); (t87_a, 1040 * 1000000)] ∧
  answer_by t87_p t87_a = 1040 * 1000000.
Proof.
  eexists. split; [by vm_compute|]. split; [|split; [|vm_compute; reflexivity]].
  - eapply rtc_l; [apply (OSOffer t87_p (t87_r 0))|].
    eapply rtc_l; [apply OSAccept|]. change (o_full _ _) with false.
    eapply rtc_l; [apply (OSIdle t87_p 0 (500 * 1000000)); by vm_compute|].
    eapply rtc_l; [apply (OSOffer t87_p (t87_r 1))|].
    eapply rtc_l; [apply OSFire; by vm_compute|].
    eapply rtc_l; [apply (OSWork t87_p _ (20 * 1000000)); by vm_compute|].
    eapply rtc_l; [apply OSReturn|].
    eapply rtc_l; [apply OSAccept|]. change (o_full _ _) with false.
    eapply rtc_l; [apply (OSIdle t87_p _ (500 * 1000000)); by vm_compute|].
    eapply rtc_l; [apply OSFire; by vm_compute|].
    eapply rtc_l; [apply (OSWork t87_p _ (20 * 1000000)); by vm_compute|].
    eapply rtc_l; [apply OSReturn|]. apply rtc_refl.
  - vm_compute. reflexivity.
Qed.

(** C88, as far as it holds: while no stretch of updates takes longer than [l],
    what has expired is gone after the waiting time, [l], and two expiration cycles;
    counted from the expiration or from the last update for the id, whichever is
    later. Missing: nothing bounds [l], see below. *)
Theorem C88_gone_in_time_partial : ∀ cfg p l t s, SaneIn p → 0 <= l →
  rtc (istep_within cfg p l) (i_init t) s →
  let late x tau := is_touched s !! x.1 = Some tau ∧ tau <= is_now s ∧
    is_now s <= Z.max x.2 tau + ip_wait p + l + 2 * ip_cycle p in
  (∀ k tk, c_tickets (is_cache s) !! k = Some tk → ∃ tau, late (k, as_time (tk_exp tk)) tau) ∧
  (∀ k, k ∈ c_inactive (is_cache s) → ∃ tau, late (k, old_from (cfg_ticket_ttl cfg) k) tau) ∧
  (∀ k, is_Some (c_assign (is_cache s) !! k) →
     ∃ tau, late (k, old_from (cfg_ticket_ttl cfg + cfg_assign_ttl cfg) k) tau).
Proof. exact gone_in_time_all. Qed.
Print Assumptions C88_gone_in_time_partial.

(** A stretch takes as long as its updates take: those found in the channel and
    those that arrive meanwhile. *)
Theorem C88_stretch_length : ∀ cfg p t s since r h m a, SaneIn p →
  rtc (istep cfg p) (i_init t) s → is_phase s = IApply since r h m a →
  (h + m = a + length (is_chan s))%nat ∧ is_now s - since <= (Z.of_nat a + 1) * ip_apply p.
Proof. exact stretch_length. Qed.
Print Assumptions C88_stretch_length.

(** If updates arrive more slowly than they are applied (at most [b] at once, then
    one in [g] nanoseconds), it is bounded. *)
Theorem C88_stretch_bounded : ∀ cfg p t s since r h m a b g, SaneIn p →
  rtc (istep cfg p) (i_init t) s → is_phase s = IApply since r h m a → ip_apply p < g →
  Z.of_nat m * g <= b * g + (is_now s - since) →
  (is_now s - since) * (g - ip_apply p) <= (Z.of_nat h + b + 1) * ip_apply p * g.
Proof. exact stretch_bounded. Qed.
Print Assumptions C88_stretch_bounded.

(** The limit of 500 ms never ends a stretch, only an empty channel does, exactly
    if a single round takes less than 500 ms: the timer is made anew in each. *)
Theorem C88_limit_has_no_effect : ∀ cfg p, SaneIn p → OnlyEmptyEnds cfg p ↔ ip_apply p < half_a_second.
Proof. exact limit_exact. Qed.
Print Assumptions C88_limit_has_no_effect.

(** So there is no limit, and an expired ticket can stay for any length of time. *)
Theorem C88_hard_limit_refuted : ¬ HardLimit.
Proof. exact no_hard_limit. Qed.
Print Assumptions C88_hard_limit_refuted.

Theorem C88_gone_in_time_refuted : ¬ GoneInTime.
Proof. exact not_gone_in_time. Qed.
Print Assumptions C88_gone_in_time_refuted.

(** A ticket that has expired when it arrives is there while it waits for the
    expiration cycle, and gone after it. *)
Definition t88_p : iparams := IParams (1500 * 1000000) 1000 (5 * 1000000).
Definition t88_o : cycle_orders :=
  CycleOrders [("1-0"%string, 1500 * 1000000 + 2)] [("1-0"%string, 1500 * 1000000 + 3)] [].
Definition t88_cfg : config := default_config.
Example C88_example : ∃ s s', SaneIn t88_p ∧
  rtc (istep_within t88_cfg t88_p 1000) (i_init 1) s ∧
  is_Some (c_tickets (is_cache s) !! "1-0"%string) ∧
  rtc (istep_within t88_cfg t88_p 1000) s s' ∧
  c_tickets (is_cache s') !! "1-0"%string = None.
Proof.
  exists (IState (1 + 1500 * 1000000) [] (apply_update empty_cache blank_u)
            (ICycle (1 + 1500 * 1000000)) (<["1-0"%string := 1 + 1500 * 1000000]> ∅)).
  eexists. split; [by vm_compute|]. split.
  { eapply rtc_l; [split; [apply (ISleeping t88_cfg t88_p (1500 * 1000000)); by vm_compute|done]|].
    eapply rtc_l; [split; [apply IWake; by vm_compute|by vm_compute]|].
    eapply rtc_l; [split; [apply (IArrive t88_cfg t88_p blank_u)|by vm_compute]|].
    eapply rtc_l; [split; [apply IUpdate|by vm_compute]|].
    eapply rtc_l; [split; [apply IEmpty|by vm_compute]|]. apply rtc_refl. }
  split; [eexists; vm_compute; reflexivity|]. split.
  { eapply rtc_l; [split; [apply (ICycling t88_cfg t88_p 3000); by vm_compute|done]|].
    eapply rtc_l; [split; [apply (ICycled t88_cfg t88_p t88_o)|done]|apply rtc_refl].
    - unfold orders_fit. split_and!; vm_compute; reflexivity.
    - intros v Hv. unfold t88_o in Hv. cbn in Hv.
      repeat (apply elem_of_cons in Hv as [->|Hv]; [by vm_compute|]). by apply elem_of_nil in Hv. }
  vm_compute. reflexivity.
Qed.
