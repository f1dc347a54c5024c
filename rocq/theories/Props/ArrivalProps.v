(** C154: from a handler's request to the cache (in-memory store). *)
From Coq Require Import String ZArith Lia.
From stdpp Require Import prelude strings gmap relations.
From Verif.Model Require Import GoStrings Types Cache MemRepl Queues Timing Visible Arrival Settings NetSettings.
From Verif.Spec Require Import TimingSpec VisibleSpec ArrivalSpec SettingsSpec NetSpec.
From Verif.Proofs Require Import VisibleLemmas ArrivalLemmas NetLemmas.
Local Open Scope Z_scope.

(** In every run: the updates of the requests are handed over in the order of the requests, each once; a
    request is answered after its update was handed over; nothing else gets into the cache. *)
Theorem C154_handed_over : ∀ cfg wait thr p cap st t s, rtc (mstep cfg wait thr p cap) (m_init st t) s →
  (ms_sent s).*1 ++ ms_left s = (os_done (ms_out s)).*1 ++ o_batch (ms_out s) ∧ (ms_sent s).*2 = vs_all (ms_in s) ∧
  (∀ o x, (o, x) ∈ ms_sent s → stored_as (rq_update (of_req o)) (v_upd x)).
Proof. exact end_to_end_sent. Qed.
Print Assumptions C154_handed_over.

(** While fewer than OM_CACHE_IN_MAX_UPDATES_PER_POLL updates are on their way, every request is answered within
    OM_CACHE_OUT_WAIT_TIMEOUT_MS: SendUpdates does not have to wait. *)
Theorem C154_answers : ∀ cfg wait thr p cap st t s, 0 < wait → SaneVisible p cap → rtc (light_step cfg wait thr p cap) (m_init st t) s →
  (∀ o t', (o, t') ∈ os_done (ms_out s) → of_at o <= t' <= of_at o + wait) ∧
  (∀ o, o ∈ os_all (ms_out s) → o ∉ (os_done (ms_out s)).*1 → os_now (ms_out s) <= of_at o + wait).
Proof. exact end_to_end_answers. Qed.
Print Assumptions C154_answers.

(** And its update is in the cache within twice OM_CACHE_IN_WAIT_TIMEOUT_MS more (and the time of the work). *)
Theorem C154_in_time : ∀ cfg wait thr p cap st t s o x, 0 < wait → SaneVisible p cap → rtc (light_step cfg wait thr p cap) (m_init st t) s →
  (o, x) ∈ ms_sent s →
  (∀ t', (x, t') ∈ vs_done (ms_in s) → of_at o <= t' <= in_cache_by wait p o (v_ahead x)) ∧
  (x ∉ (vs_done (ms_in s)).*1 → v_now (ms_in s) <= in_cache_by wait p o (v_ahead x)).
Proof. exact end_to_end_in_time. Qed.
Print Assumptions C154_in_time.

(** The parts are the loops that C87 and C152 are about. *)
Theorem C154_same_loops : ∀ cfg wait thr p cap st t s, 0 < wait → SaneVisible p cap → rtc (light_step cfg wait thr p cap) (m_init st t) s →
  rtc (ostep (OParams wait thr 0)) (o_init t) (ms_out s) ∧ rtc (vstep cfg p cap) (v_init t) (ms_in s) ∧ os_now (ms_out s) = v_now (ms_in s).
Proof. exact end_to_end_parts. Qed.
Print Assumptions C154_same_loops.

(** The bound is exact, if OM_CACHE_IN_WAIT_TIMEOUT_MS is a multiple of OM_CACHE_OUT_WAIT_TIMEOUT_MS
    and the work takes no time. *)
Theorem C154_exact : ∀ cfg wait thr cap k b, 0 < wait → 1 < thr → (1 < cap)%nat →
  let w := Z.of_nat (S k) * wait in
  (∀ st t s o x t', rtc (light_step cfg wait thr (IParams w 0 0) cap) (m_init st t) s →
     (o, x) ∈ ms_sent s → (x, t') ∈ vs_done (ms_in s) → t' <= of_at o + b) ↔ wait + 2 * w <= b.
Proof.
  intros cfg wait thr cap k b Hw Ht Hcap w.
  assert (SaneVisible (IParams w 0 0) cap) as Hp by (unfold w; repeat split; simpl; lia). split.
  - intros H. pose (rq := Request (Update CmdActivate "1-0" "") 0).
    destruct (longest_way cfg wait thr (IParams w 0 0) cap Hw ltac:(lia) k (mem_new 0) 0 rq (rq_update rq)
      (mem_send1 (mem_new 0) (rq_update rq) (0, 0)).1.2 (mem_send1 (mem_new 0) (rq_update rq) (0, 0)).2 (0, 0)) as (s & Hr & Es & Ed); try done.
    specialize (H _ _ s _ _ _ Hr ltac:(rewrite Es; left) ltac:(rewrite Ed; left)). simpl in H. lia.
  - intros Hb st t s o x t' Hr Hox Hx. destruct (end_to_end_in_time cfg wait thr _ cap st t s o x Hw Hp Hr Hox) as [H _].
    specialize (H t' Hx). unfold in_cache_by in H. simpl in H. lia.
Qed.
Print Assumptions C154_exact.

(** With the default settings: up to 3.5 seconds. *)
Theorem C154_default : ∀ env cfg cap b,
  NotGiven env "OM_CACHE_IN_WAIT_TIMEOUT_MS" → NotGiven env "OM_CACHE_OUT_WAIT_TIMEOUT_MS" → NotGiven env "OM_CACHE_OUT_MAX_QUEUE_THRESHOLD" → (1 < cap)%nat →
  (∀ st t s o x t', rtc (light_step cfg (out_wait env) (out_threshold env) (IParams (in_wait env) 0 0) cap) (m_init st t) s →
     (o, x) ∈ ms_sent s → (x, t') ∈ vs_done (ms_in s) → t' <= of_at o + b) ↔ 3500 * 1000000 <= b.
Proof.
  intros env cfg cap b Hi Ho Ht Hcap. destruct (default_waits env) as (_ & Ei & Eo). rewrite (Ei Hi), (Eo Ho).
  assert (out_threshold env = 50) as -> by (unfold out_threshold, get_int, env_value; destruct Ht as [-> | ->]; reflexivity).
  pose proof (C154_exact cfg (500 * 1000000) 50 cap 2 b ltac:(lia) ltac:(lia) Hcap) as H. cbv zeta in H.
  change (Z.of_nat 3 * (500 * 1000000)) with (1500 * 1000000) in H. rewrite H. lia.
Qed.
Print Assumptions C154_default.

(** With the channel full this is lost: the answer itself waits until the cache takes updates again. *)
Theorem C154_late_when_full : ∀ cfg, ∃ wait thr p cap st t s o t', 0 < wait ∧ SaneVisible p cap ∧ ip_apply p = 0 ∧ ip_cycle p = 0 ∧
  rtc (mstep cfg wait thr p cap) (m_init st t) s ∧ (o, t') ∈ os_done (ms_out s) ∧ of_at o + wait < t'.
Proof.
  intros cfg. destruct (late_answer cfg) as (s & Hr & Hin). exists 1, 1, late_p, 1%nat, (mem_new 0), 0, s. eexists _, 4.
  split; [lia|]. split; [repeat split; simpl; lia|]. do 2 (split; [done|]). split; [done|]. split; [exact Hin|]. simpl. lia.
Qed.
Print Assumptions C154_late_when_full.

(** Example: the default settings; a microsecond for an update, five milliseconds for an expiration cycle. *)
Example C154_example : let p := IParams (1500 * 1000000) 1000 (5 * 1000000) in let rq := Request (Update CmdActivate "1-0" "") 7 in
  SaneVisible p 100 ∧ in_cache_by (500 * 1000000) p (Offered rq 0 0) 20 = 3505022000 ∧
  ∃ s x, rtc (light_step default_config (500 * 1000000) 50 (IParams (1500 * 1000000) 0 0) 100) (m_init (mem_new 0) 0) s ∧
    ms_sent s = [(Offered rq (1000 * 1000000) 0, x)] ∧ vs_done (ms_in s) = [(x, 4500 * 1000000)].
Proof.
  intros p rq. split; [repeat split; simpl; lia|]. split; [vm_compute; reflexivity|].
  destruct (longest_way default_config (500 * 1000000) 50 (IParams (1500 * 1000000) 0 0) 100 ltac:(lia) ltac:(lia) 2 (mem_new 0) 0 rq (rq_update rq)
    (mem_send1 (mem_new 0) (rq_update rq) (0, 0)).1.2 (mem_send1 (mem_new 0) (rq_update rq) (0, 0)).2 (0, 0)) as (s & Hr & Es & Ed);
    [done|lia|lia|done|]. by exists s, (VItem (rq_update rq) (1500 * 1000000) 0).
Qed.
