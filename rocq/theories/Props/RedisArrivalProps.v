(** C155: from a handler's request to the cache of each instance (Redis). *)
From Coq Require Import String ZArith Lia.
From stdpp Require Import prelude strings gmap relations.
From Verif.Model Require Import GoStrings Types Filter Cache MemRepl RedisRepl Queues Timing Visible RedisVisible Arrival RedisArrival Settings NetSettings.
From Verif.Spec Require Import TimingSpec RedisSpec VisibleSpec RedisVisibleSpec RedisArrivalSpec SettingsSpec NetSpec.
From Verif.Proofs Require Import RedisArrivalLemmas NetLemmas.
Local Open Scope Z_scope.

(** The requests of answered batches were dealt with in their order; what is in the stream is the update of the
    request (a new ticket with the id of the entry), complete, and was added between the request and the
    latest moment of its answer. *)
Theorem C155_handed_over : ∀ cfg q p net cap t s, SaneOut q → rtc (astep cfg q p net cap) (a_init t) s →
  (as_sent s).*1 ++ as_left s = (os_done (as_out s)).*1 ++ o_batch (as_out s) ∧
  ∀ o x, (o, Some x) ∈ as_sent s → x ∈ ws_all (as_in s) ∧ of_at o <= v_at x <= answer_by q o ∧
    Sendable (rq_update (of_req o)) ∧ ∃ i, v_upd x = as_read i (rq_update (of_req o)).
Proof. exact redis_arrival_sent. Qed.
Print Assumptions C155_handed_over.

(** Each such update is applied at each instance in bounded time: with fewer than OM_CACHE_IN_MAX_UPDATES_PER_POLL
    ahead of it there, *)
Theorem C155_in_time : ∀ cfg q p net cap t s o x, SaneOut q → SaneVisible p cap → 0 <= net → rtc (astep cfg q p net cap) (a_init t) s →
  (o, Some x) ∈ as_sent s → (v_ahead x < cap)%nat →
  (∀ t', (x, t') ∈ ws_done (as_in s) → of_at o <= t' <= redis_in_cache_by q p net o (v_ahead x)) ∧
  (x ∉ (ws_done (as_in s)).*1 → w_now (as_in s) <= redis_in_cache_by q p net o (v_ahead x)).
Proof. exact redis_arrival_in_time. Qed.
Print Assumptions C155_in_time.

(** and with any number. *)
Theorem C155_in_time_any : ∀ cfg q p net cap t s o x, SaneOut q → SaneVisible p cap → 0 <= net → rtc (astep cfg q p net cap) (a_init t) s →
  (o, Some x) ∈ as_sent s → let late := answer_by q o + (redis_visible_by_any p net cap x - v_at x) in
  (∀ t', (x, t') ∈ ws_done (as_in s) → of_at o <= t' <= late) ∧ (x ∉ (ws_done (as_in s)).*1 → w_now (as_in s) <= late).
Proof. exact redis_arrival_in_time_any. Qed.
Print Assumptions C155_in_time_any.

(** The parts are the loops that C87 and C153 are about. *)
Theorem C155_same_loops : ∀ cfg q p net cap t s, SaneOut q → rtc (astep cfg q p net cap) (a_init t) s →
  rtc (ostep q) (o_init t) (as_out s) ∧ rtc (wstep cfg p net cap) (w_init t) (as_in s) ∧ os_now (as_out s) = w_now (as_in s).
Proof. exact redis_arrival_parts. Qed.
Print Assumptions C155_same_loops.

(** The bound is exact, if OM_CACHE_IN_WAIT_TIMEOUT_MS is a multiple of OM_CACHE_OUT_WAIT_TIMEOUT_MS and work
    and network take no time; for requests that nobody was waiting before. *)
Theorem C155_exact : ∀ cfg wait thr cap k b, 0 < wait → 1 < thr → (0 < cap)%nat →
  let w := Z.of_nat (S k) * wait in
  (∀ t s o x t', rtc (astep cfg (OParams wait thr 0) (IParams w 0 0) 0 cap) (a_init t) s →
     (o, Some x) ∈ as_sent s → (v_ahead x < cap)%nat → (x, t') ∈ ws_done (as_in s) → t' <= of_at o + b) ↔ wait + w <= b.
Proof.
  intros cfg wait thr cap k b Hw Ht Hcap w.
  assert (SaneVisible (IParams w 0 0) cap) as Hp by (unfold w; repeat split; simpl; lia). split.
  - intros H. pose (rq := Request (Update CmdActivate "1-0" "") 0).
    destruct (redis_longest_way cfg wait thr (IParams w 0 0) 0 cap Hw ltac:(lia) Hcap k 0 rq (1, 0) ["activate"; "1-0"] (rq_update rq)) as (s & Hr & Es & Ed);
      [done|done|done|done|].
    specialize (H 0 s _ _ _ Hr ltac:(rewrite Es; left) Hcap ltac:(rewrite Ed; left)). simpl in H. lia.
  - intros Hb t s o x t' Hr Hox Ha Hx.
    destruct (redis_arrival_in_time cfg (OParams wait thr 0) _ 0 cap t s o x ltac:(split; simpl; lia) Hp ltac:(lia) Hr Hox Ha) as [H _].
    specialize (H t' Hx). unfold redis_in_cache_by, answer_by in H. simpl in H. lia.
Qed.
Print Assumptions C155_exact.

(** With the default settings: up to 2 seconds (3.5 with the in-memory store, C154). *)
Theorem C155_default : ∀ env cfg cap b,
  NotGiven env "OM_CACHE_IN_WAIT_TIMEOUT_MS" → NotGiven env "OM_CACHE_OUT_WAIT_TIMEOUT_MS" → NotGiven env "OM_CACHE_OUT_MAX_QUEUE_THRESHOLD" → (0 < cap)%nat →
  (∀ t s o x t', rtc (astep cfg (OParams (out_wait env) (out_threshold env) 0) (IParams (in_wait env) 0 0) 0 cap) (a_init t) s →
     (o, Some x) ∈ as_sent s → (v_ahead x < cap)%nat → (x, t') ∈ ws_done (as_in s) → t' <= of_at o + b) ↔ 2000 * 1000000 <= b.
Proof.
  intros env cfg cap b Hi Ho Ht Hcap. destruct (default_waits env) as (_ & Ei & Eo). rewrite (Ei Hi), (Eo Ho).
  assert (out_threshold env = 50) as -> by (unfold out_threshold, get_int, env_value; destruct Ht as [-> | ->]; reflexivity).
  pose proof (C155_exact cfg (500 * 1000000) 50 cap 2 b ltac:(lia) ltac:(lia) Hcap) as H. cbv zeta in H.
  change (Z.of_nat 3 * (500 * 1000000)) with (1500 * 1000000) in H. rewrite H. lia.
Qed.
Print Assumptions C155_default.

(** Example: the default settings; 20 ms for a pipeline, a microsecond for an update, five milliseconds for an expiration cycle, one
    for the network. *)
Example C155_example : let q := OParams (500 * 1000000) 50 (20 * 1000000) in let p := IParams (1500 * 1000000) 1000 (5 * 1000000) in
  let rq := Request (Update CmdActivate "1-0" "") 7 in
  SaneOut q ∧ SaneVisible p 100 ∧ redis_in_cache_by q p 1000000 (Offered rq 0 10) 20 = 2048022000 ∧
  ∃ s x, rtc (astep default_config (OParams (500 * 1000000) 50 0) (IParams (1500 * 1000000) 0 0) 0 100) (a_init 0) s ∧
    as_sent s = [(Offered rq (1000 * 1000000) 0, Some x)] ∧ ws_done (as_in s) = [(x, 3000 * 1000000)].
Proof.
  intros q p rq. split; [repeat split; simpl; lia|]. split; [repeat split; simpl; lia|]. split; [vm_compute; reflexivity|].
  destruct (redis_longest_way default_config (500 * 1000000) 50 (IParams (1500 * 1000000) 0 0) 0 100 ltac:(lia) ltac:(lia) ltac:(lia) 2 0 rq (1, 0) ["activate"; "1-0"] (rq_update rq)) as (s & Hr & Es & Ed);
    [done|lia|done|done|]. by exists s, (VItem (rq_update rq) (1500 * 1000000) 0).
Qed.
