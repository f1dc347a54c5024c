(** C156: what clients see of an update, and from when. *)
From Coq Require Import String ZArith Lia.
From stdpp Require Import prelude strings gmap relations.
From Verif.Model Require Import GoStrings Types Proto Cache Replica MemRepl RedisRepl Queues Timing Visible RedisVisible Arrival RedisArrival Settings NetSettings.
From Verif.Spec Require Import CacheSpec TimingSpec VisibleSpec RedisVisibleSpec ArrivalSpec RedisArrivalSpec InEffectSpec SettingsSpec NetSpec.
From Verif.Proofs Require Import NetLemmas InEffectLemmas InEffectRun.
Local Open Scope Z_scope.

(** The cache of the loop with its times (C88, C152 to C155) is that of a history (C20 to C25): the updates that were
    applied, in their order, with expiration cycles in between whose readings of the clock are not in the future. *)
Theorem C156_same_cache_memory : ∀ cfg p cap t s, rtc (vstep cfg p cap) (v_init t) s →
  HistoryOf cfg t (is_now (vs_loop s)) (is_cache (vs_loop s)) (v_upd <$> (vs_done s).*1).
Proof. exact visible_history. Qed.
Print Assumptions C156_same_cache_memory.
Theorem C156_same_cache_redis : ∀ cfg p net cap t s, rtc (wstep cfg p net cap) (w_init t) s →
  HistoryOf cfg t (is_now (ws_loop s)) (is_cache (ws_loop s)) (v_upd <$> (ws_done s).*1).
Proof. exact redis_history. Qed.
Print Assumptions C156_same_cache_redis.

(** With the in-memory store: the update of a request is in effect at every moment after the time limit of C154. *)
Theorem C156_memory : ∀ cfg wait thr p cap st t s o l1 x l2, 0 < wait → SaneVisible p cap → rtc (light_step cfg wait thr p cap) (m_init st t) s →
  (o, x) ∈ ms_sent s → vs_all (ms_in s) = l1 ++ x :: l2 → in_cache_by wait p o (v_ahead x) < v_now (ms_in s) →
  InEffect cfg (v_now (ms_in s)) (is_cache (vs_loop (ms_in s))) (v_upd <$> l1) (v_upd x) (v_upd <$> l2).
Proof. exact memory_in_effect. Qed.
Print Assumptions C156_memory.

(** With Redis: at every instance, at every moment after the time limits of C155. *)
Theorem C156_redis : ∀ cfg q p net cap t s o l1 x l2, SaneOut q → SaneVisible p cap → 0 <= net → rtc (astep cfg q p net cap) (a_init t) s →
  (o, Some x) ∈ as_sent s → ws_all (as_in s) = l1 ++ x :: l2 →
  (answer_by q o + (redis_visible_by_any p net cap x - v_at x) < w_now (as_in s) ∨
   (v_ahead x < cap)%nat ∧ redis_in_cache_by q p net o (v_ahead x) < w_now (as_in s)) →
  InEffect cfg (w_now (as_in s)) (is_cache (ws_loop (as_in s))) (v_upd <$> l1) (v_upd x) (v_upd <$> l2).
Proof. exact redis_in_effect. Qed.
Print Assumptions C156_redis.

(** For a ticket that is created once and activated: from the time limit on, until it expires, all snapshots have it. *)
Theorem C156_activated : ∀ cfg q p net cap t s o l1 x l2 k v w, SaneOut q → SaneVisible p cap → 0 <= net → rtc (astep cfg q p net cap) (a_init t) s →
  (o, Some x) ∈ as_sent s → ws_all (as_in s) = l1 ++ x :: l2 → v_upd x = Update CmdActivate k w →
  Update CmdTicket k v ∈ v_upd <$> l1 → tickets_for k (v_upd <$> ws_all (as_in s)) = [v] → (∀ d, Update CmdDeactivate k d ∉ v_upd <$> l2) →
  (v_ahead x < cap)%nat → redis_in_cache_by q p net o (v_ahead x) < w_now (as_in s) →
  ¬ OlderThan (cfg_ticket_ttl cfg) (w_now (as_in s)) k → w_now (as_in s) <= as_time (tk_exp (stored_ticket k v)) →
  Active (is_cache (ws_loop (as_in s))) k ∧ c_tickets (is_cache (ws_loop (as_in s))) !! k = Some (stored_ticket k v).
Proof. exact redis_activated. Qed.
Print Assumptions C156_activated.

(** With the default settings, and without the time for work and network: 3.5 seconds with the in-memory store, *)
Theorem C156_default_memory : ∀ env cfg cap st t s o l1 x l2,
  NotGiven env "OM_CACHE_IN_WAIT_TIMEOUT_MS" → NotGiven env "OM_CACHE_OUT_WAIT_TIMEOUT_MS" → (0 < cap)%nat →
  rtc (light_step cfg (out_wait env) (out_threshold env) (IParams (in_wait env) 0 0) cap) (m_init st t) s →
  (o, x) ∈ ms_sent s → vs_all (ms_in s) = l1 ++ x :: l2 → of_at o + 3500 * 1000000 < v_now (ms_in s) →
  InEffect cfg (v_now (ms_in s)) (is_cache (vs_loop (ms_in s))) (v_upd <$> l1) (v_upd x) (v_upd <$> l2).
Proof.
  intros env cfg cap st t s o l1 x l2 Hi Ho Hcap Hr Hox E Hl. destruct (default_waits env) as (_ & Ei & Eo). rewrite (Ei Hi), (Eo Ho) in Hr.
  eapply memory_in_effect; [|  |exact Hr|exact Hox|exact E|]; [lia|repeat split; simpl; lia|]. unfold in_cache_by. simpl. lia.
Qed.
Print Assumptions C156_default_memory.
(** and 2 seconds with Redis. *)
Theorem C156_default_redis : ∀ env cfg cap t s o l1 x l2,
  NotGiven env "OM_CACHE_IN_WAIT_TIMEOUT_MS" → NotGiven env "OM_CACHE_OUT_WAIT_TIMEOUT_MS" → (0 < cap)%nat →
  rtc (astep cfg (OParams (out_wait env) (out_threshold env) 0) (IParams (in_wait env) 0 0) 0 cap) (a_init t) s →
  (o, Some x) ∈ as_sent s → ws_all (as_in s) = l1 ++ x :: l2 → (v_ahead x < cap)%nat → of_at o + 2000 * 1000000 < w_now (as_in s) →
  InEffect cfg (w_now (as_in s)) (is_cache (ws_loop (as_in s))) (v_upd <$> l1) (v_upd x) (v_upd <$> l2).
Proof.
  intros env cfg cap t s o l1 x l2 Hi Ho Hcap Hr Hox E Ha Hl. destruct (default_waits env) as (_ & Ei & Eo). rewrite (Ei Hi), (Eo Ho) in Hr.
  eapply redis_in_effect; [|  | |exact Hr|exact Hox|exact E|]; [split; simpl; lia|repeat split; simpl; lia|lia|].
  right. split; [done|]. unfold redis_in_cache_by, answer_by. simpl. lia.
Qed.
Print Assumptions C156_default_redis.

(** Example: waiting times of a second. A ticket is created and activated at the same moment; three seconds later the
    hypotheses of the theorem hold, and it is active. *)
Example C156_example : ∃ s, rtc (astep default_config run_out run_in 0 100) (a_init run_start) s ∧
  (run_o2, Some run_x2) ∈ as_sent s ∧ ws_all (as_in s) = [run_x1] ++ run_x2 :: [] ∧ v_upd run_x2 = Update CmdActivate "1000000-0" "" ∧
  redis_in_cache_by run_out run_in 0 run_o2 1 = run_start + 2 * 1000000000 ∧ w_now (as_in s) = run_start + 3 * 1000000000 ∧
  tickets_for "1000000-0" (v_upd <$> ws_all (as_in s)) = [u_value run_ticket] ∧
  ¬ OlderThan (cfg_ticket_ttl default_config) (w_now (as_in s)) "1000000-0" ∧
  w_now (as_in s) <= as_time (tk_exp (stored_ticket "1000000-0" (u_value run_ticket))) ∧
  Active (is_cache (ws_loop (as_in s))) "1000000-0".
Proof.
  destruct created_and_activated as (s & to & Hr & ->). eexists. split; [exact Hr|]. cbn [as_sent as_in calm ws_all ws_loop is_cache].
  split; [right; left|]. split; [done|]. split; [done|]. split; [vm_compute; reflexivity|]. split; [vm_compute; reflexivity|].
  split; [vm_compute; reflexivity|]. split; [vm_compute; discriminate|]. split; [vm_compute; discriminate|].
  split; [vm_compute; by eexists|]. vm_compute. congruence.
Qed.
