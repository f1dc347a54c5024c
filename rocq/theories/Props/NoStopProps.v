(** C157: the replication loops do not get stuck. *)
From Coq Require Import String ZArith Lia.
From stdpp Require Import prelude strings gmap relations.
From Verif.Model Require Import GoStrings Types Filter Cache MemRepl RedisRepl Queues Timing Visible RedisVisible Arrival RedisArrival.
From Verif.Spec Require Import TimingSpec RedisSpec VisibleSpec RedisVisibleSpec ArrivalSpec RedisArrivalSpec.
From Verif.Proofs Require Import ArrivalLemmas NoStopLemmas NoStopMore.
Local Open Scope Z_scope.

(** With the in-memory store: from every state the process can get into, it can go on, without any further
    request, to any later moment; and there all requests are answered and handed over in their order and all their
    updates are applied. So the limits of C87, C88, C152 and C154 are not kept because time stands still. *)
Theorem C157_memory : ∀ cfg wait thr p cap st t s T, 0 < wait → SaneVisible p cap → rtc (mstep cfg wait thr p cap) (m_init st t) s →
  ∃ s', rtc (mstep cfg wait thr p cap) s s' ∧ os_all (ms_out s') = os_all (ms_out s) ∧ T <= v_now (ms_in s') ∧
    (os_done (ms_out s')).*1 = os_all (ms_out s) ∧ (ms_sent s').*1 = os_all (ms_out s) ∧ (vs_done (ms_in s')).*1 = vs_all (ms_in s').
Proof. intros cfg wait thr p cap st t s T Hw Hp. by apply memory_finishes. Qed.
Print Assumptions C157_memory.

(** The same with Redis, at each instance (for C153 and C155); no update has to be lost on the way but those that
    SendUpdates refuses. *)
Theorem C157_redis : ∀ cfg q p net cap t s T, SaneOut q → SaneVisible p cap → 0 <= net → rtc (astep cfg q p net cap) (a_init t) s →
  ∃ s', rtc (astep cfg q p net cap) s s' ∧ os_all (as_out s') = os_all (as_out s) ∧ T <= w_now (as_in s') ∧
    (os_done (as_out s')).*1 = os_all (as_out s) ∧ (as_sent s').*1 = os_all (as_out s) ∧ (ws_done (as_in s')).*1 = ws_all (as_in s') ∧
    ∀ o, (o, None) ∈ as_sent s' → (o, None) ∈ as_sent s ∨ ¬ Sendable (rq_update (of_req o)).
Proof. exact redis_finishes. Qed.
Print Assumptions C157_redis.

(** Waiting is possible by any length of time, to the nanosecond, *)
Theorem C157_memory_any_time : ∀ cfg wait thr p cap st t s n, 0 < wait → SaneVisible p cap → rtc (mstep cfg wait thr p cap) (m_init st t) s →
  ∃ s', rtc (mstep cfg wait thr p cap) s s' ∧ os_all (ms_out s') = os_all (ms_out s) ∧ v_now (ms_in s') = v_now (ms_in s) + Z.of_nat n.
Proof. intros cfg wait thr p cap st t s n Hw Hp. by apply m_passes. Qed.
Print Assumptions C157_memory_any_time.

(** also for the two loops on the way into the cache alone, without any update reaching them *)
Theorem C157_reading_memory : ∀ cfg p cap t v n, SaneVisible p cap → rtc (vstep cfg p cap) (v_init t) v →
  ∃ v', rtc (vstep cfg p cap) v v' ∧ vs_all v' = vs_all v ∧ v_now v' = v_now v + Z.of_nat n.
Proof. intros cfg p cap t v n Hp. by apply v_passes. Qed.
Print Assumptions C157_reading_memory.
(** (with a network that needs up to [net]). *)
Theorem C157_reading_redis : ∀ cfg p net cap t w n, SaneVisible p cap → 0 <= net → rtc (wstep cfg p net cap) (w_init t) w →
  ∃ w', rtc (wstep cfg p net cap) w w' ∧ ws_all w' = ws_all w ∧ w_now w' = w_now w + Z.of_nat n.
Proof. intros cfg p net cap t w n Hp Hn. by apply w_passes. Qed.
Print Assumptions C157_reading_redis.

(** Example: two requests wait at the first moment. Both are answered and applied at some time after the end of the year. *)
Definition two_requests : list request := [Request (Update CmdActivate "1-0" "") 0; Request (Update CmdDeactivate "1-0" "") 1].
Example C157_example : ∃ s s', rtc (mstep default_config 1000000 2 (IParams 1000000 0 0) 100) (m_init (mem_new 0) 0) s ∧
  os_done (ms_out s) = [] ∧ of_req <$> os_all (ms_out s) = two_requests ∧
  rtc (mstep default_config 1000000 2 (IParams 1000000 0 0) 100) s s' ∧ 365 * 24 * 3600 * 1000000000 <= v_now (ms_in s') ∧
  of_req <$> (os_done (ms_out s')).*1 = two_requests ∧ v_upd <$> (vs_done (ms_in s')).*1 = rq_update <$> two_requests.
Proof.
  pose (rq1 := Request (Update CmdActivate "1-0" "") 0). pose (rq2 := Request (Update CmdDeactivate "1-0" "") 1).
  pose (o1 := Offered rq1 0 0). pose (o2 := Offered rq2 0 1).
  pose (s := MState (OState 0 [o1; o2] (OCollect 0 []) [] [o1; o2]) [] (mem_new 0) (v_init 0) []).
  assert (rtc (mstep default_config 1000000 2 (IParams 1000000 0 0) 100) (m_init (mem_new 0) 0) s) as Hr.
  { eapply rtc_l; [eapply MOffer; [apply (OSOffer _ rq1)|done|done]|]. apply rtc_once. eapply MOffer; [apply (OSOffer _ rq2)|done|done]. }
  assert (SaneVisible (IParams 1000000 0 0) 100) as Hp by (repeat split; simpl; lia).
  destruct (C157_memory default_config 1000000 2 _ _ _ 0 s (365 * 24 * 3600 * 1000000000) ltac:(lia) Hp Hr) as (s' & Hs & Ea & HT & Ed & Es & Ev).
  exists s, s'. split; [exact Hr|]. split; [done|]. split; [done|]. split; [exact Hs|]. split; [exact HT|]. split; [by rewrite Ed|].
  destruct (minv_reach _ _ _ _ _ _ _ s' (rtc_transitive _ _ _ Hr Hs)) as [_ _ _ Hal Has].
  rewrite Ev, <-Hal. destruct (ms_sent s') as [|[y1 x1] [|[y2 x2] [|]]]; try done. simpl in Es. injection Es as -> ->.
  destruct (Has o1 x1 ltac:(left)) as (A1 & A2 & A3). destruct (Has o2 x2 ltac:(right; left)) as (B1 & B2 & B3). simpl in A3, B3.
  destruct x1 as [[c1 k1 v1] ? ?], x2 as [[c2 k2 v2] ? ?]. simpl in *. by subst.
Qed.
