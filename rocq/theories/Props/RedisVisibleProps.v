(** C153: when updates are in the cache of each instance (Redis). *)
From Coq Require Import String ZArith Lia.
From stdpp Require Import prelude strings gmap relations.
From Verif.Model Require Import GoStrings Types Cache MemRepl Queues Timing Visible RedisVisible Settings NetSettings.
From Verif.Spec Require Import VisibleSpec RedisVisibleSpec SettingsSpec NetSpec.
From Verif.Proofs Require Import VisibleLemmas RedisVisibleLemmas NetLemmas.
Local Open Scope Z_scope.

(** Every update with fewer than OM_CACHE_IN_MAX_UPDATES_PER_POLL others ahead of it at an instance is
    applied there in bounded time, however many come after it; none is on its way
    longer. *)
Theorem C153_in_time : ∀ cfg p net cap t s, SaneVisible p cap → 0 <= net → rtc (wstep cfg p net cap) (w_init t) s →
  (∀ x t', (x, t') ∈ ws_done s → (v_ahead x < cap)%nat → v_at x <= t' <= redis_visible_by p net x) ∧
  (∀ x, x ∈ ws_all s → x ∉ (ws_done s).*1 → (v_ahead x < cap)%nat → is_now (ws_loop s) <= redis_visible_by p net x).
Proof. exact redis_in_time. Qed.
Print Assumptions C153_in_time.

(** And with any number of others ahead of it. *)
Theorem C153_in_time_any : ∀ cfg p net cap t s, SaneVisible p cap → 0 <= net → rtc (wstep cfg p net cap) (w_init t) s →
  (∀ x t', (x, t') ∈ ws_done s → v_at x <= t' <= redis_visible_by_any p net cap x) ∧
  (∀ x, x ∈ ws_all s → x ∉ (ws_done s).*1 → is_now (ws_loop s) <= redis_visible_by_any p net cap x).
Proof. exact redis_in_time_any. Qed.
Print Assumptions C153_in_time_any.
Example C153_many_example : let p := IParams (1500 * 1000000) 1000 (5 * 1000000) in
  redis_visible_by_any p 1000000 100 (VItem (Update CmdActivate "1-0" "") 0 250) = 15057261000.
Proof. vm_compute. reflexivity. Qed.

(** In the order of the stream, none twice and none left out; by the loop that C88 is about. *)
Theorem C153_in_order : ∀ cfg p net cap t s, SaneVisible p cap → 0 <= net → rtc (wstep cfg p net cap) (w_init t) s →
  ws_all s = (ws_done s).*1 ++ on_the_way_redis s ∧ v_upd <$> ws_chan s = is_chan (ws_loop s).
Proof. exact redis_in_order. Qed.
Print Assumptions C153_in_order.
Theorem C153_same_loop : ∀ cfg p net cap t s, rtc (wstep cfg p net cap) (w_init t) s → rtc (istep cfg p) (i_init t) (ws_loop s).
Proof. intros cfg p net cap t s. exact (redis_loop cfg p net cap (w_init t) s). Qed.
Print Assumptions C153_same_loop.

(** XREAD is answered with the next entries as soon as there are some; with nothing when the time of
    BLOCK is over, not before. *)
Theorem C153_question_length : ∀ cfg p net cap t s s' since since' got,
  SaneVisible p cap → 0 <= net → rtc (wstep cfg p net cap) (w_init t) s → wstep cfg p net cap s s' →
  ws_reader s = QAsk since → ws_reader s' = QReply since' got →
  since' = is_now (ws_loop s) ∧ got = take cap (ws_stream s) ∧ ws_stream s' = drop cap (ws_stream s) ∧
  match ws_stream s with
  | [] => since + ip_wait p <= since' <= since + ip_wait p + net
  | x :: _ => since <= since' <= Z.max since (v_at x) + net
  end.
Proof. exact question_length. Qed.
Print Assumptions C153_question_length.

(** Exactly: if work and network take no time, within [b] if and only if [b] is the waiting time or
    more (half of what the in-memory store takes, C152). *)
Theorem C153_soon_iff : ∀ cfg w cap b, 0 < w → (0 < cap)%nat →
  (∀ t s x t', rtc (wstep cfg (IParams w 0 0) 0 cap) (w_init t) s → (x, t') ∈ ws_done s → (v_ahead x < cap)%nat → t' <= v_at x + b) ↔ w <= b.
Proof.
  intros cfg w cap b Hw Hcap. assert (SaneVisible (IParams w 0 0) cap) as Hp by (repeat split; simpl; lia). split.
  - intros H. destruct (redis_the_wait cfg _ 0 cap 0 (Update CmdActivate "1-0" "") Hp ltac:(lia)) as (s & Hr & Hd).
    specialize (H 0 s (VItem (Update CmdActivate "1-0" "") 0 0) w Hr). rewrite Hd in H. simpl in H.
    specialize (H ltac:(left) Hcap). lia.
  - intros Hb t s x t' Hr Hx Ha. destruct (proj1 (redis_in_time cfg _ 0 cap t s Hp ltac:(lia) Hr) x t' Hx Ha) as [_ Hle].
    unfold redis_visible_by in Hle. simpl in Hle. lia.
Qed.
Print Assumptions C153_soon_iff.

(** So the 100 ms of the check whether a match's tickets are deactivated (C43) are enough with a
    setting of 100 ms or less, and not with the default of 1500 ms. *)
Theorem C153_check_iff : ∀ env cfg cap z, IsSetTo env "OM_CACHE_IN_WAIT_TIMEOUT_MS" z → 0 < z <= 9223372036854 → (0 < cap)%nat →
  (∀ t s x t', rtc (wstep cfg (IParams (in_wait env) 0 0) 0 cap) (w_init t) s → (x, t') ∈ ws_done s → (v_ahead x < cap)%nat → t' <= v_at x + 100 * 1000000) ↔ z <= 100.
Proof.
  intros env cfg cap z Hz Hr Hcap. rewrite (proj2 (in_wait_iff env z Hz)) by (unfold FitsInt64; lia).
  rewrite C153_soon_iff by lia. lia.
Qed.
Print Assumptions C153_check_iff.
Theorem C153_default : ∀ env cfg net cap t u, NotGiven env "OM_CACHE_IN_WAIT_TIMEOUT_MS" → (0 < cap)%nat → 0 <= net → ∃ s,
  rtc (wstep cfg (IParams (in_wait env) 0 0) net cap) (w_init t) s ∧ ws_done s = [(VItem u t 0, t + 1500 * 1000000)].
Proof.
  intros env cfg net cap t u Hg Hcap Hn. destruct (redis_the_wait cfg (IParams (in_wait env) 0 0) net cap t u) as (s & Hr & Hd); [|done|].
  - rewrite (proj1 (proj2 (default_waits env)) Hg). repeat split; simpl; lia.
  - exists s. split; [done|]. rewrite Hd. simpl. by rewrite (proj1 (proj2 (default_waits env)) Hg).
Qed.
Print Assumptions C153_default.

(** Example: a microsecond for an update, five milliseconds for an expiration cycle, one for the
    network. *)
Example C153_example : let p := IParams (1500 * 1000000) 1000 (5 * 1000000) in
  SaneVisible p 100 ∧ redis_visible_by p 1000000 (VItem (Update CmdActivate "1-0" "") 0 50) = 1508052000 ∧
  ∃ s, rtc (wstep default_config p 1000000 100) (w_init 0) s ∧ ws_done s = [(VItem (Update CmdActivate "1-0" "") 0 0, 1500000000)].
Proof.
  intros p. assert (SaneVisible p 100) as Hp by (repeat split; simpl; lia).
  split; [done|]. split; [vm_compute; reflexivity|].
  exact (redis_the_wait default_config p 1000000 100 0 _ Hp ltac:(lia)).
Qed.
