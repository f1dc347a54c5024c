(** C152: when updates are in the cache (in-memory store). *)
From Coq Require Import String ZArith Lia.
From stdpp Require Import prelude strings gmap relations.
From Verif.Model Require Import GoStrings Types Cache MemRepl Queues Timing Visible Settings NetSettings.
From Verif.Spec Require Import VisibleSpec SettingsSpec NetSpec.
From Verif.Proofs Require Import VisibleLemmas NetLemmas.
Local Open Scope Z_scope.

(** Every update the store has taken is applied in bounded time, however many come after it; none
    is on its way longer. *)
Theorem C152_in_time : ∀ cfg p cap t s, SaneVisible p cap → rtc (vstep cfg p cap) (v_init t) s →
  (∀ x t', (x, t') ∈ vs_done s → v_at x <= t' <= visible_by p cap x) ∧
  (∀ x, x ∈ vs_all s → x ∉ (vs_done s).*1 → is_now (vs_loop s) <= visible_by p cap x).
Proof. exact visible_in_time. Qed.
Print Assumptions C152_in_time.

(** In the order in which they were taken, none twice and none left out; by the loop that C88 is
    about. *)
Theorem C152_in_order : ∀ cfg p cap t s, SaneVisible p cap → rtc (vstep cfg p cap) (v_init t) s →
  vs_all s = (vs_done s).*1 ++ on_the_way s ∧ v_upd <$> vs_chan s = is_chan (vs_loop s).
Proof. exact visible_in_order. Qed.
Print Assumptions C152_in_order.
Theorem C152_same_loop : ∀ cfg p cap t s, rtc (vstep cfg p cap) (v_init t) s → rtc (istep cfg p) (i_init t) (vs_loop s).
Proof. intros cfg p cap t s. exact (visible_loop cfg p cap (v_init t) s). Qed.
Print Assumptions C152_same_loop.

(** GetUpdates returns what it has taken when its time is over, not before and not after. *)
Theorem C152_poll_length : ∀ cfg p cap t s s' since out out', SaneVisible p cap → rtc (vstep cfg p cap) (v_init t) s → vstep cfg p cap s s' →
  vs_reader s = RPoll since out → vs_reader s' = RPut out' → out' = out ∧ vs_chan s' = vs_chan s ∧ is_now (vs_loop s') = since + ip_wait p.
Proof. exact poll_length. Qed.
Print Assumptions C152_poll_length.

(** "An update is in the cache after OM_CACHE_IN_WAIT_TIMEOUT_MS": false. It can take twice
    that, for each value of the setting. *)
Definition C152_within_wait : Prop := ∀ cfg p cap t s x t', SaneVisible p cap → rtc (vstep cfg p cap) (v_init t) s →
  (x, t') ∈ vs_done s → v_ahead x = 0%nat → t' <= v_at x + ip_wait p + ip_cycle p + 2 * ip_apply p.
Theorem C152_within_wait_refuted : ¬ C152_within_wait.
Proof.
  intros H. pose (p := IParams 1500 0 0). assert (SaneVisible p 1) as Hp by (repeat split; simpl; lia).
  destruct (twice_the_wait default_config p 1 0 (Update CmdActivate "1-0" "") Hp) as (s & Hr & Hd).
  specialize (H default_config p 1%nat 0 s (VItem (Update CmdActivate "1-0" "") 0 0) 3000 Hp Hr). rewrite Hd in H. simpl in H.
  specialize (H ltac:(left) eq_refl). lia.
Qed.
Print Assumptions C152_within_wait_refuted.
Theorem C152_twice_the_wait : ∀ cfg p cap t u, SaneVisible p cap → ∃ s,
  rtc (vstep cfg p cap) (v_init t) s ∧ vs_done s = [(VItem u t 0, t + 2 * ip_wait p)].
Proof. exact twice_the_wait. Qed.
Print Assumptions C152_twice_the_wait.

(** Exactly: if the work takes no time, updates with fewer than a channel of others before them are
    in the cache within [b] if and only if [b] is twice the waiting time or more. *)
Theorem C152_soon_iff : ∀ cfg w cap b, 0 < w → (0 < cap)%nat →
  (∀ t s x t', rtc (vstep cfg (IParams w 0 0) cap) (v_init t) s → (x, t') ∈ vs_done s → (v_ahead x < cap)%nat → t' <= v_at x + b) ↔ 2 * w <= b.
Proof.
  intros cfg w cap b Hw Hcap. assert (SaneVisible (IParams w 0 0) cap) as Hp by (repeat split; simpl; lia). split.
  - intros H. destruct (twice_the_wait cfg _ cap 0 (Update CmdActivate "1-0" "") Hp) as (s & Hr & Hd).
    specialize (H 0 s (VItem (Update CmdActivate "1-0" "") 0 0) (2 * w) Hr). rewrite Hd in H. simpl in H.
    specialize (H ltac:(left) Hcap). lia.
  - intros Hb t s x t' Hr Hx Ha. destruct (proj1 (visible_in_time cfg _ cap t s Hp Hr) x t' Hx) as [_ Hle].
    unfold visible_by in Hle. rewrite (Nat.div_small _ _ Ha) in Hle. simpl in Hle. lia.
Qed.
Print Assumptions C152_soon_iff.

(** So the 100 ms of the check whether a match's tickets are deactivated (C43) are enough with a
    setting of 50 ms or less, and not with the default of 1500 ms: it may take three
    seconds. *)
Theorem C152_check_iff : ∀ env cfg cap z, IsSetTo env "OM_CACHE_IN_WAIT_TIMEOUT_MS" z → 0 < z <= 9223372036854 → (0 < cap)%nat →
  (∀ t s x t', rtc (vstep cfg (IParams (in_wait env) 0 0) cap) (v_init t) s → (x, t') ∈ vs_done s → (v_ahead x < cap)%nat → t' <= v_at x + 100 * 1000000) ↔ z <= 50.
Proof.
  intros env cfg cap z Hz Hr Hcap. rewrite (proj2 (in_wait_iff env z Hz)) by (unfold FitsInt64; lia).
  rewrite C152_soon_iff by lia. lia.
Qed.
Print Assumptions C152_check_iff.
Theorem C152_default : ∀ env cfg cap t u, NotGiven env "OM_CACHE_IN_WAIT_TIMEOUT_MS" → (0 < cap)%nat → ∃ s,
  rtc (vstep cfg (IParams (in_wait env) 0 0) cap) (v_init t) s ∧ vs_done s = [(VItem u t 0, t + 3 * 1000000000)].
Proof.
  intros env cfg cap t u Hg Hcap. destruct (twice_the_wait cfg (IParams (in_wait env) 0 0) cap t u) as (s & Hr & Hd).
  - rewrite (proj1 (proj2 (default_waits env)) Hg). repeat split; simpl; lia.
  - exists s. split; [done|]. rewrite Hd. simpl. rewrite (proj1 (proj2 (default_waits env)) Hg). done.
Qed.
Print Assumptions C152_default.

(** Example: a channel of a hundred, a microsecond for an update, five milliseconds for an
    expiration cycle; the update after 250 others is applied within 6.1 s. *)
Example C152_example : let p := IParams (1500 * 1000000) 1000 (5 * 1000000) in
  SaneVisible p 100 ∧ visible_by p 100 (VItem (Update CmdActivate "1-0" "") 0 250) = 6015254000 ∧
  visible_by p 100 (VItem (Update CmdActivate "1-0" "") 0 0) = 3005002000 ∧
  ∃ s, rtc (vstep default_config p 100) (v_init 0) s ∧ vs_done s = [(VItem (Update CmdActivate "1-0" "") 0 0, 3000000000)].
Proof.
  intros p. assert (SaneVisible p 100) as Hp by (repeat split; simpl; lia).
  split; [done|]. split; [vm_compute; reflexivity|]. split; [vm_compute; reflexivity|].
  exact (twice_the_wait default_config p 100 0 _ Hp).
Qed.
