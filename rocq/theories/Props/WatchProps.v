(** Property theorems about WatchAssignments: C45 - C47, C65, C66. *)
From Coq Require Import Ascii String ZArith NArith Lia.
From stdpp Require Import prelude strings gmap.
From Verif.Model Require Import GoStrings Types Watch.
From Verif.Spec Require Import HandlerSpec WatchSpec.
From Verif.Proofs Require Import WatchLemmas.
Local Open Scope string_scope.
Local Open Scope Z_scope.

(** C45: in every state of every watch, each response given to the stream carries
    an assignment stored for its id at a moment of the watch; no id is answered
    more often than requested; a watch that ends without timing out has answered
    every requested id. *)
Theorem C45_answers_are_genuine : ∀ ttl ids now asg g s, w_later ttl ids (w_init ids now asg g) s →
  (∀ id a, (id, a) ∈ w_sent s →
     ∃ s1, w_later ttl ids (w_init ids now asg g) s1 ∧ w_later ttl ids s1 s ∧ w_assignments s1 !! id = Some a) ∧
  (w_sent s).*1 ⊆+ ids ∧ (w_handler s = Returned false → (w_sent s).*1 ≡ₚ ids).
Proof. exact watch_answers. Qed.
Print Assumptions C45_answers_are_genuine.

(** Two ids; the second is assigned while the watch runs, the first never. *)
Definition w_now : instant := 1700000000 * giga.
Definition w_srv : assignment := Assignment "10.0.0.1:7777" ∅.
Definition w_ids : list string := ["1700000000-1"; "1700000000-2"].
Definition w_both : gmap string assignment := {["1700000000-1" := w_srv; "1700000000-2" := w_srv]}.
Definition w_dl : instant := w_now + 600 * giga.

(** Both goroutines started, the handler waiting. *)
Definition w_state1 : wstate :=
  WState w_now ∅ (Receiving 0 w_dl) [("1700000000-1", Polling); ("1700000000-2", Polling)] [] 9 false.
Lemma w_reach1 : w_later 600 w_ids (w_init w_ids w_now ∅ 7) w_state1.
Proof.
  eapply rtc_l; [eapply (W_launch _ _ "1700000000-1" ["1700000000-2"]); reflexivity|].
  eapply rtc_l; [eapply (W_launch _ _ "1700000000-2" []); reflexivity|].
  eapply rtc_l; [eapply W_begin; reflexivity|].
  replace (WState _ _ _ _ _ _ _) with w_state1; [apply rtc_refl|]. vm_compute. reflexivity.
Qed.
(** The second id has been answered. *)
Definition w_state2 : wstate :=
  WState w_now w_both (Receiving 1 w_dl) [("1700000000-1", Polling); ("1700000000-2", Finished)]
    [("1700000000-2", w_srv)] 8 false.
Lemma w_reach2 : w_later 600 w_ids (w_init w_ids w_now ∅ 7) w_state2.
Proof.
  eapply rtc_transitive; [exact w_reach1|].
  eapply rtc_l; [eapply (W_env _ _ w_both); reflexivity|].
  eapply rtc_l; [eapply (W_load _ _ 1 "1700000000-2" w_srv); reflexivity|].
  eapply rtc_l; [eapply (W_recv _ _ 0 w_dl 1 "1700000000-2" w_srv); [reflexivity|reflexivity|cbn; lia|reflexivity]|].
  apply rtc_refl.
Qed.
(** Both have been answered. *)
Definition w_state3 : wstate :=
  WState w_now w_both (Returned false) [("1700000000-1", Finished); ("1700000000-2", Finished)]
    [("1700000000-2", w_srv); ("1700000000-1", w_srv)] 7 false.
Lemma w_reach3 : w_later 600 w_ids (w_init w_ids w_now ∅ 7) w_state3.
Proof.
  eapply rtc_transitive; [exact w_reach2|].
  eapply rtc_l; [eapply (W_load _ _ 0 "1700000000-1" w_srv); reflexivity|].
  eapply rtc_l; [eapply (W_recv _ _ 1 w_dl 0 "1700000000-1" w_srv); [reflexivity|reflexivity|cbn; lia|reflexivity]|].
  eapply rtc_l; [eapply (W_return _ _ 2 w_dl); [reflexivity|reflexivity|cbn; lia]|].
  apply rtc_refl.
Qed.
(** The timer has fired instead. *)
Definition w_state4 : wstate :=
  WState w_dl ∅ (Returned true) [("1700000000-1", Polling); ("1700000000-2", Polling)] [] 11 false.
Lemma w_reach4 : w_later 600 w_ids (w_init w_ids w_now ∅ 7) w_state4.
Proof.
  eapply rtc_transitive; [exact w_reach1|].
  eapply rtc_l; [eapply (W_tick _ _ (600 * giga)); [reflexivity|unfold giga; lia]|].
  eapply rtc_l; [eapply (W_timeout _ _ 0 w_dl); [reflexivity|reflexivity|cbn; lia|unfold w_dl; cbn; lia]|].
  apply rtc_refl.
Qed.

Example C45_example : w_later 600 w_ids (w_init w_ids w_now ∅ 7) w_state3 ∧ w_handler w_state3 = Returned false.
Proof. split; [exact w_reach3|reflexivity]. Qed.

(** C46: no watch ever crashes the server. *)
Definition C46_watch_never_crashes : Prop :=
  ∀ ttl ids now asg g s, w_later ttl ids (w_init ids now asg g) s → w_panic s = false.

(** It is false: the timer fires, then a watched ticket is assigned. *)
Theorem C46_watch_never_crashes_refuted : ¬ C46_watch_never_crashes.
Proof.
  intros H.
  assert (∃ s, w_later 600 w_ids (w_init w_ids w_now ∅ 7) s ∧ w_panic s = true) as (s & Hs & Hp).
  { eexists. split.
    - eapply rtc_transitive; [exact w_reach4|].
      eapply rtc_l; [eapply (W_env _ _ w_both); reflexivity|].
      eapply rtc_l; [eapply (W_load _ _ 0 "1700000000-1" w_srv); reflexivity|].
      eapply rtc_once. eapply (W_panics _ _ true 0 "1700000000-1" w_srv); reflexivity.
    - reflexivity. }
  pose proof (H _ _ _ _ _ _ Hs) as Hf. rewrite Hp in Hf. discriminate Hf.
Qed.
Print Assumptions C46_watch_never_crashes_refuted.

(** C46, exactly: a crash happens only after a timeout, and after a timeout it
    happens without any further outside event once an unanswered ticket has an
    assignment. *)
Theorem C46_crash_only_after_timeout_partial : ∀ ttl ids now asg g s,
  w_later ttl ids (w_init ids now asg g) s → w_panic s = true → w_timed_out s.
Proof. exact panic_only_after_timeout. Qed.
Print Assumptions C46_crash_only_after_timeout_partial.
Theorem C46_crash_after_late_assignment_partial : ∀ ttl ids s j id,
  w_timed_out s → w_panic s = false →
  (w_pollers s !! j = Some (id, Polling) ∧ is_Some (w_assignments s !! id) ∨
   ∃ a, w_pollers s !! j = Some (id, Sending a)) →
  ∃ s', w_later ttl ids s s' ∧ w_assignments s' = w_assignments s ∧ w_clock s' = w_clock s ∧ w_panic s' = true.
Proof. exact panic_after_timeout. Qed.
Print Assumptions C46_crash_after_late_assignment_partial.

Example C46_example :
  w_later 600 w_ids (w_init w_ids w_now ∅ 7) w_state4 ∧ w_timed_out w_state4 ∧ w_panic w_state4 = false ∧
  w_pollers w_state4 !! 0%nat = Some ("1700000000-1", Polling).
Proof. split; [exact w_reach4|]. split_and!; reflexivity. Qed.

(** C47: when a watch has ended, the gauge is back at its old value. *)
Definition C47_gauge_restored : Prop :=
  ∀ ttl ids now asg g s, w_later ttl ids (w_init ids now asg g) s → w_ended s → w_gauge s = g.

(** It is false: a timeout adds the unanswered watches instead of subtracting them. *)
Theorem C47_gauge_restored_refuted : ¬ C47_gauge_restored.
Proof.
  intros H. assert (w_gauge w_state4 = 7) as Hg by (eapply H; [exact w_reach4|by exists true]).
  discriminate Hg.
Qed.
Print Assumptions C47_gauge_restored_refuted.

(** C47, exactly. *)
Theorem C47_gauge_exact_partial : ∀ ttl ids now asg g s, w_later ttl ids (w_init ids now asg g) s →
  (w_handler s = Returned false → w_gauge s = g) ∧
  (w_timed_out s → w_gauge s = g + 2 * (Z.of_nat (length ids) - Z.of_nat (length (w_sent s))) ∧
     (length (w_sent s) < length ids)%nat).
Proof. exact gauge_exact. Qed.
Print Assumptions C47_gauge_exact_partial.

Example C47_example : w_gauge w_state3 = 7 ∧ w_gauge w_state4 = 7 + 2 * (2 - 0).
Proof. split; reflexivity. Qed.

(** C65: a watch of tickets created earlier waits no longer than the ticket TTL. *)
Definition C65_watch_gives_up_in_time : Prop :=
  ∀ ttl ids now asg g s i dl, SaneTTL ttl → SaneNow now →
    (∀ id, id ∈ ids → MemIdBy now id ∨ RedisIdBy now id) →
    w_later ttl ids (w_init ids now asg g) s → w_handler s = Receiving i dl →
    dl <= Z.max (w_clock s) (now + ttl * 1000000000).

(** It is false for Redis ids, whose milliseconds are taken for seconds. *)
Theorem C65_watch_gives_up_in_time_refuted : ¬ C65_watch_gives_up_in_time.
Proof.
  intros H.
  set (ids := ["1700000000000-0"]).
  set (dl := w_now + (2 ^ 63 - 1)).
  set (s := WState w_now ∅ (Receiving 0 dl) [("1700000000000-0", Polling)] [] 1 false).
  assert (w_later 600 ids (w_init ids w_now ∅ 0) s) as Hs.
  { eapply rtc_l; [eapply (W_launch _ _ "1700000000000-0" []); reflexivity|].
    eapply rtc_l; [eapply W_begin; reflexivity|].
    match goal with |- rtc _ ?a ?b => replace a with b; [apply rtc_refl|] end. vm_compute. reflexivity. }
  assert (dl <= Z.max w_now (w_now + 600 * 1000000000)) as Hle.
  { eapply (H 600 ids w_now ∅ 0 s 0%nat dl); [split; lia|split; [vm_compute; discriminate|reflexivity]| |exact Hs|reflexivity].
    intros id Hid. apply elem_of_list_singleton in Hid as ->. right. exists 1700000000000, 0.
    split; [reflexivity|]. split; [lia|]. vm_compute. discriminate. }
  apply Z.leb_le in Hle. vm_compute in Hle. discriminate Hle.
Qed.
Print Assumptions C65_watch_gives_up_in_time_refuted.

(** C65 for ids of the in-memory store. *)
Theorem C65_memory_watch_gives_up_partial : ∀ ttl ids now asg g s i dl,
  SaneTTL ttl → SaneNow now → (∀ id, id ∈ ids → MemIdBy now id) →
  w_later ttl ids (w_init ids now asg g) s → w_handler s = Receiving i dl →
  dl <= Z.max (w_clock s) (now + ttl * 1000000000).
Proof. exact mem_deadline. Qed.
Print Assumptions C65_memory_watch_gives_up_partial.

(** With a Redis id issued after September 2001 the timer is set to the longest
    duration there is, 292 years. *)
Theorem C65_redis_watch_never_gives_up_partial : ∀ ttl ids now asg g s i dl t k,
  SaneNow now → SaneTTL ttl → 10 ^ 12 <= t <= 10 ^ 18 →
  (format_Z t +:+ "-" +:+ format_Z k)%string ∈ ids → w_clock s < 253402300800 * 1000000000 →
  w_later ttl ids (w_init ids now asg g) s → w_handler s = Receiving i dl → now + (2 ^ 63 - 1) <= dl.
Proof. exact redis_deadline. Qed.
Print Assumptions C65_redis_watch_never_gives_up_partial.

(** No watch gives up before the TTL has passed. *)
Theorem C65_never_gives_up_early : ∀ ttl ids now asg g s,
  SaneTTL ttl → w_later ttl ids (w_init ids now asg g) s → w_timed_out s → now + ttl * 1000000000 <= w_clock s.
Proof. exact never_early. Qed.
Print Assumptions C65_never_gives_up_early.

Example C65_example :
  w_later 600 w_ids (w_init w_ids w_now ∅ 7) w_state1 ∧ (∀ id, id ∈ w_ids → MemIdBy w_now id) ∧
  w_handler w_state1 = Receiving 0 (w_now + 600 * 1000000000).
Proof.
  split; [exact w_reach1|]. split; [|reflexivity]. intros id Hid.
  apply elem_of_cons in Hid as [->|Hid]; [|apply elem_of_list_singleton in Hid as ->].
  - exists 1700000000, 1. split; [reflexivity|]. split; [lia|]. vm_compute. discriminate.
  - exists 1700000000, 2. split; [reflexivity|]. split; [lia|]. vm_compute. discriminate.
Qed.

(** C66: when a watch has ended, no goroutine of it is left. *)
Definition C66_ended_watch_leaves_nothing : Prop :=
  ∀ ttl ids now asg g s, w_later ttl ids (w_init ids now asg g) s → w_ended s → ¬ w_running s.

(** It is false after a timeout. *)
Theorem C66_ended_watch_leaves_nothing_refuted : ¬ C66_ended_watch_leaves_nothing.
Proof.
  intros H. eapply (H _ _ _ _ _ _ w_reach4); [by exists true|].
  exists 0%nat, "1700000000-1", Polling. split; [reflexivity|discriminate].
Qed.
Print Assumptions C66_ended_watch_leaves_nothing_refuted.

(** C66, exactly: goroutines are left exactly after a timeout. *)
Theorem C66_left_running_iff_timed_out_partial : ∀ ttl ids now asg g s,
  w_later ttl ids (w_init ids now asg g) s → w_ended s → (w_running s ↔ w_timed_out s).
Proof. exact running_iff_timed_out. Qed.
Print Assumptions C66_left_running_iff_timed_out_partial.

Example C66_example : w_ended w_state3 ∧ ¬ w_timed_out w_state3 ∧ w_ended w_state4 ∧ w_timed_out w_state4.
Proof. split; [by exists false|]. split; [discriminate|]. split; [by exists true|reflexivity]. Qed.
