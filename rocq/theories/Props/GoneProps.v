(** Property theorems about callers that go away: C129. *)
From Coq Require Import Ascii String ZArith NArith Lia.
From stdpp Require Import prelude strings gmap relations.
From Verif.Model Require Import GoStrings Types Cache Replica Handlers Queues System RedisSystem Watch Gone.
From Verif.Spec Require Import SystemSpec FairSpec WatchSpec GoneSpec.
From Verif.Proofs Require Import MemSystemLemmas WatchLemmas FairLemmas GoneLemmas.
From Verif.Props Require Import SystemProps WatchProps FairProps.
Local Open Scope nat_scope.

(** C129. Full claim, first part: a call that its caller has given up before the
    first of its updates was taken is not executed any more. *)
Definition C129_GivenUpNotExecuted : Prop := ∀ cfg t0 s g i c,
  (0 <= t0)%Z → g_later (mstep cfg) (msys0 t0, ∅) (s, g) → i ∈ g →
  in_calls (ms_inst s) !! i = Some c → cl_sent c = 0 →
  ∀ s' g' c', g_later (mstep cfg) (s, g) (s', g') → in_calls (ms_inst s') !! i = Some c' → cl_sent c' = 0.

(** The queue takes the update of the activation whose caller has gone. *)
Definition gn_taken : msys :=
  MSys (Inst [ex_create; sent_one fx_call]
          (after_select mem_begin (q_step 500 (QState [] []) (QReq (Request (Update CmdActivate "1700000000-1" "") 1))))
          (PGet []) [] false (in_cache (ms_inst ex_mid)) (in_events (ms_inst ex_mid)))
       (ms_store ex_mid) (ms_clock ex_mid) (ms_hist ex_mid).
Lemma gn_begun g : g_later (mstep ex_cfg) (msys0 ex_t0, ∅) (fx_begun, g).
Proof. apply gone_iff. split; [|set_solver]. eapply rtc_r; [exact ex_reach_mid|exact fx_begins]. Qed.
Lemma gn_takes : mstep ex_cfg fx_begun gn_taken.
Proof. apply M_local. eapply (L_accept ex_cfg mem_begin [ex_create; fx_call] [] _ _ _ _ _ 1 fx_call); reflexivity. Qed.

Theorem C129_given_up_not_executed_refuted : ¬ C129_GivenUpNotExecuted.
Proof.
  intros H. assert (cl_sent (sent_one fx_call) = 0) as E; [|discriminate E].
  apply (H ex_cfg ex_t0 fx_begun {[1]} 1 fx_call ltac:(vm_compute; congruence) (gn_begun _) ltac:(set_solver) eq_refl eq_refl gn_taken {[1]}); [|reflexivity].
  apply gone_iff. split; [apply rtc_once, gn_takes|done].
Qed.
Print Assumptions C129_given_up_not_executed_refuted.

(** On the contrary: under fair scheduling every update of every call is stored and
    applied to the cache, given up or not. *)
Theorem C129_executed_anyway_partial : ∀ cfg t0 f n i c,
  (0 <= t0)%Z → mreach cfg t0 (f 0).1 → Execution (gone_step (mstep cfg)) f → FairMem cfg (λ n, (f n).1) →
  in_calls (ms_inst (f n).1) !! i = Some c →
  ∃ m, n <= m ∧ ∀ u, u ∈ cl_ups c → ∃ id, AsStored u id ∈ applied (ms_inst (f m).1).
Proof. exact given_up_executed. Qed.
Print Assumptions C129_executed_anyway_partial.

(** Callers that go away change nothing for the server, whatever it is. *)
Theorem C129_changes_nothing : ∀ St (step : St → St → Prop) s s' g g',
  g_later step (s, g) (s', g') ↔ rtc step s s' ∧ g ⊆ g'.
Proof. exact @gone_iff. Qed.
Print Assumptions C129_changes_nothing.

(** Full claim, second part: a watch whose caller has gone ends by itself. *)
Definition C129_WatchEnds : Prop := ∀ ttl ids now asg g0 s g,
  g_later (w_step ttl ids) (w_init ids now asg g0, ∅) (s, g) → 0 ∈ g → w_panic s = false → CanEnd ttl ids s.

Theorem C129_watch_ends_refuted : ¬ C129_WatchEnds.
Proof.
  intros H. assert (Hg : g_later (w_step 600 w_ids) (w_init w_ids w_now ∅ 7, ∅) (w_state1, {[0]})).
  { apply gone_iff. split; [exact w_reach1|set_solver]. }
  specialize (H 600%Z w_ids w_now ∅ 7%Z w_state1 {[0]} Hg ltac:(set_solver) eq_refl).
  apply (gone_watch_can_end_iff 600 w_ids w_now ∅ 7 w_state1 {[0]} 0 w_dl Hg eq_refl) in H as [H|H].
  - unfold w_dl in H. cbn in H. unfold giga in H. lia.
  - destruct (H 0 "1700000000-1"%string eq_refl) as [a Ha]. discriminate Ha.
Qed.
Print Assumptions C129_watch_ends_refuted.

(** Exactly: it ends by itself once its time is over or all the tickets it still
    looks for have been assigned, as if its caller were there. *)
Theorem C129_watch_ends_iff_partial : ∀ ttl ids now asg g0 s g i dl,
  g_later (w_step ttl ids) (w_init ids now asg g0, ∅) (s, g) → w_handler s = Receiving i dl →
  CanEnd ttl ids s ↔ (dl <= w_clock s)%Z ∨ ∀ j id, w_pollers s !! j = Some (id, Polling) → is_Some (w_assignments s !! id).
Proof. exact gone_watch_can_end_iff. Qed.
Print Assumptions C129_watch_ends_iff_partial.

(** The activation of [C125_example], given up by its caller, and executed; the watch
    of [C45_example], whose caller goes away at the beginning and which then is waiting
    for ten minutes. *)
Example C129_example :
  g_later (mstep ex_cfg) (msys0 ex_t0, ∅) (fx_begun, {[1]}) ∧ mstep ex_cfg fx_begun gn_taken ∧
  (∃ f, (f 0) = (fx_begun, {[1]}) ∧ Execution (gone_step (mstep ex_cfg)) f ∧ FairMem ex_cfg (λ n, (f n).1)) ∧
  g_later (w_step 600 w_ids) (w_init w_ids w_now ∅ 7, ∅) (w_state1, {[0]}) ∧ w_handler w_state1 = Receiving 0 w_dl ∧
  (w_dl - w_clock w_state1 = 600 * giga)%Z ∧ w_assignments w_state1 = ∅.
Proof.
  split; [apply gn_begun|]. split; [exact gn_takes|]. split.
  - assert (Hr : mreach ex_cfg ex_t0 fx_begun) by (eapply rtc_r; [exact ex_reach_mid|exact fx_begins]).
    destruct (C125_memory_fair_exists ex_cfg ex_t0 fx_begun ltac:(vm_compute; congruence) Hr) as (f & E & He & Hf).
    exists (λ n, (f n, {[1]})). split; [by rewrite E|]. split; [|exact Hf]. intros n. apply G_server, He.
  - split; [apply gone_iff; split; [exact w_reach1|set_solver]|]. split; [done|]. split; [vm_compute; reflexivity|done].
Qed.
