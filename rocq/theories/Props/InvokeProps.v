(** Property theorems about InvokeMatchmakingFunctions: C40 - C44, C56, C67. *)
From Coq Require Import Ascii String ZArith NArith Lia.
From stdpp Require Import prelude strings gmap.
From Verif.Model Require Import GoStrings Types Invoke.
From Verif.Spec Require Import InvokeSpec.
From Verif.Proofs Require Import InvokeLemmas InvokeMore.
Local Open Scope string_scope.
Local Open Scope Z_scope.

(** C40: in every reachable state (so also at the moment of sending) the matches
    streamed are received ones, none twice, and each ticket in them has had its
    deactivation answered by the state store. *)
Theorem C40_relayed_after_deactivation : ∀ wait fns ina s, v_later wait (v_init fns ina) s →
  NoDup (v_streamed s) ∧
  ∀ n, n ∈ v_streamed s → ∃ k m, ReceivedAs s n k m ∧ ∀ id, TicketIn m id → (n, id) ∈ v_answered s.
Proof. exact relayed. Qed.
Print Assumptions C40_relayed_after_deactivation.

(** A match with two tickets. *)
Definition i_match : match_ :=
  Match "m" {["r" := Roster "r" None [Ticket "1-0" None None ∅; Ticket "2-0" None None ∅] ∅]} ∅.
Lemma i_ids : ids_of_match (Some i_match) ["1-0"; "2-0"].
Proof. exists (map_to_list (ma_rosters i_match)). split; [reflexivity|]. vm_compute. reflexivity. Qed.
Definition i_gor (p : g_phase) : gor := Gor 0 (Some i_match) ["1-0"; "2-0"] p.

(** One function has ended its stream after one match, which the fan-in goroutine
    holds; the handler is about to return. *)
Definition i_state1 (wait : bool) : istate :=
  IState InvClosed (FanSending 0) [(FnGrpc, FnDone true)] [i_gor GDone] [] [(0%nat, "2-0"); (0%nat, "1-0")] [] [] ∅ 2 false.
Lemma i_reach1 wait : v_later wait (v_init [FnGrpc] ∅) (i_state1 wait).
Proof.
  eapply rtc_l; [eapply V_launch; reflexivity|].
  eapply rtc_l; [eapply V_launched; reflexivity|].
  eapply rtc_l; [eapply (V_run _ 0); reflexivity|].
  eapply rtc_l; [eapply (V_recv _ 0 1 (Some i_match) ["1-0"; "2-0"]); [reflexivity|reflexivity|exact i_ids]|].
  eapply rtc_l; [eapply (V_request _ 0); reflexivity|].
  eapply rtc_l; [eapply (V_request _ 0); reflexivity|].
  eapply rtc_l; [eapply (V_answer _ 0 "2-0" [(0%nat, "1-0")] []); reflexivity|].
  eapply rtc_l; [eapply (V_answer _ 0 "1-0" [] []); reflexivity|].
  eapply rtc_l; [eapply (V_answered _ 0); [reflexivity|reflexivity|reflexivity|apply not_elem_of_nil]|].
  destruct wait.
  - eapply rtc_l; [eapply (V_check _ 0); [reflexivity|reflexivity|reflexivity|done]|].
    eapply rtc_l; [eapply (V_hand _ 0); reflexivity|].
    eapply rtc_l; [eapply (V_eof _ 0); reflexivity|].
    eapply rtc_l; [eapply (V_fn_done _ 0); [reflexivity|reflexivity|repeat constructor]|].
    eapply rtc_l; [eapply V_all_done; [reflexivity|reflexivity|constructor; [by exists true|constructor]]|].
    apply rtc_refl.
  - eapply rtc_l; [eapply (V_hand _ 0); reflexivity|].
    eapply rtc_l; [eapply (V_check_after _ 0); [reflexivity|reflexivity|reflexivity|done]|].
    eapply rtc_l; [eapply (V_eof _ 0); reflexivity|].
    eapply rtc_l; [eapply (V_fn_done _ 0); [reflexivity|reflexivity|repeat constructor]|].
    eapply rtc_l; [eapply V_all_done; [reflexivity|reflexivity|constructor; [by exists true|constructor]]|].
    apply rtc_refl.
Qed.

(** The match is sent, then the handler returns. *)
Definition i_state2 : istate :=
  IState (InvReturned None) FanIdle [(FnGrpc, FnDone true)] [i_gor GDone] [] [(0%nat, "2-0"); (0%nat, "1-0")] [0%nat] [] ∅ 2 false.
Example C40_example : ∀ wait, v_later wait (v_init [FnGrpc] ∅) i_state2 ∧ v_streamed i_state2 = [0%nat].
Proof.
  intros wait. split; [|reflexivity]. eapply rtc_transitive; [apply i_reach1|].
  eapply rtc_l; [eapply (V_stream _ 0); [reflexivity|reflexivity|done]|].
  eapply rtc_l; [eapply V_return; reflexivity|].
  apply rtc_refl.
Qed.

(** C41: when all functions have ended normally, nothing they returned is missing. *)
Definition C41_nothing_lost (wait : bool) : Prop :=
  ∀ fns ina s, v_later wait (v_init fns ina) s → v_returned s → AllFinished s →
  ∀ n, (n < length (v_gors s))%nat → n ∈ v_streamed s.

(** It is false with either setting: nothing makes the handler wait for the last
    stream.Send of the fan-in goroutine. *)
Definition i_state3 : istate :=
  IState (InvReturned None) (FanSending 0) [(FnGrpc, FnDone true)] [i_gor GDone] [] [(0%nat, "2-0"); (0%nat, "1-0")] [] [] ∅ 2 false.
Lemma i_reach3 wait : v_later wait (v_init [FnGrpc] ∅) i_state3.
Proof.
  eapply rtc_transitive; [apply i_reach1|]. eapply rtc_l; [eapply V_return; reflexivity|]. apply rtc_refl.
Qed.
Lemma i_finished3 : AllFinished i_state3.
Proof. intros k Hk. cbn in Hk. assert (k = 0%nat) as -> by lia. by exists FnGrpc. Qed.
Theorem C41_nothing_lost_refuted : ∀ wait, ¬ C41_nothing_lost wait.
Proof.
  intros wait H. specialize (H _ _ i_state3 (i_reach3 wait) (ex_intro _ None eq_refl) i_finished3 0%nat ltac:(cbn; lia)).
  cbn in H. by apply elem_of_nil in H.
Qed.
Print Assumptions C41_nothing_lost_refuted.

(** What holds: at most one match is missing. *)
Theorem C41_at_most_one_lost_partial : ∀ wait fns ina s, v_later wait (v_init fns ina) s →
  v_returned s → AllFinished s → (length (v_gors s) ≤ S (length (v_streamed s)))%nat.
Proof. exact at_most_one_missing. Qed.
Print Assumptions C41_at_most_one_lost_partial.

Example C41_example : v_later true (v_init [FnGrpc] ∅) i_state3 ∧ v_returned i_state3 ∧ AllFinished i_state3 ∧
  length (v_gors i_state3) = 1%nat ∧ v_streamed i_state3 = [].
Proof. split; [apply i_reach3|]. split; [by exists None|]. split; [exact i_finished3|]. split; reflexivity. Qed.

(** C42: no function crashes the server. *)
Definition C42_functions_cannot_crash (wait : bool) : Prop :=
  ∀ fns ina s, v_later wait (v_init fns ina) s → v_panic s = false.

(** It is false with either setting: a match without tickets is enough. *)
Definition i_empty : match_ := Match "empty" ∅ ∅.
Lemma i_empty_ids : ids_of_match (Some i_empty) [].
Proof. exists []. split; reflexivity. Qed.
Theorem C42_functions_cannot_crash_refuted : ∀ wait, ¬ C42_functions_cannot_crash wait.
Proof.
  intros wait H.
  enough (∃ s, v_later wait (v_init [FnGrpc] ∅) (crash s)) as (s & H1).
  { apply H in H1. discriminate H1. }
  destruct wait; eexists.
  - eapply rtc_l; [eapply V_launch; reflexivity|].
    eapply rtc_l; [eapply (V_run _ 0); reflexivity|].
    eapply rtc_l; [eapply (V_recv _ 0 1 (Some i_empty) []); [reflexivity|reflexivity|exact i_empty_ids]|].
    eapply rtc_l; [eapply (V_answered _ 0); [reflexivity|reflexivity|reflexivity|apply not_elem_of_nil]|].
    eapply rtc_l; [eapply (V_check_panics _ 0); [reflexivity|reflexivity|left; reflexivity|reflexivity]|]. apply rtc_refl.
  - eapply rtc_l; [eapply V_launch; reflexivity|].
    eapply rtc_l; [eapply (V_run _ 0); reflexivity|].
    eapply rtc_l; [eapply (V_recv _ 0 1 (Some i_empty) []); [reflexivity|reflexivity|exact i_empty_ids]|].
    eapply rtc_l; [eapply (V_answered _ 0); [reflexivity|reflexivity|reflexivity|apply not_elem_of_nil]|].
    eapply rtc_l; [eapply (V_hand _ 0); reflexivity|].
    eapply rtc_l; [eapply (V_check_panics _ 0); [reflexivity|reflexivity|right; reflexivity|reflexivity]|]. apply rtc_refl.
Qed.
Print Assumptions C42_functions_cannot_crash_refuted.

(** Nor is it enough that all matches have tickets: a function that fails after its
    match makes the handler return before the match is handed over. *)
Theorem C42_failing_function_crash_refuted : ∀ wait, ¬ (∀ fns ina s, v_later wait (v_init fns ina) s →
  (∀ n k m, ReceivedAs s n k m → ∃ id, TicketIn m id) → v_panic s = false).
Proof.
  intros wait H.
  set (s := IState (InvReturned None) FanClosed [(FnGrpc, FnDone false)] [i_gor GSend] []
    [(0%nat, "2-0"); (0%nat, "1-0")] [] [] ∅ 0 true).
  assert (v_later wait (v_init [FnGrpc] ∅) s) as Hs.
  { eapply rtc_l; [eapply V_launch; reflexivity|].
    eapply rtc_l; [eapply V_launched; reflexivity|].
    eapply rtc_l; [eapply (V_run _ 0); reflexivity|].
    eapply rtc_l; [eapply (V_recv _ 0 1 (Some i_match) ["1-0"; "2-0"]); [reflexivity|reflexivity|exact i_ids]|].
    eapply rtc_l; [eapply (V_fail _ 0); reflexivity|].
    eapply rtc_l; [eapply V_all_done; [reflexivity|reflexivity|constructor; [by exists false|constructor]]|].
    eapply rtc_l; [eapply V_fan_close; [reflexivity|reflexivity|left; reflexivity]|].
    eapply rtc_l; [eapply V_return; reflexivity|].
    eapply rtc_l; [eapply (V_request _ 0); reflexivity|].
    eapply rtc_l; [eapply (V_request _ 0); reflexivity|].
    eapply rtc_l; [eapply (V_answer _ 0 "2-0" [(0%nat, "1-0")] []); reflexivity|].
    eapply rtc_l; [eapply (V_answer _ 0 "1-0" [] []); reflexivity|].
    eapply rtc_l; [eapply (V_answered _ 0); [reflexivity|reflexivity|reflexivity|apply not_elem_of_nil]|].
    destruct wait.
    - eapply rtc_l; [eapply (V_check _ 0); [reflexivity|reflexivity|reflexivity|done]|].
      eapply rtc_l; [eapply (V_hand_panics _ 0); reflexivity|]. apply rtc_refl.
    - eapply rtc_l; [eapply (V_hand_panics _ 0); reflexivity|]. apply rtc_refl. }
  enough (v_panic s = false) by done. apply (H _ _ _ Hs).
  intros n k m (g & Hg & _ & <-). destruct n as [|n]; [|done]. injection Hg as <-. exists "1-0". apply (ids_tickets _ _ i_ids). by left.
Qed.
Print Assumptions C42_failing_function_crash_refuted.

(** What holds: these are the only ways. If every match received has a ticket and no
    function that delivered a match fails, the server does not crash. *)
Theorem C42_only_two_crashes_partial : ∀ wait fns ina s, v_later wait (v_init fns ina) s → v_panic s = true →
  ∃ n k m, ReceivedAs s n k m ∧ ((∀ id, ¬ TicketIn m id) ∨ FnFailed s k).
Proof. exact crash_causes. Qed.
Print Assumptions C42_only_two_crashes_partial.

(** A function that returns a match with tickets and ends normally. *)
Example C42_example : ∀ wait, v_later wait (v_init [FnGrpc] ∅) i_state3 ∧ v_panic i_state3 = false ∧
  (∃ n k m, ReceivedAs i_state3 n k m ∧ TicketIn m "1-0") ∧ ∀ k, ¬ FnFailed i_state3 k.
Proof.
  intros wait. split; [exact (i_reach3 wait)|]. split; [reflexivity|]. split.
  - exists 0%nat, 0%nat, (Some i_match). split.
    + eexists. split; [reflexivity|]. done.
    + apply (ids_tickets _ _ i_ids). by left.
  - intros [|k] [f Hf]; [discriminate Hf|done].
Qed.

(** C43: with OM_MATCH_TICKET_DEACTIVATION_WAIT, at the moment a match is sent its
    tickets are inactive in the local cache. *)
Definition C43_deactivation_visible : Prop :=
  ∀ fns ina s s' n, v_later true (v_init fns ina) s → v_step true s s' → v_streamed s' = (v_streamed s ++ [n])%list →
  ∀ k m id, ReceivedAs s' n k m → TicketIn m id → id ∈ v_inactive s'.

(** It is false: the check looks once, and its outcome is not used. *)
Theorem C43_deactivation_visible_refuted : ¬ C43_deactivation_visible.
Proof.
  intros H. set (s' := with_streamed (with_fan (i_state1 true) FanIdle) [0%nat]).
  assert ("1-0" ∈ v_inactive s') as Hin.
  { apply (H [FnGrpc] ∅ (i_state1 true) s' 0%nat (i_reach1 true)) with (k := 0%nat) (m := Some i_match).
    - apply (V_stream true 0); [reflexivity|reflexivity|done].
    - reflexivity.
    - by exists (i_gor GDone).
    - apply (ids_tickets _ _ i_ids). by left. }
  apply (not_elem_of_empty (C := gset string) "1-0"). exact Hin.
Qed.
Print Assumptions C43_deactivation_visible_refuted.

(** What holds: a match streamed with the wait on has a ticket, and all its
    deactivations have been accepted by the state store. *)
Theorem C43_deactivation_accepted_partial : ∀ fns ina s n k m, v_later true (v_init fns ina) s →
  n ∈ v_streamed s → ReceivedAs s n k m →
  (∃ id, TicketIn m id) ∧ ∀ id, TicketIn m id → (n, id) ∈ v_answered s.
Proof.
  intros fns ina s n k m H Hn Hr. split; [by eapply wait_sends_tickets|].
  destruct (relayed true fns ina s H) as [_ Ha]. destruct (Ha n Hn) as (k' & m' & (g' & Hg' & _ & <-) & Hall).
  destruct Hr as (g & Hg & _ & <-). rewrite Hg in Hg'. injection Hg' as <-. exact Hall.
Qed.
Print Assumptions C43_deactivation_accepted_partial.

(** And the check does not hold a match back: whatever the inactive set is. *)
Theorem C43_check_is_no_wait_partial : ∀ fns ina s n g, v_later true (v_init fns ina) s → v_panic s = false →
  v_gors s !! n = Some g → g_phase_of g = GCheck → g_ids g ≠ [] →
  ∀ ina', ∃ s', v_later true (with_inactive s ina') s' ∧ v_inactive s' = ina' ∧
    ∃ g', v_gors s' !! n = Some g' ∧ g_phase_of g' = GSend.
Proof.
  intros fns ina s n g _ Hp Hg Hph Hids ina'. exists (set_gor (with_inactive s ina') n g GSend). split; [|split; [reflexivity|]].
  - apply rtc_once. apply V_check; [exact Hp|exact Hg|exact Hph|exact Hids].
  - exists (set_phase g GSend). split; [|reflexivity]. cbn. apply list_lookup_insert. by eapply lookup_lt_Some.
Qed.
Print Assumptions C43_check_is_no_wait_partial.

Example C43_example : v_later true (v_init [FnGrpc] ∅) i_state2 ∧ (∃ k m, ReceivedAs i_state2 0 k m) ∧ v_inactive i_state2 = ∅.
Proof. split; [apply C40_example|]. split; [|reflexivity]. exists 0%nat, (Some i_match), (i_gor GDone). done. Qed.

(** C44: a function that could not be invoked or failed makes the call fail. *)
Definition C44_failures_reported (wait : bool) : Prop :=
  ∀ fns ina s e k, v_later wait (v_init fns ina) s → v_main s = InvReturned e → FnFailed s k → e ≠ None.

(** It is false: the errors of the function goroutines are dropped. *)
Definition i_state4 : istate :=
  IState (InvReturned None) FanIdle [(FnRest, FnDone false)] [] [] [] [] [] ∅ 0 false.
Lemma i_reach4 wait : v_later wait (v_init [FnRest] ∅) i_state4.
Proof.
  eapply rtc_l; [eapply V_launch; reflexivity|].
  eapply rtc_l; [eapply V_launched; reflexivity|].
  eapply rtc_l; [eapply (V_rest _ 0); reflexivity|].
  eapply rtc_l; [eapply V_all_done; [reflexivity|reflexivity|constructor; [by exists false|constructor]]|].
  eapply rtc_l; [eapply V_return; reflexivity|]. apply rtc_refl.
Qed.
Theorem C44_failures_reported_refuted : ∀ wait, ¬ C44_failures_reported wait.
Proof. intros wait H. refine (H _ _ i_state4 None 0%nat (i_reach4 wait) eq_refl _ eq_refl). by exists FnRest. Qed.
Print Assumptions C44_failures_reported_refuted.

(** What holds: the call fails exactly if the profile is missing or the list of
    functions is empty; once functions are started it returns nil whatever they do. *)
Theorem C44_only_validation_errors_partial :
  (∀ prof mmfs, invoke_rejects prof mmfs = None ↔ (∃ p, prof = Some p) ∧ mmfs ≠ 0%nat) ∧
  (∀ prof mmfs c, invoke_rejects prof mmfs = Some c → c = InvalidArgument) ∧
  ∀ wait fns ina s e, v_later wait (v_init fns ina) s → v_main s = InvReturned e → e = None.
Proof.
  split; [|split; [|exact result_nil]].
  - intros [p|] mmfs; cbn; [|split; [done|by intros [[? ?] _]]]. destruct (Nat.eqb_spec mmfs 0); split; try done; eauto.
    by intros [_ ?].
  - intros [p|] mmfs c; cbn; [|by intros [= <-]]. destruct (mmfs =? 0)%nat; [by intros [= <-]|done].
Qed.
Print Assumptions C44_only_validation_errors_partial.

Example C44_example : invoke_rejects None 1 = Some InvalidArgument ∧ v_later false (v_init [FnRest] ∅) i_state4 ∧
  FnFailed i_state4 0.
Proof. split; [reflexivity|]. split; [apply i_reach4|by exists FnRest]. Qed.

(** C56: the counter has grown by the number of matches of the functions that ended
    normally. *)
Definition C56_counter_counts (wait : bool) : Prop :=
  ∀ fns ina s, v_later wait (v_init fns ina) s → AllFinished s → v_counted s = Z.of_nat (length (v_gors s)).

Theorem C56_counter_counts_refuted : ∀ wait, ¬ C56_counter_counts wait.
Proof. intros wait H. specialize (H _ _ i_state3 (i_reach3 wait) i_finished3). discriminate H. Qed.
Print Assumptions C56_counter_counts_refuted.

(** What holds, exactly: each function that ended its stream normally adds one more
    than its matches, and other functions add nothing. *)
Theorem C56_counter_exact_partial : ∀ wait fns ina s, v_later wait (v_init fns ina) s →
  v_counted s = Z.of_nat (length (filter (λ g, ended s (g_fn g) = true) (v_gors s)) +
                          length (filter (λ k, ended s k = true) (seq 0 (length (v_fns s))))).
Proof. exact counter_exact. Qed.
Print Assumptions C56_counter_exact_partial.

Theorem C56_counter_over_by_functions_partial : ∀ wait fns ina s, v_later wait (v_init fns ina) s → AllFinished s →
  v_counted s = Z.of_nat (length (v_gors s) + length (v_fns s)).
Proof. exact finished_count. Qed.
Print Assumptions C56_counter_over_by_functions_partial.

Example C56_example : v_counted i_state3 = 2 ∧ length (v_gors i_state3) = 1%nat ∧ v_counted i_state4 = 0.
Proof. split; [|split]; reflexivity. Qed.

(** C67: an invocation is never stuck: from every reachable state some continuation
    returns (or crashes the server). *)
Theorem C67_invocations_can_finish : ∀ wait fns ina s, v_later wait (v_init fns ina) s →
  ∃ s', v_later wait s s' ∧ (v_panic s' = true ∨ v_returned s').
Proof. exact can_finish. Qed.
Print Assumptions C67_invocations_can_finish.

(** A state in the middle of an invocation with two functions. *)
Example C67_example : ∃ s, v_later false (v_init [FnGrpc; FnRest] ∅) s ∧ v_main s = InvLaunching [FnRest] ∧
  length (v_gors s) = 1%nat.
Proof.
  eexists. split; [|split].
  - eapply rtc_l; [eapply V_launch; reflexivity|].
    eapply rtc_l; [eapply (V_run _ 0); reflexivity|].
    eapply rtc_l; [eapply (V_recv _ 0 1 (Some i_match) ["1-0"; "2-0"]); [reflexivity|reflexivity|exact i_ids]|]. apply rtc_refl.
  - reflexivity.
  - reflexivity.
Qed.
