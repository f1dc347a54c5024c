(** Property theorems about invocations whose caller goes away: C112. *)
From Coq Require Import Ascii String ZArith NArith Lia.
From stdpp Require Import prelude strings gmap.
From Verif.Model Require Import GoStrings Types Invoke Hangup.
From Verif.Spec Require Import InvokeSpec HangupSpec.
From Verif.Proofs Require Import InvokeLemmas HangupLemmas.
From Verif.Props Require Import InvokeProps.
Local Open Scope string_scope.
Local Open Scope Z_scope.

(** C112: when an invocation has returned, every ticket it deactivated was in a match
    its caller got (so that the caller can activate it again). To set C41's lost last
    match aside: provided all matches sent to the fan-in goroutine have been sent. *)
Definition C112_deactivated_are_told (wait : bool) : Prop :=
  ∀ fns ina h, h_later wait (h_init fns ina) h → v_returned (h_inv h) → AllFinished (h_inv h) →
  v_lost (h_inv h) = [] → (∀ n, v_fan (h_inv h) ≠ FanSending n) →
  ∀ id, DeactivatedBy (h_inv h) id → ToldAbout h id.

(** It is false: the caller hangs up, the functions go on, and the tickets of their
    matches become inactive. *)
Theorem C112_deactivated_are_told_refuted : ∀ wait, ¬ C112_deactivated_are_told wait.
Proof.
  intros wait H.
  assert (ToldAbout (HState i_state2 true []) "1-0") as (n & k & m & Hn & _).
  { apply (H [FnGrpc] ∅).
    - apply (hangup_at wait [FnGrpc] ∅ (v_init [FnGrpc] ∅)); [apply rtc_refl|]. apply C40_example.
    - by exists None.
    - intros k Hk. cbn in Hk. assert (k = 0%nat) as -> by lia. by exists FnGrpc.
    - reflexivity.
    - done.
    - exists 0%nat. right. left. }
  by apply elem_of_nil in Hn.
Qed.
Print Assumptions C112_deactivated_are_told_refuted.

(** What happens, exactly: the runs with a hang-up are the runs of the server, with
    what it sent until some moment delivered and nothing afterwards; the server's
    steps do not depend on it. *)
Theorem C112_hangup_changes_nothing_partial : ∀ wait fns ina s d,
  h_later wait (h_init fns ina) (HState s true d) ↔
  ∃ s1, v_later wait (v_init fns ina) s1 ∧ v_later wait s1 s ∧ d = v_streamed s1.
Proof.
  intros wait fns ina s d. split.
  - intros H. apply hangup_split in H. exact H.
  - intros (s1 & H1 & H2 & ->). by apply hangup_at.
Qed.
Print Assumptions C112_hangup_changes_nothing_partial.

(** So whatever an invocation can do with its tickets, it can do for nobody. *)
Theorem C112_works_for_nobody_partial : ∀ wait fns ina s, v_later wait (v_init fns ina) s →
  h_later wait (h_init fns ina) (HState s true []).
Proof. intros wait fns ina s H. by apply (hangup_at wait fns ina (v_init fns ina)); [apply rtc_refl|]. Qed.
Print Assumptions C112_works_for_nobody_partial.

(** For every caller: what is delivered are the first matches sent, in that order;
    all that were sent, if the caller stays; and the tickets of every match of a
    function that ended normally are deactivated, delivered or not. *)
Theorem C112_delivered_partial : ∀ wait fns ina h, h_later wait (h_init fns ina) h →
  h_delivered h `prefix_of` v_streamed (h_inv h) ∧
  (h_gone h = false → h_delivered h = v_streamed (h_inv h)) ∧
  ∀ n k m id, FnFinished (h_inv h) k → ReceivedAs (h_inv h) n k m → TicketIn m id → DeactivatedBy (h_inv h) id.
Proof.
  intros wait fns ina h H. destruct (h_ok_reach _ _ _ _ H) as [H1 H2]. split; [exact H1|]. split; [exact H2|].
  intros n k m id Hf Hr Ht. exists n. apply (finished_deactivated wait fns ina _ n k m id); try assumption.
  apply (hangup_project wait (h_init fns ina) h H).
Qed.
Print Assumptions C112_delivered_partial.

(** A caller that stays is told about every ticket deactivated, apart from C41's last match. *)
Theorem C112_told_if_staying_partial : ∀ wait fns ina h, h_later wait (h_init fns ina) h → h_gone h = false →
  AllFinished (h_inv h) → v_returned (h_inv h) → v_lost (h_inv h) = [] → (∀ n, v_fan (h_inv h) ≠ FanSending n) →
  ∀ id, DeactivatedBy (h_inv h) id → ToldAbout h id.
Proof. exact told_if_staying. Qed.
Print Assumptions C112_told_if_staying_partial.

Example C112_example : ∀ wait,
  h_later wait (h_init [FnGrpc] ∅) (HState i_state2 true []) ∧ DeactivatedBy i_state2 "1-0" ∧
  h_later wait (h_init [FnGrpc] ∅) (HState i_state2 false [0%nat]) ∧ ToldAbout (HState i_state2 false [0%nat]) "1-0".
Proof.
  intros wait. split; [apply C112_works_for_nobody_partial, C40_example|]. split; [exists 0%nat; right; left|]. split.
  - apply (hangup_lift_here wait (v_init [FnGrpc] ∅) i_state2). apply C40_example.
  - exists 0%nat, 0%nat, (Some i_match). split; [left|]. split; [by exists (i_gor GDone)|].
    apply (ids_tickets _ _ i_ids). left.
Qed.
