(** Property theorems about the example matchmaker: C53 - C55, C68, C69. *)
From Coq Require Import Ascii String ZArith NArith Lia.
From stdpp Require Import prelude strings gmap.
From Verif.Model Require Import GoStrings Types Matchmaker.
From Verif.Spec Require Import MatchmakerSpec.
From Verif.Proofs Require Import MatchmakerLemmas.
Local Open Scope string_scope.
Local Open Scope Z_scope.

(** C53: every call is legal and all but the last are full; the ids sent are always an
    initial part of the ids that arrived, in order and each once; when it is done, the
    calls made are exactly what had arrived at a moment at which the queue was
    empty; without arrivals they are the initial queue, and the queue is empty. *)
Theorem C53_activation_batches : ∀ q0 s, a_later (a_init q0) s →
  Forall LegalBatch (batches s) ∧
  (∀ n b, batches s !! n = Some b → (S n < length (batches s))%nat → Z.of_nat (length b) = 500) ∧
  concat (batches s) `prefix_of` a_arrived s ∧
  (a_ended s → ∃ s1, a_later (a_init q0) s1 ∧ a_later s1 s ∧ a_queue s1 = [] ∧ concat (batches s) = a_arrived s1) ∧
  (a_ended s → a_arrived s = q0 → concat (batches s) = q0 ∧ a_queue s = []).
Proof. exact activation_batches. Qed.
Print Assumptions C53_activation_batches.

(** And it can always return, without further arrivals. *)
Theorem C53_activation_returns : ∀ q0 s, a_later (a_init q0) s →
  ∃ s', a_later s s' ∧ a_phase_of s' = AReturned ∧ a_arrived s' = a_arrived s.
Proof. exact a_can_return. Qed.
Print Assumptions C53_activation_returns.

(** Two ids queued, a third arrives while the queue is read. *)
Definition m_state1 : astate := AState AWaiting [] ["a"; "b"; "c"] [(["a"; "b"; "c"], CallNew)] ["a"; "b"; "c"].
Lemma m_reach1 : a_later (a_init ["a"; "b"]) m_state1.
Proof.
  eapply rtc_l; [apply A_recv|].
  eapply rtc_l; [apply (A_arrive "c"); cbn; unfold queue_cap; lia|].
  eapply rtc_l; [apply A_recv|]. eapply rtc_l; [apply A_recv|].
  eapply rtc_l; [apply A_default|]. eapply rtc_l; [by apply A_send|]. apply rtc_refl.
Qed.
Example C53_example : a_later (a_init ["a"; "b"]) m_state1 ∧ a_ended m_state1 ∧ batches m_state1 = [["a"; "b"; "c"]].
Proof. split; [exact m_reach1|]. split; [by left|reflexivity]. Qed.

(** C54: without -ignoreempty, the loop stops on the third consecutive empty cycle. *)
Definition C54_stops_on_third : Prop :=
  ∀ cycles r j, EmptyRun r j 3 → (mm_loop false cycles 0 0 r ≤ j + 3)%nat.

(** It is false: the counter is compared before it is incremented. *)
Theorem C54_stops_on_third_refuted : ¬ C54_stops_on_third.
Proof.
  intros H. specialize (H 4%nat (λ _, 0%nat) 0%nat (λ _ _, eq_refl)). vm_compute in H. lia.
Qed.
Print Assumptions C54_stops_on_third_refuted.

(** What holds: it stops on the fourth, and for no other reason before the requested
    number of cycles; with -ignoreempty it does all cycles. *)
Theorem C54_stops_on_fourth_partial : ∀ cycles r,
  (mm_loop true cycles 0 0 r = cycles) ∧
  (mm_loop false cycles 0 0 r ≤ cycles)%nat ∧
  ((mm_loop false cycles 0 0 r < cycles)%nat → ∃ j, (j + 4 = mm_loop false cycles 0 0 r)%nat ∧ EmptyRun r j 4) ∧
  (∀ j, EmptyRun r j 4 → (mm_loop false cycles 0 0 r ≤ j + 4)%nat).
Proof. exact loop_exact. Qed.
Print Assumptions C54_stops_on_fourth_partial.

(** Results 2 0 0 0 1 0 0 0 0 0 ...: nine cycles. *)
Example C54_example : mm_loop false 20 0 0 (λ i, nth i [2; 0; 0; 0; 1]%nat 0%nat) = 9%nat ∧
  mm_loop true 20 0 0 (λ i, nth i [2; 0; 0; 0; 1]%nat 0%nat) = 20%nat.
Proof. split; vm_compute; reflexivity. Qed.

(** C55: the tickets of rejected matches can always be queued. *)
Definition C55_requeue_never_blocks : Prop := ∀ ids, requeue [] ids ≠ None.

Theorem C55_requeue_never_blocks_refuted : ¬ C55_requeue_never_blocks.
Proof.
  intros H. apply (H (replicate (Z.to_nat 10001) "id")). apply requeue_exact. rewrite replicate_length. lia.
Qed.
Print Assumptions C55_requeue_never_blocks_refuted.

(** What holds, exactly: from the empty queue up to 10000 ids are queued in order and
    more block the loop for ever. The queue is empty at each cycle, by C53. *)
Theorem C55_requeue_limit_partial : ∀ ids,
  (requeue [] ids = Some ids ↔ Z.of_nat (length ids) ≤ 10000) ∧
  (requeue [] ids = None ↔ 10000 < Z.of_nat (length ids)).
Proof. exact requeue_exact. Qed.
Print Assumptions C55_requeue_limit_partial.

Example C55_example : requeue [] ["a"; "b"; "c"] = Some ["a"; "b"; "c"].
Proof. reflexivity. Qed.

(** C68: activateTickets returns only when its calls are complete. *)
Definition C68_returns_after_calls : Prop :=
  ∀ q0 s, a_later (a_init q0) s → a_phase_of s = AReturned → ∀ b x, (b, x) ∈ a_calls s → x = CallDone.

(** It is false: activationWg.Add is called in the goroutine it is to count. *)
Theorem C68_returns_after_calls_refuted : ¬ C68_returns_after_calls.
Proof.
  intros H.
  assert (a_later (a_init ["a"; "b"]) (AState AReturned [] ["a"; "b"; "c"] [(["a"; "b"; "c"], CallNew)] ["a"; "b"; "c"])) as Hr.
  { eapply rtc_transitive; [exact m_reach1|]. apply rtc_once. apply A_return. by constructor. }
  specialize (H _ _ Hr eq_refl ["a"; "b"; "c"] CallNew (elem_of_list_here _ _)). discriminate H.
Qed.
Print Assumptions C68_returns_after_calls_refuted.

(** What holds: at the moment it returns no call is in progress. *)
Theorem C68_no_call_running_partial : ∀ q0 s s', a_later (a_init q0) s → a_step s s' →
  a_phase_of s ≠ AReturned → a_phase_of s' = AReturned →
  ∀ b x, (b, x) ∈ a_calls s' → x = CallNew ∨ x = CallDone.
Proof.
  intros q0 s s' _ Hs Hp Hp' b x Hin. destruct Hs as [| | |q cur calls arr Hne| | | |q cur calls arr Hall]; cbn in *; try congruence.
  - by destruct (is_full _).
  - by destruct (is_full cur).
  - rewrite Forall_forall in Hall. specialize (Hall _ Hin). destruct x; [by left|done|by right].
Qed.
Print Assumptions C68_no_call_running_partial.

Example C68_example : a_later (a_init ["a"; "b"]) (AState AReturned [] ["a"; "b"; "c"] [(["a"; "b"; "c"], CallDone)] ["a"; "b"; "c"]).
Proof.
  eapply rtc_transitive; [exact m_reach1|].
  eapply rtc_l; [apply (A_start 0 ["a"; "b"; "c"]); reflexivity|].
  eapply rtc_l; [apply (A_finish 0 ["a"; "b"; "c"]); reflexivity|].
  apply rtc_once. apply A_return. by constructor.
Qed.

(** C69: over HTTP, the example counts only results as matches. [ResultLine x] is how
    the gateway wraps the JSON text [x] of a result. *)
Definition ResultLine (x : string) : string := "{""result"":" +:+ x +:+ "}".
Definition C69_only_results_counted : Prop :=
  ∀ parse lines ms, http_matches parse lines = Some ms → ms ≠ [] → ∃ x, ResultLine x ∈ lines.

(** It is false: the line with which the gateway reports an error counts as a match
    (without tickets), whether or not it can be parsed. *)
Definition error_line : string := "{""error"":{""code"":13,""message"":""m""}}".
Theorem C69_only_results_counted_refuted : ¬ C69_only_results_counted.
Proof.
  intros H. destruct (H (λ _, None) [error_line] [None] eq_refl) as [x Hx]; [done|].
  apply elem_of_list_singleton in Hx. discriminate Hx.
Qed.
Print Assumptions C69_only_results_counted_refuted.

(** What holds: exactly one match per line is counted; result lines give what they
    contain; a line of fewer than 11 bytes makes the
    example panic. *)
Theorem C69_one_match_per_line_partial :
  (∀ parse lines ms, http_matches parse lines = Some ms → length ms = length lines) ∧
  (∀ parse xs, (∀ x, x ∈ xs → is_Some (parse x)) →
     ∃ ms, http_matches parse (map ResultLine xs) = Some ms ∧ map Some ms = map parse xs) ∧
  (∀ parse lines, http_matches parse lines = None ↔ ∃ l, l ∈ lines ∧ (String.length l < 11)%nat).
Proof. exact http_facts. Qed.
Print Assumptions C69_one_match_per_line_partial.

Example C69_example : http_matches (λ s, if String.eqb s "{}" then Some (Some (Match "m" ∅ ∅)) else None)
  ["{""result"":{}}"; error_line] = Some [Some (Match "m" ∅ ∅); None].
Proof. reflexivity. Qed.
