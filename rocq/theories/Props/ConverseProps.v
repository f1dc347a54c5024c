(** C134: om-core and a function wait for each other only if the function does not
    read its request first. *)
From Coq Require Import Ascii String ZArith NArith Lia.
From stdpp Require Import prelude strings relations.
From Verif.Model Require Import Converse.
From Verif.Spec Require Import ConverseSpec.
From Verif.Proofs Require Import ConverseLemmas.
Local Open Scope nat_scope.

(** Matches arrive in the order in which they were sent and none is lost or made up,
    whatever the function does and however the two are scheduled. *)
Theorem C134_matches_in_order : ∀ cu cd chunks ops s, cvreach cu cd chunks ops s →
  emits ops = cv_got s ++ cv_down s ++ emits (cv_ops s).
Proof. exact conv_matches. Qed.
Print Assumptions C134_matches_in_order.

(** The function reads the chunks in order; while it runs none is lost. *)
Theorem C134_chunks_in_order : ∀ cu cd chunks ops s, cvreach cu cd chunks ops s →
  cv_read s = take (length (cv_read s)) chunks ∧ length (cv_read s) + reads (cv_ops s) = reads ops ∧
  (cv_ops s ≠ [] → chunks = cv_read s ++ cv_up s ++ cv_left s).
Proof. exact conv_chunks. Qed.
Print Assumptions C134_chunks_in_order.

(** At the end om-core has all matches, and the function has read what it wanted. *)
Theorem C134_end : ∀ cu cd chunks ops s, cvreach cu cd chunks ops s → cv_over s = true →
  cv_got s = emits ops ∧ cv_read s = take (reads ops) chunks ∧ reads ops ≤ length chunks.
Proof. exact conv_over. Qed.
Print Assumptions C134_end.

(** om-core receives no match before it has sent the whole request. *)
Theorem C134_request_first : ∀ cu cd chunks ops s, cvreach cu cd chunks ops s → cv_left s ≠ [] → cv_got s = [].
Proof. exact conv_first_sends. Qed.
Print Assumptions C134_request_first.

(** No execution goes on for ever. *)
Theorem C134_finite : ∀ cu cd chunks ops n s,
  nsteps (cvstep cu cd) n (conv0 chunks ops) s → n ≤ length chunks + 2 * length ops + 1.
Proof. exact conv_finite. Qed.
Print Assumptions C134_finite.

(** Exactly when a conversation can get stuck, and exactly when it can end: the two
    exclude each other, so that scheduling does not matter. *)
Theorem C134_never_stuck_iff : ∀ cu cd chunks ops, 1 ≤ cu → 1 ≤ cd →
  Fits cu cd (length chunks) ops ↔ ∀ s, cvreach cu cd chunks ops s → ¬ Deadlock cu cd s.
Proof. exact fits_iff_never_stuck. Qed.
Print Assumptions C134_never_stuck_iff.
Theorem C134_can_end_iff : ∀ cu cd chunks ops, 1 ≤ cu → 1 ≤ cd →
  Fits cu cd (length chunks) ops ↔ ∃ s, cvreach cu cd chunks ops s ∧ cv_over s = true.
Proof. exact fits_iff_can_end. Qed.
Print Assumptions C134_can_end_iff.
(** More room does not hurt. *)
Theorem C134_more_room : ∀ cu cd cu' cd' n ops, cu ≤ cu' → cd ≤ cd' → Fits cu cd n ops → Fits cu' cd' n ops.
Proof. exact fits_mono. Qed.
Print Assumptions C134_more_room.

(** The sample functions read the request and then answer: with any room, every
    execution ends with all chunks read and all matches received. *)
Theorem C134_samples : ∀ cu cd chunks ms s, 1 ≤ cu → 1 ≤ cd →
  cvreach cu cd chunks (sample_ops (length chunks) ms) s → (∀ s', ¬ cvstep cu cd s s') →
  cv_over s = true ∧ cv_got s = ms ∧ cv_read s = chunks.
Proof. exact sample_ends. Qed.
Print Assumptions C134_samples.

(** Any function does if the request fits in the stream, or the matches do. *)
Theorem C134_short_partial : ∀ cu cd n ops,
  reads ops ≤ n → n ≤ cu ∨ length (emits ops) ≤ cd → Fits cu cd n ops.
Proof. exact short_fits. Qed.
Print Assumptions C134_short_partial.

(** A function that answers while it reads can wait for om-core, which waits for it. *)
Definition cx_chunks : list string := ["a"; "b"; "c"; "d"]%string.
Definition cx_ops : list op := [OEmit "m"; OEmit "n"; ORead; ORead; ORead; ORead]%string.
Definition cx_stuck : conv := Conv ["b"; "c"; "d"]%string ["a"%string] [OEmit "n"; ORead; ORead; ORead; ORead]%string [] ["m"%string] [] false.
Lemma cx_reach : cvreach 1 1 cx_chunks cx_ops cx_stuck.
Proof.
  eapply rtc_l; [apply CV_send; cbn; lia|]. eapply rtc_l; [apply CV_emit; cbn; lia|]. apply rtc_refl.
Qed.
Theorem C134_never_stuck_refuted : ¬ NeverStuck.
Proof.
  intros H. apply (H 1 1 cx_chunks cx_ops cx_stuck ltac:(lia) ltac:(lia)); [by vm_compute; lia|exact cx_reach|].
  split; [done|]. intros s' Hs. inversion Hs; subst; cbn in *; lia.
Qed.
Print Assumptions C134_never_stuck_refuted.

(** A function that reads until the end of its request reads for ever: om-core does
    not close its direction. Not one of its matches is received. *)
Theorem C134_request_never_ends : ∀ cu cd chunks ms s,
  cvreach cu cd chunks (until_eof_ops (length chunks) ms) s → cv_over s = false ∧ cv_got s = [].
Proof. exact until_eof_never. Qed.
Print Assumptions C134_request_never_ends.
Theorem C134_request_ends_refuted : ¬ RequestEnds.
Proof.
  intros H. destruct (H 1 1 ["a"%string] ["m"%string] ltac:(lia) ltac:(lia)) as (s & Hs & Ho).
  destruct (until_eof_never _ _ _ _ _ Hs) as [Hf _]. congruence.
Qed.
Print Assumptions C134_request_ends_refuted.

Example C134_example :
  Fits 1 1 2 (sample_ops 2 ["m"; "n"; "o"]%string) ∧ ¬ Fits 1 1 4 cx_ops ∧ Fits 4 1 4 cx_ops ∧
  cvreach 1 1 ["a"; "b"]%string (sample_ops 2 ["m"]%string) (Conv [] [] [] ["a"; "b"]%string [] ["m"%string] true).
Proof.
  split; [apply sample_fits|]. split; [|split].
  - intros [_ H]. specialize (H [OEmit "m"%string] "n"%string [ORead; ORead; ORead; ORead] eq_refl ltac:(cbn; lia)). vm_compute in H. lia.
  - apply short_fits; [by vm_compute; lia|]. left. lia.
  - eapply rtc_l; [apply CV_send; cbn; lia|]. eapply rtc_l; [apply CV_read|]. eapply rtc_l; [apply CV_send; cbn; lia|].
    eapply rtc_l; [apply CV_read|]. eapply rtc_l; [apply CV_emit; cbn; lia|]. eapply rtc_l; [apply CV_recv|].
    eapply rtc_l; [apply CV_eof|]. apply rtc_refl.
Qed.
