(** Property theorems about a cycle of the example matchmaker: C139. *)
From Coq Require Import Ascii String ZArith NArith Lia.
From stdpp Require Import prelude strings gmap.
From Verif.Model Require Import GoStrings Types Wire JsonMsg HttpStream JsonText JsonBytes ExampleCalls ExampleCycle.
From Verif.Spec Require Import JsonSpec HttpSpec JsonTextSpec JsonBytesSpec ExampleCycleSpec.
From Verif.Proofs Require Import JsonLemmas JsonWitness ExampleCycleLemmas ExampleBroken.
From Verif.Props Require Import JsonBytesProps.
Local Open Scope string_scope.
Local Open Scope list_scope.

(** C139. The claims: the example does not crash, whatever becomes of its call; ... *)
Definition C139_never_crashes : Prop := ∀ read a, cycle_http read a ≠ Crash.
Theorem C139_never_crashes_refuted : ¬ C139_never_crashes.
Proof. intros H. exact (H (λ _, None) HNoAnswer eq_refl). Qed.
Print Assumptions C139_never_crashes_refuted.

(** ... if it goes on, it is with the matches that om-core sent; ... *)
Definition C139_counts_what_was_sent : Prop := ∀ c d sp bad ms e ms' l, Agree c d → WritesJson c →
  Forall (AllOpt (AllMatch (kept c d))) ms → (∀ x, e = Some x → RealFailure x) →
  cycle_http (r_result d) (gateway_stream sp (written (j_result c true) bad ms e)) = Next ms' l → ms' = ms.

Definition one_match : option match_ := Some (Match "m1" ∅ ∅).
Definition eof : failure := Failure 2 "EOF" (Some []).
Definition timed_out : failure := Failure 4 "context deadline exceeded" (Some []).
Lemma eof_real : RealFailure eof ∧ RealFailure timed_out.
Proof. split; (split; [done|]); intros ds [= <-]; constructor. Qed.
Lemma one_match_kept : Forall (AllOpt (AllMatch (kept dec_codec dec_codec))) [one_match].
Proof.
  constructor; [|constructor]. intros m [= <-]. split_and!; [reflexivity|apply none_map|apply none_map].
Qed.
Theorem C139_counts_what_was_sent_refuted : ¬ C139_counts_what_was_sent.
Proof.
  intros H. destruct dec_codec_ok as [HA HC].
  specialize (H dec_codec dec_codec false (λ _, eof) [one_match] (Some eof) [one_match; None] true HA HC one_match_kept).
  specialize (H ltac:(intros x [= <-]; apply eof_real) ltac:(vm_compute; reflexivity)). discriminate H.
Qed.
Print Assumptions C139_counts_what_was_sent_refuted.

(** ... and the line about the cycle tells an error exactly if there was one. *)
Definition C139_line_tells_error : Prop := ∀ a ms l rej, cycle_grpc a = Next ms l → (cycle_line ms rej).2 = l.
Theorem C139_line_tells_error_refuted : ¬ C139_line_tells_error.
Proof. intros H. specialize (H (GStream [] true) [] true 0%nat eq_refl). discriminate H. Qed.
Print Assumptions C139_line_tells_error_refuted.
Theorem C139_line_never_tells_partial : ∀ ms rej, (cycle_line ms rej).2 = false ∧
  ((rej <= length ms)%nat → ∃ app, cycle_line ms rej = (length ms, app, rej, false) ∧ (app + rej = length ms)%nat).
Proof. intros ms rej. split; [done|]. intros H. exists (length ms - rej)%nat. split; [done|lia]. Qed.
Print Assumptions C139_line_never_tells_partial.

(** What happens exactly. Over gRPC: it ends if the call cannot be made, and otherwise goes
    on with the matches received, logging an error if there was one. *)
Theorem C139_grpc_exactly_partial : ∀ a r, cycle_grpc a = r ↔
  match r with Next ms l => a = GStream ms l | Exit => a = GFails | Crash => False end.
Proof. intros [|ms l] [ms' l'| |]; cbn; split; intros H; try done; try discriminate H; by injection H as <- <-. Qed.
Print Assumptions C139_grpc_exactly_partial.

(** Over HTTP: it goes on with the matches sent if the call ended without an error, or
    with one that cannot be written; it ends if the call was refused or a text in a match or in
    the error has a space; an error after the first match whose texts have no space
    is counted as one more match. *)
Theorem C139_http_exactly_partial : ∀ c d sp bad ms e ms1 f, Agree c d → WritesJson c →
  BreaksOff c bad ms e ms1 f → Forall (AllOpt (AllMatch (kept c d))) ms1 → (∀ x, f = Some x → RealFailure x) →
  ∃ vs, mapM (j_result c true) ms1 = Some vs ∧
    ∀ r, cycle_http (r_result d) (gateway_stream sp (written (j_result c true) bad ms e)) = r ↔ Outcome ms1 vs f r.
Proof. exact http_cycle. Qed.
Print Assumptions C139_http_exactly_partial.

(** Without an answer it always crashes; answers with an error status always end it. *)
Theorem C139_no_good_answer : ∀ read, cycle_http read HNoAnswer = Crash ∧
  ∀ st body b, st ≠ 200%Z → cycle_http read (HAnswer st body b) = Exit.
Proof.
  intros read. split; [done|]. intros st body b H. unfold cycle_http. apply Z.eqb_neq in H. by rewrite H.
Qed.
Print Assumptions C139_no_good_answer.

(** After an answer that breaks off it never goes on; where what arrived is the beginning of
    what the gateway sends, it ends without a crash. *)
Theorem C139_broken_body : ∀ read st body ms l, cycle_http read (HAnswer st body true) ≠ Next ms l.
Proof. exact broken_never_next. Qed.
Print Assumptions C139_broken_body.
Theorem C139_cut_off : ∀ read sp vs e st body b p q, Forall Writable vs → (∀ f, e = Some f → RealFailure f) →
  gateway_stream sp (vs, e) = HAnswer st body b → body = (p +:+ q)%string → cycle_http read (HAnswer st p true) = Exit.
Proof. exact broken_exit. Qed.
Print Assumptions C139_cut_off.

(** The status for each code; every error of a call is an error status, if it is the first
    thing the gateway sees. *)
Theorem C139_status : ∀ code, (∀ st, http_status code = st ↔ CodeStatus code st) ∧ (http_status code = 200%Z ↔ code = 0%N).
Proof. intros code. split; [intros st; exact (code_status code st)|exact (status_200 code)]. Qed.
Print Assumptions C139_status.

Example C139_example :
  let answer ms e := gateway_stream false (written (j_result dec_codec true) (λ _, eof) ms e) in
  let cycle := cycle_http (r_result dec_codec) in
  cycle (answer [one_match; some_match "m2"] None) = Next [one_match; some_match "m2"] false ∧
  cycle (answer [one_match] (Some eof)) = Next [one_match; None] true ∧
  cycle (answer [one_match] (Some timed_out)) = Exit ∧
  cycle (answer [one_match] (Some (Failure 2 "EOF" None))) = Next [one_match] false ∧
  cycle (answer [] (Some eof)) = Exit ∧ cycle (answer [] None) = Next [] false ∧
  cycle (answer [some_match "m 2"] None) = Exit ∧
  answer [] (Some timed_out) = HAnswer 504 ("{""error"":{""code"":4,""message"":""context deadline exceeded"",""details"":[]}}" +:+ String (ascii_of_N 10) "") false ∧
  cycle_grpc (GStream [one_match] true) = Next [one_match] true ∧
  (let nl := String (ascii_of_N 10) "" in
   cycle (HAnswer 200 ("{""result"":{}}" +:+ nl +:+ "{""res") true) = Exit ∧
   cycle (HAnswer 200 ("{""result"":{}}" +:+ nl) true) = Exit ∧
   cycle (HAnswer 200 ("{""result"":{}}" +:+ nl +:+ "{}" +:+ nl) true) = Crash ∧
   cycle (HAnswer 200 ("{""result"":{}}" +:+ nl +:+ "{""res") false) = Crash ∧
   cycle (HAnswer 200 ("{""result"":{}}" +:+ nl) false) = Next [None] false).
Proof. vm_compute. repeat (split; [reflexivity|]). reflexivity. Qed.
