(** C128: a server that can not serve ends and says why. *)
From Coq Require Import Ascii String ZArith NArith Lia.
From stdpp Require Import prelude strings.
From Verif.Model Require Import Startup.
From Verif.Spec Require Import StartupSpec.
From Verif.Proofs Require Import StartupLemmas.
Local Open Scope string_scope.

(** If anything fails that start depends on and no signal has come, the process ends
    with status 1 ... *)
Definition C128_failures_end : Prop :=
  ∀ s, su_reach s → Settled s → su_signal s = false → su_failures s ≠ [] → su_exit s = Some 1.
(** ... and logs an error that did occur. *)
Definition C128_failures_logged : Prop :=
  ∀ s, su_reach s → su_exit s = Some 1 → ∃ f, f ∈ su_failures s ∧ su_logged s = [Some (error_text f)].

(** The gRPC server fails; before its goroutine looks at err, start assigns nil to it. *)
Definition su_lost : startup := Startup None SWait VDone VServing false [] None [GrpcFailed true "accept: too many open files"].
Lemma su_lost_reach : su_reach su_lost.
Proof.
  eapply rtc_l; [right; apply SU_listen|].
  eapply rtc_l; [left; apply (SU_serve_fails "accept: too many open files")|].
  eapply rtc_l; [right; apply SU_register|].
  eapply rtc_l; [right; apply SU_grpc_ok|].
  eapply rtc_l; [right; apply SU_check_ok|]. apply rtc_refl.
Qed.
Lemma su_lost_settled : Settled su_lost.
Proof. intros s' H. inversion H. Qed.

Theorem C128_failures_end_refuted : ¬ C128_failures_end.
Proof.
  exact (λ H, match H su_lost su_lost_reach su_lost_settled eq_refl ltac:(done) in _ = x
              return match x with Some _ => False | None => True end with eq_refl => I end).
Qed.
Print Assumptions C128_failures_end_refuted.

(** The same a little later: the process ends, with the message "<nil>". *)
Definition su_nil : startup := Startup None SCheck VFatal VOff false [None] (Some 1) [GrpcFailed true "accept: too many open files"].
Lemma su_nil_reach : su_reach su_nil.
Proof.
  eapply rtc_l; [right; apply SU_listen|].
  eapply rtc_l; [left; apply (SU_serve_fails "accept: too many open files")|].
  eapply rtc_l; [right; apply SU_grpc_fails|].
  eapply rtc_l; [right; apply SU_register|].
  eapply rtc_l; [right; apply SU_grpc_fatal|]. apply rtc_refl.
Qed.

Theorem C128_failures_logged_refuted : ¬ C128_failures_logged.
Proof. intros H. destruct (H su_nil su_nil_reach eq_refl) as (f & _ & E). discriminate E. Qed.
Print Assumptions C128_failures_logged_refuted.

(** A signal can hide a failure too: the HTTP server fails and, before its goroutine has
    logged that, Serve returns nil into the same err because of a signal. *)
Definition C128_http_failure_logged : Prop :=
  ∀ s, su_reach s → su_exit s = Some 1 → (∀ e, GrpcFailed true e ∉ su_failures s) → ∃ f, f ∈ su_failures s ∧ su_logged s = [Some (error_text f)].
Definition su_hidden : startup := Startup None SStopped VCheck VFatal true [None] (Some 1) [HttpFailed "address already in use"].
Lemma su_hidden_reach : su_reach su_hidden.
Proof.
  eapply rtc_l; [right; apply SU_listen|].
  eapply rtc_l; [right; apply SU_register|].
  eapply rtc_l; [right; apply SU_check_ok|].
  eapply rtc_l; [left; apply (SU_http_fails "address already in use")|].
  eapply rtc_l; [right; apply SU_http_fails2|].
  eapply rtc_l; [left; apply SU_signal|].
  eapply rtc_l; [right; apply SU_stop|].
  eapply rtc_l; [right; apply SU_served|].
  eapply rtc_l; [right; apply SU_http_fatal|]. apply rtc_refl.
Qed.
Theorem C128_http_failure_logged_refuted : ¬ C128_http_failure_logged.
Proof.
  intros H. destruct (H su_hidden su_hidden_reach eq_refl) as (f & _ & E); [|discriminate E].
  intros e He. apply elem_of_list_singleton in He. discriminate He.
Qed.
Print Assumptions C128_http_failure_logged_refuted.

(** It holds unless the gRPC server fails before start has assigned the result of
    registering the gateway to err. *)
Theorem C128_failures_end_partial : ∀ s,
  su_reach s → Settled s → su_signal s = false → su_failures s ≠ [] → (∀ e, GrpcFailed true e ∉ su_failures s) →
  su_exit s = Some 1 ∧ ∃ f, f ∈ su_failures s ∧ su_logged s = [Some (error_text f)].
Proof. exact late_failure_logged. Qed.
Print Assumptions C128_failures_end_partial.

(** Also after such a failure any other ends the process. *)
Theorem C128_other_failures_end_partial : ∀ s f,
  su_reach s → Settled s → su_signal s = false → f ∈ su_failures s → (∀ e, f ≠ GrpcFailed true e) → su_exit s = Some 1.
Proof. exact late_failure_ends. Qed.
Print Assumptions C128_other_failures_end_partial.

(** What the process can come to: a process that goes on serves on both ports, or is
    the one of the first refutation, with its HTTP gateway only. *)
Theorem C128_goes_on : ∀ s, su_reach s → Settled s → su_exit s = None →
  Serves s ∨ (su_main s = SWait ∧ su_grpc s = VDone ∧ su_http s = VServing ∧
    ∃ e, GrpcFailed true e ∈ su_failures s ∧ ∀ f, f ∈ su_failures s → ∃ e', f = GrpcFailed true e').
Proof. exact goes_on. Qed.
Print Assumptions C128_goes_on.

(** It ends with status 0 only after a signal, and with status 1 only after a failure;
    then it has logged one message. *)
Theorem C128_ends_for_a_reason : ∀ s n, su_reach s → su_exit s = Some n →
  (n = 0 → su_signal s = true) ∧
  (n ≠ 0 → n = 1 ∧ su_failures s ≠ [] ∧ ∃ l, su_logged s = [l] ∧
    match l with
    | Some e => ∃ f, f ∈ su_failures s ∧ error_text f = e
    | None => su_signal s = true ∨ ∃ e, GrpcFailed true e ∈ su_failures s
    end).
Proof.
  exact (λ s n H E, conj (λ E0, ends_with_signal s H (eq_trans E (f_equal Some E0))) (ends_with_failure s n H E)).
Qed.
Print Assumptions C128_ends_for_a_reason.

(** It settles: it takes at most twenty steps of its own after whatever comes from
    outside. *)
Theorem C128_settles : ∀ s s', su_own s s' → su_weight s' < su_weight s ∧ su_weight s <= 20.
Proof. exact (λ s s' H, conj (su_own_weight s s' H) (su_weight_bound s)). Qed.
Print Assumptions C128_settles.

(** A gateway port in use, and a signal after a normal start. *)
Example C128_example :
  su_reach (Startup None SWait VServing VServing false [] None []) ∧
  Settled (Startup None SWait VServing VServing false [] None []) ∧
  su_reach (Startup (Some "listen tcp :58081: bind: address already in use") SWait VServing VFatal false
    [Some "listen tcp :58081: bind: address already in use"] (Some 1) [HttpFailed "listen tcp :58081: bind: address already in use"]) ∧
  su_reach (Startup None SStopped VDone VServing true [] (Some 0) []).
Proof.
  assert (H : su_reach (Startup None SWait VServing VServing false [] None [])).
  { eapply rtc_l; [right; apply SU_listen|]. eapply rtc_l; [right; apply SU_register|].
    eapply rtc_l; [right; apply SU_check_ok|]. apply rtc_refl. }
  split; [exact H|]. split; [intros s' Hs; inversion Hs|]. split.
  - eapply rtc_r; [|right; apply (SU_http_fatal _ _ _ _ [])].
    eapply rtc_r; [|right; apply SU_http_fails2].
    eapply rtc_r; [exact H|left; exact (SU_http_fails "listen tcp :58081: bind: address already in use" None SWait VServing false [] [])].
  - eapply rtc_r; [|right; apply SU_end].
    eapply rtc_r; [|right; apply SU_grpc_ok].
    eapply rtc_r; [|right; exact (SU_served None VServing true [] [])].
    eapply rtc_r; [|right; apply SU_stop].
    eapply rtc_r; [exact H|left; apply SU_signal].
Qed.
