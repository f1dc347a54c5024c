(** Property theorems about the recorded metrics: C95 - C97. *)
From Coq Require Import Ascii String ZArith NArith Lia.
From stdpp Require Import prelude strings gmap.
From Verif.Model Require Import GoStrings Types Proto Handlers Gateway Metrics.
From Verif.Spec Require Import MetricsSpec.
From Verif.Proofs Require Import MetricsLemmas.
Local Open Scope string_scope.
Local Open Scope Z_scope.

(** C95: whatever the server reports about its calls, the duration histogram gets one
    value for every ended call, under its method's name and in whole microseconds,
    and the error counter is increased once for every failed one. *)
Theorem C95_every_call_measured : ∀ evs, Forall GoodStat evs →
  Measured evs (m_durations (handle_rpcs evs (RpcMetrics [] []))) (m_errors (handle_rpcs evs (RpcMetrics [] []))).
Proof. exact handle_rpcs_measured. Qed.
Print Assumptions C95_every_call_measured.

(** The calls of the service are recorded under different names. *)
Theorem C95_names : ∀ r r',
  path_base (full_method r) = rpc_name r ∧ (path_base (full_method r) = path_base (full_method r') → r = r').
Proof.
  exact (λ r r', conj (service_methods r)
    (λ E, service_methods_distinct r r' (eq_trans (eq_sym (service_methods r)) (eq_trans E (service_methods r'))))).
Qed.
Print Assumptions C95_names.

Definition m_events : list (option string * rpc_stat) :=
  [(Some (full_method CreateTicketRpc), StatOther);
   (Some (full_method CreateTicketRpc), StatEnd 5000 2505999 None);
   (Some (full_method ActivateTicketsRpc), StatEnd 0 999 (Some "rpc error"))].
Example C95_example :
  Forall GoodStat m_events ∧
  handle_rpcs m_events (RpcMetrics [] []) =
    RpcMetrics [("CreateTicket", 2500); ("ActivateTickets", 0)] [("ActivateTickets", "rpc error")].
Proof.
  split; [|vm_compute; reflexivity]. unfold m_events.
  constructor; [exact I|]. constructor; [cbn; lia|]. constructor; [cbn; lia|constructor].
Qed.

(** C96: the number of tickets a call records as set to active or inactive is the
    number of tickets it has set. *)
Definition C96_counts_successes : Prop :=
  ∀ cfg c ids n rs, state_calls_recorded cfg c ids = Some n → length rs = length (valid_ids ids) → succeeded rs = n.

(** It is false: failed updates are counted too. *)
Theorem C96_counts_successes_refuted : ¬ C96_counts_successes.
Proof.
  intros H. specialize (H (Config 600 600 500 500 10 true) CmdActivate ["1-1"] 1 [Response "1-1" (Some EReply)] eq_refl eq_refl).
  vm_compute in H. discriminate H.
Qed.
Print Assumptions C96_counts_successes_refuted.

(** A call records something exactly if it sends updates, and then their number;
    that is the number of successes exactly if the call reports no error. *)
Theorem C96_counts_requests_partial : ∀ cfg c ids n,
  (state_calls_recorded cfg c ids = Some n ↔
     ∃ us, set_active_start cfg c ids = Send us ∧ n = Z.of_nat (length us)) ∧
  (∀ rs, state_calls_recorded cfg c ids = Some n → length rs = length (valid_ids ids) →
     succeeded rs <= n ∧ (succeeded rs = n ↔ s_code (set_active_finish ids rs) = OK)).
Proof. exact (λ cfg c ids n, conj (recorded_sent cfg c ids n) (λ rs, recorded_ok cfg c ids n rs)). Qed.
Print Assumptions C96_counts_requests_partial.

Theorem C96_assignments_partial : ∀ oe req n, assignments_recorded oe req = Some n ↔
  ∃ us, create_assignments_start oe req = Send us ∧ n = Z.of_nat (length us).
Proof. exact assign_recorded. Qed.
Print Assumptions C96_assignments_partial.

Example C96_example :
  state_calls_recorded (Config 600 600 500 500 10 true) CmdActivate ["1-1"; "x"; "2-1"] = Some 2 ∧
  state_calls_recorded (Config 600 600 500 500 10 true) CmdDeactivate [] = None ∧
  succeeded [Response "1-1" None; Response "2-1" (Some EReply)] = 1 ∧
  assignments_recorded [] (Some (Roster "" (Some (Assignment "a:1" ∅)) [Ticket "1-1" None None ∅; Ticket "" None None ∅] ∅)) = Some 1.
Proof. split_and!; vm_compute; reflexivity. Qed.

(** C97: the recorded duration of an expiration cycle is its duration in
    milliseconds, to the microsecond, as for the calls. *)
Definition C97_cycle_duration : Prop :=
  ∀ start now, start <= now → WholeMicros start now (expiration_duration start now).

(** It is false: microseconds are dropped, so a cycle under a millisecond takes 0. *)
Theorem C97_cycle_duration_refuted : ¬ C97_cycle_duration.
Proof. intros H. destruct (H 0 999000 ltac:(lia)) as [_ H2]. vm_compute in H2. discriminate H2. Qed.
Print Assumptions C97_cycle_duration_refuted.

Theorem C97_whole_milliseconds_partial : ∀ start now, start <= now →
  ∃ ms, expiration_duration start now = ms * 1000 ∧ start + ms * 1000000 <= now < start + (ms + 1) * 1000000.
Proof. exact expiration_duration_spec. Qed.
Print Assumptions C97_whole_milliseconds_partial.

Example C97_example : expiration_duration 0 2999999 = 2000 ∧ expiration_duration 0 3000000 = 3000 ∧ expiration_duration 0 999999 = 0.
Proof. split_and!; reflexivity. Qed.
