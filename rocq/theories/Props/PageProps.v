(** C146: what the metrics pages of om-core and of the example matchmaker say. *)
From Coq Require Import Ascii String ZArith NArith Lia.
From stdpp Require Import prelude strings.
From Verif.Model Require Import GoStrings Types Wire Gateway Metrics JsonMsg JsonNumber MetricsPage.
From Verif.Spec Require Import NumberSpec JsonTextSpec StatusSpec PageSpec.
From Verif.Proofs Require Import PageText PageNumbers PageLemmas PageMore.
Local Open Scope string_scope.
Local Open Scope Z_scope.

(** A page can be read in one way only. *)
Theorem C146_format : ∀ p l l', PageText p l → PageText p l' → l = l'.
Proof. intros p l l' H H'. exact (page_same p l H l' H'). Qed.
Print Assumptions C146_format.

(** The page of om-core: one sample for everything recorded, with its number, and no other. *)
Theorem C146_core : ∀ r, Sensible r → Says (core_page r) (CoreShows r).
Proof. exact core_says. Qed.
Print Assumptions C146_core.

(** The page of the example. *)
Theorem C146_example_page : ∀ accepted rejected, Says (example_page accepted rejected) (ExampleShows accepted rejected).
Proof. exact example_says. Qed.
Print Assumptions C146_example_page.

(** The number of ended calls of each kind, and of the failed ones by text. *)
Theorem C146_calls : ∀ evs r c, rc_rpc r = handle_rpcs (map (λ ev, (Some (full_method ev.1), ev.2)) evs) (RpcMetrics [] []) → Sensible r →
  ∃ l, PageText (core_page r) l ∧
    (0 < Calls c evs → ∃ v, ("om_core_rpc_duration_milliseconds_count", Scope ++ [("rpc", rpc_name c)], v)%list ∈ l ∧ Shows v (QInt (Calls c evs))) ∧
    (∀ err, 0 < Failed c err evs → IsUtf8 err →
      ∃ v, ("om_core_rpc_errors_total", [("error", err)] ++ Scope ++ [("rpc", rpc_name c)], v)%list ∈ l ∧ Shows v (QInt (Failed c err evs))).
Proof. exact calls_shown. Qed.
Print Assumptions C146_calls.

(** Expiration cycles are recorded in whole milliseconds, and these are added up without any
    error. *)
Theorem C146_expiry_sum : ∀ r cycles, rc_expiry r = map (λ c, expiration_duration c.1 c.2) cycles → cycles ≠ [] → Sensible r →
  Sum (rc_expiry r) <= 1000 * 2 ^ 53 →
  ∃ l v, PageText (core_page r) l ∧ ("om_core_cache_expiration_duration_milliseconds_sum", Scope, v) ∈ l ∧ ShowsInt v (Sum (rc_expiry r) / 1000).
Proof. exact expiry_sum. Qed.
Print Assumptions C146_expiry_sum.

(** Registration succeeds, and no two metrics have the same name on a page. *)
Theorem C146_registered : (∀ i, i ∈ (core_instruments ++ example_instruments)%list → name_ok (in_name i) = true ∧ InstrumentName (in_name i)) ∧
  NoDup (map page_name core_instruments) ∧ NoDup (map page_name example_instruments).
Proof. exact registered. Qed.
Print Assumptions C146_registered.

(** "Every metric of om-core appears on its page, if something happens": false. The three
    histograms of what each expiration cycle removed are never recorded (cache/metrics.go:78-91;
    replicatedticketcache.go:284-346), nor two counters of the example. *)
Definition C146_every_metric : Prop := ∀ i, i ∈ core_instruments → ∃ r, Sensible r ∧ OnPage (page_name i) (core_page r).
Theorem C146_every_metric_refuted : ¬ C146_every_metric.
Proof. exact every_metric_refuted. Qed.
Print Assumptions C146_every_metric_refuted.
Theorem C146_every_metric_partial : ∀ i, i ∈ core_instruments →
  ((∃ r, Sensible r ∧ OnPage (page_name i) (core_page r)) ↔
   in_name i ∉ ["om_core.cache.assignment.expirations"; "om_core.cache.ticket.expirations"; "om_core.cache.ticket.inactive.expirations"]).
Proof. exact every_metric. Qed.
Print Assumptions C146_every_metric_partial.
Theorem C146_every_metric_example_partial : ∀ i, i ∈ example_instruments →
  ((∃ accepted rejected, OnPage (page_name i) (example_page accepted rejected)) ↔
   in_name i ∉ ["matchmaker_example-tickets_created"; "matchmaker_example-tickets_assigned"]).
Proof. exact every_example_metric. Qed.
Print Assumptions C146_every_metric_example_partial.

(** Examples. *)
Definition nl : string := String NL "".
Definition dq : string := String DQ "".
Example C146_example_text : example_page [1; 1; 1] [] =
  "# HELP matchmaker_example_matches_accepted_total Total matches accepted" +:+ nl +:+
  "# TYPE matchmaker_example_matches_accepted_total counter" +:+ nl +:+
  "matchmaker_example_matches_accepted_total{otel_scope_name=" +:+ dq +:+ "open-match.dev/matchmaker_example" +:+ dq +:+
    ",otel_scope_version=" +:+ dq +:+ dq +:+ "} 3" +:+ nl.
Proof. vm_compute. reflexivity. Qed.
Definition some_records : records :=
  Records (RpcMetrics [("CreateTicket", 1500); ("CreateTicket", 100); ("A", 7500000)] [("A", "x""y\")]) [3; 500] [] [1] [2; -1]
    [("f", 3); ("f", 4); ("g", 1)] [2000] 5 1234567 0.
Example C146_example_core : Sensible some_records ∧
  map triple (series_samples "open_match.core" i_errors ([("rpc", "A"); ("error", "x""y\")], DSum 1)) =
    [("om_core_rpc_errors_total", [("error", "x""y\")] ++ Scope ++ [("rpc", "A")], "1")]%list ∧
  map sa_value (series_samples "open_match.core" i_duration ([("rpc", "CreateTicket")], DMicros [1500; 100])) =
    ["0"; "2"; "2"; "2"; "2"; "2"; "2"; "2"; "2"; "2"; "2"; "2"; "2"; "2"; "2"; "2"; "1.6"; "2"] ∧
  map sa_value (series_samples "open_match.core" i_inactive ([], DSum 1234567)) = ["1.234567e+06"].
Proof. split; [exact some_sensible|]. vm_compute. auto. Qed.
