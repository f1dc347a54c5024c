(** Vocabulary for C146: the text format of Prometheus (version 0.0.4), and what om-core's
    metrics page should say. *)
From Coq Require Import Ascii String ZArith NArith.
From stdpp Require Import prelude strings.
From Verif.Model Require Import Types Gateway Metrics MetricsPage.
From Verif.Spec Require Import NumberSpec JsonTextSpec JsonBytesSpec StatusSpec.
Local Open Scope string_scope.
Local Open Scope Z_scope.

(** ** The text format *)

Definition NL : ascii := "010".
Definition DQ : ascii := """".
Inductive Has (c : ascii) : string → Prop :=
| Has_here s : Has c (String c s)
| Has_later d s : Has c s → Has c (String d s).

(** The value of a label, with backslash, quotes and newline escaped. *)
Inductive EscText : string → string → Prop :=
| Esc_nil : EscText "" ""
| Esc_plain c t v : c ≠ "\"%char → c ≠ DQ → c ≠ NL → EscText t v → EscText (String c t) (String c v)
| Esc_backslash t v : EscText t v → EscText (String "\" (String "\" t)) (String "\" v)
| Esc_quote t v : EscText t v → EscText (String "\" (String DQ t)) (String DQ v)
| Esc_newline t v : EscText t v → EscText (String "\" (String "n" t)) (String NL v).

Definition NameChar (c : ascii) : Prop :=
  let n := N_of_ascii c in (65 <= n <= 90 ∨ 97 <= n <= 122 ∨ 48 <= n <= 57)%N ∨ c = "_"%char ∨ c = ":"%char.
Definition NameText (s : string) : Prop :=
  s ≠ "" ∧ (∀ c, Has c s → NameChar c) ∧ ∀ c r, s = String c r → ¬ (48 <= N_of_ascii c <= 57)%N.

Inductive LabelsText : string → list (string * string) → Prop :=
| LT_one n e v : NameText n → EscText e v → LabelsText (n +:+ "=" +:+ String DQ (e +:+ String DQ "")) [(n, v)]
| LT_more n e v t ls : NameText n → EscText e v → LabelsText t ls →
    LabelsText (n +:+ "=" +:+ String DQ (e +:+ String DQ ("," +:+ t))) ((n, v) :: ls).

(** A sample: name, labels, value. *)
Inductive SampleText : string → string * list (string * string) * string → Prop :=
| ST_plain n v : NameText n → ¬ Has NL v → SampleText (n +:+ " " +:+ v) (n, [], v)
| ST_labels n t ls v : NameText n → LabelsText t ls → ¬ Has NL v →
    SampleText (n +:+ "{" +:+ t +:+ "} " +:+ v) (n, ls, v).

Inductive PageText : string → list (string * list (string * string) * string) → Prop :=
| PT_nil : PageText "" []
| PT_comment t p l : ¬ Has NL t → PageText p l → PageText ("#" +:+ t +:+ String NL p) l
| PT_sample t s p l : SampleText t s → PageText p l → PageText (t +:+ String NL p) (s :: l).

(** ** Values *)

(** The number that [v] is read as. *)
Definition ReadsAs (v : string) (x : f64) : Prop :=
  ∃ neg ip ds ex m, NumberText v neg ip ds ex ∧ Mantissa ip ds m ∧ StandsFor neg m (Places ds ex) x.
Definition ShowsInt (v : string) (z : Z) : Prop := ∃ x, ReadsAs v x ∧ f64_val x = FFin (z * 2 ^ 1074).

(** Milliseconds, added up one after the other, each time rounded to the nearest double. *)
Inductive SumOf : list Z → f64 → Prop :=
| SumOf_nil : SumOf [] 0%N
| SumOf_snoc us s u d s' zs zd : SumOf us s → f64_val s = FFin zs →
    NearestDouble false (u * 2 ^ 1074) 1000 d → f64_val d = FFin zd →
    NearestDouble false (zs + zd) 1 s' → SumOf (us ++ [u]) s'.

Inductive quantity := QInt (z : Z) | QSum (us : list Z).
Definition Shows (v : string) (q : quantity) : Prop :=
  match q with
  | QInt z => Z.abs z <= 2 ^ 53 → ShowsInt v z
  | QSum us => ∃ x, ReadsAs v x ∧ SumOf us x
  end.

(** ** What the page should say *)

(** The upper bounds of the buckets, as on the page and in numbers. *)
Definition Bounds : list (string * Z) :=
  [("0", 0); ("5", 5); ("10", 10); ("25", 25); ("50", 50); ("75", 75); ("100", 100); ("250", 250); ("500", 500);
   ("750", 750); ("1000", 1000); ("2500", 2500); ("5000", 5000); ("7500", 7500); ("10000", 10000)].
Fixpoint Count {A} (f : A → bool) (l : list A) : Z :=
  match l with [] => 0 | a :: l' => (if f a then 1 else 0) + Count f l' end.
Fixpoint Sum (l : list Z) : Z := match l with [] => 0 | z :: l' => z + Sum l' end.

(** A histogram [n] with labels [ls]: [upto b] of the values are at most b, [all] are there. *)
Inductive HistShows (n : string) (ls : list (string * string)) (upto : Z → Z) (all : Z) (sum : quantity) :
    string → list (string * string) → quantity → Prop :=
| HS_bucket t b : (t, b) ∈ Bounds →
    HistShows n ls upto all sum (n +:+ "_bucket") (ls ++ [("le", t)])%list (QInt (upto b))
| HS_inf : HistShows n ls upto all sum (n +:+ "_bucket") (ls ++ [("le", "+Inf")])%list (QInt all)
| HS_sum : HistShows n ls upto all sum (n +:+ "_sum") ls sum
| HS_count : HistShows n ls upto all sum (n +:+ "_count") ls (QInt all).
(** ... of whole numbers; of microseconds, in milliseconds. *)
Definition IntsShow (n : string) (ls : list (string * string)) (zs : list Z) :=
  HistShows n ls (λ b, Count (λ z, z <=? b) zs) (Z.of_nat (length zs)) (QInt (Sum zs)).
Definition MicrosShow (n : string) (ls : list (string * string)) (us : list Z) :=
  HistShows n ls (λ b, Count (λ u, u <=? 1000 * b) us) (Z.of_nat (length us)) (QSum us).

Fixpoint Of {K V} `{EqDecision K} (k : K) (l : list (K * V)) : list V :=
  match l with [] => [] | (k', v) :: l' => if bool_decide (k' = k) then v :: Of k l' else Of k l' end.

Definition Scope : list (string * string) := [("otel_scope_name", "open_match.core"); ("otel_scope_version", "")].
Inductive CoreShows (r : records) : string → list (string * string) → quantity → Prop :=
| CS_duration rpc n ls q : Of rpc (m_durations (rc_rpc r)) ≠ [] → IsUtf8 rpc →
    MicrosShow "om_core_rpc_duration_milliseconds" (Scope ++ [("rpc", rpc)])%list (Of rpc (m_durations (rc_rpc r))) n ls q →
    CoreShows r n ls q
| CS_errors rpc err : (rpc, err) ∈ m_errors (rc_rpc r) → IsUtf8 rpc → IsUtf8 err →
    CoreShows r "om_core_rpc_errors_total" ([("error", err)] ++ Scope ++ [("rpc", rpc)])%list
      (QInt (Count (λ e, bool_decide (e = (rpc, err))) (m_errors (rc_rpc r))))
| CS_activations n ls q : rc_activations r ≠ [] →
    IntsShow "om_core_ticket_activation_requests" Scope (rc_activations r) n ls q → CoreShows r n ls q
| CS_deactivations n ls q : rc_deactivations r ≠ [] →
    IntsShow "om_core_ticket_deactivation_requests" Scope (rc_deactivations r) n ls q → CoreShows r n ls q
| CS_assignments n ls q : rc_assignments r ≠ [] →
    IntsShow "om_core_ticket_assignment" Scope (rc_assignments r) n ls q → CoreShows r n ls q
| CS_watches : rc_watches r ≠ [] → CoreShows r "om_core_ticket_assigment_watch" Scope (QInt (Sum (rc_watches r)))
| CS_matches fn : Of fn (rc_matches r) ≠ [] → IsUtf8 fn →
    CoreShows r "om_core_match_received_total" ([("mmf_name", fn)] ++ Scope)%list (QInt (Sum (Of fn (rc_matches r))))
| CS_active : CoreShows r "om_core_cache_tickets_active" Scope (QInt (rc_active r))
| CS_inactive : CoreShows r "om_core_cache_tickets_inactive" Scope (QInt (rc_inactive r))
| CS_assigned : CoreShows r "om_core_cache_assignments" Scope (QInt (rc_assigned r))
| CS_expiry n ls q : rc_expiry r ≠ [] →
    MicrosShow "om_core_cache_expiration_duration_milliseconds" Scope (rc_expiry r) n ls q → CoreShows r n ls q.

Definition ExampleScope : list (string * string) :=
  [("otel_scope_name", "open-match.dev/matchmaker_example"); ("otel_scope_version", "")].
Inductive ExampleShows (accepted rejected : list Z) : string → list (string * string) → quantity → Prop :=
| ES_accepted : accepted ≠ [] →
    ExampleShows accepted rejected "matchmaker_example_matches_accepted_total" ExampleScope (QInt (Sum accepted))
| ES_rejected : rejected ≠ [] →
    ExampleShows accepted rejected "matchmaker_example_matches_rejected_total" ExampleScope (QInt (Sum rejected)).

(** A page says [P]: every sample once, with the right value, and nothing else. *)
Definition Says (p : string) (P : string → list (string * string) → quantity → Prop) : Prop :=
  ∃ l, PageText p l ∧ NoDup (map fst l) ∧
    (∀ n ls v, (n, ls, v) ∈ l → ∃ q, P n ls q ∧ Shows v q) ∧
    (∀ n ls q, P n ls q → ∃ v, (n, ls, v) ∈ l ∧ Shows v q).

(** Durations that a server can measure (in microseconds, 2^63 nanoseconds at most). *)
Definition Measured (us : list Z) : Prop := Forall (λ u, 0 <= u <= 2 ^ 63) us ∧ Z.of_nat (length us) <= 2 ^ 53.
(** Sizes are not negative. *)
Definition Sensible (r : records) : Prop :=
  Measured (map snd (m_durations (rc_rpc r))) ∧ Measured (rc_expiry r) ∧
  Forall (λ z, 0 <= z) (rc_activations r ++ rc_deactivations r ++ rc_assignments r).

(** Ended calls; those that failed with [err]. *)
Definition Calls (c : rpc) (evs : list (rpc * rpc_stat)) : Z :=
  Count (λ ev, bool_decide (ev.1 = c) && match ev.2 with StatEnd _ _ _ => true | StatOther => false end) evs.
Definition Failed (c : rpc) (err : string) (evs : list (rpc * rpc_stat)) : Z :=
  Count (λ ev, bool_decide (ev.1 = c) && match ev.2 with StatEnd _ _ (Some e) => String.eqb e err | _ => false end) evs.

(** The names that OpenTelemetry allows. *)
Definition InstrumentChar (c : ascii) : Prop :=
  let n := N_of_ascii c in (65 <= n <= 90 ∨ 97 <= n <= 122 ∨ 48 <= n <= 57)%N ∨ c ∈ ["_"; "."; "-"; "/"]%char.
Definition InstrumentName (s : string) : Prop :=
  (1 <= String.length s <= 255)%nat ∧ (∀ c, Has c s → InstrumentChar c) ∧
  ∀ c r, s = String c r → (65 <= N_of_ascii c <= 90 ∨ 97 <= N_of_ascii c <= 122)%N.

(** A page has samples of the metric [n]. *)
Definition OnPage (n p : string) : Prop :=
  ∃ l m ls v, PageText p l ∧ (m, ls, v) ∈ l ∧ m ∈ [n; n +:+ "_bucket"; n +:+ "_sum"; n +:+ "_count"].
