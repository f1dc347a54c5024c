(** The metrics page of om-core (core/metrics.go:84-93: http://…:2223/metrics) and of the
    example matchmaker (matchmaker-example/metrics.go:85-94), as OpenTelemetry's SDK v1.24.0
    and its Prometheus exporter v0.46.0 make it from what is recorded, and client_golang
    v1.19.0 (prometheus/common v0.48.0, expfmt/text_create.go) writes it.

    Simplifications: only the families of the two programs (not go_*, process_*,
    promhttp_*, otel_scope_info, target_info); the order of families and of the series in a
    family is not that of the page, which sorts them; sums of int64 do not wrap; only the
    text format without compression; durations are not negative. *)
From Coq Require Import Ascii String ZArith NArith.
From stdpp Require Import prelude strings.
From Verif.Model Require Import GoStrings Types Wire JsonMsg JsonNumber Metrics.
Local Open Scope string_scope.
Local Open Scope Z_scope.

(** ** Instruments *)

Inductive kind := KHistogram | KCounter | KUpDown | KObservable.
Record instrument := Instrument { in_kind : kind; in_name : string; in_unit : string; in_help : string }.

(** core/metrics.go:44 and :107-166. *)
Definition core_instrument (k : kind) (n u h : string) : instrument := Instrument k ("om_core." +:+ n) u h.
Definition i_duration := core_instrument KHistogram "rpc.duration" "ms" "RPC duration".
Definition i_errors := core_instrument KCounter "rpc.errors" "" "Total gRPC errors returned".
Definition i_activations :=
  core_instrument KHistogram "ticket.activation.requests" "" "Total tickets set to active, so they appear in pools".
Definition i_deactivations :=
  core_instrument KHistogram "ticket.deactivation.requests" "" "Total tickets set to deactive, so they do not appear in pools".
Definition i_assignments :=
  core_instrument KHistogram "ticket.assignment" "" "Number of tickets assignments included in each CreateAssignments() call".
Definition i_watches :=
  core_instrument KUpDown "ticket.assigment.watch" "" "Number of tickets assignments included in each CreateAssignments() call".
Definition i_matches := core_instrument KCounter "match.received" "" "Total matches received from MMFs".

(** cache/metrics.go:41 and :48-91. *)
Definition cache_instrument (k : kind) (n u h : string) : instrument := core_instrument k ("cache." +:+ n) u h.
Definition i_active := cache_instrument KObservable "tickets.active" "" "Active tickets that can appear in pools".
Definition i_inactive := cache_instrument KObservable "tickets.inactive" "" "Inactive tickets that won't appear in pools".
Definition i_assigned := cache_instrument KObservable "assignments" "" "Assignments in Open Match cache".
Definition i_expiry := cache_instrument KHistogram "expiration.duration" "ms" "Duration of cache expiration logic".
Definition i_assignments_expired :=
  cache_instrument KHistogram "assignment.expirations" "" "Number of assignments expired per cache expiration cycle".
Definition i_tickets_expired :=
  cache_instrument KHistogram "ticket.expirations" "" "Number of tickets expired per cache expiration cycle".
Definition i_inactives_expired :=
  cache_instrument KHistogram "ticket.inactive.expirations" "" "Number of inactive tickets expired per cache expiration cycle".

(** In the order of registration, core/main.go:95-96. *)
Definition core_instruments : list instrument :=
  [i_duration; i_errors; i_activations; i_deactivations; i_assignments; i_watches; i_matches;
   i_active; i_inactive; i_assigned; i_expiry; i_assignments_expired; i_tickets_expired; i_inactives_expired].

(** matchmaker-example/metrics.go:23, :40-67. *)
Definition example_instrument (n h : string) : instrument := Instrument KCounter ("matchmaker_example-" +:+ n) "" h.
Definition i_created := example_instrument "tickets_created" "Total tickets created".
Definition i_assigned_tickets := example_instrument "tickets_assigned" "Total tickets assigned".
Definition i_accepted := example_instrument "matches_accepted" "Total matches accepted".
Definition i_rejected := example_instrument "matches_rejected" "Total matches rejected".
Definition example_instruments : list instrument := [i_created; i_assigned_tickets; i_accepted; i_rejected].

(** validateInstrumentName (sdk/metric/meter.go): an instrument with another name is an
    error, and the program ends (core/metrics.go:112 and so on). *)
Definition name_char (c : ascii) : bool :=
  letter c || is_digit c || Ascii.eqb c "_" || Ascii.eqb c "." || Ascii.eqb c "-" || Ascii.eqb c "/".
Fixpoint all_chars (f : ascii → bool) (s : string) : bool :=
  match s with String c r => f c && all_chars f r | "" => true end.
Definition name_ok (s : string) : bool :=
  match s with
  | "" => false
  | String c r => (String.length s <=? 255)%nat && letter c && all_chars name_char r
  end.

(** sanitizeName and getName of the exporter. *)
Definition good_char (c : ascii) : bool := letter c || is_digit c || Ascii.eqb c "_" || Ascii.eqb c ":".
Fixpoint map_chars (f : ascii → ascii) (s : string) : string :=
  match s with String c r => String (f c) (map_chars f r) | "" => "" end.
Definition sanitize (s : string) : string := map_chars (λ c, if good_char c then c else "_"%char) s.
Definition unit_suffix (u : string) : string := if String.eqb u "ms" then "_milliseconds" else "".
Definition counter_suffix (k : kind) : string := match k with KCounter => "_total" | _ => "" end.
Definition page_name (i : instrument) : string :=
  sanitize (in_name i) +:+ unit_suffix (in_unit i) +:+ counter_suffix (in_kind i).
Definition page_type (k : kind) : string :=
  match k with KHistogram => "histogram" | KCounter => "counter" | KUpDown | KObservable => "gauge" end.

(** ** Values *)

(** float64 of an int64; float64(us)/1000.0 (core/server.go:133). *)
Definition with_sign (neg : bool) (b : Z) : f64 := Z.to_N (b + if neg then sign_bit else 0).
Definition of_int (z : Z) : f64 := with_sign (z <? 0) (round_bits (Z.abs z * 2 ^ 1074) 1).
Definition of_micros (us : Z) : f64 := with_sign false (round_bits (us * 2 ^ 1074) 1000).
(** The sum of two doubles that are not negative. *)
Definition add_double (x y : f64) : f64 :=
  with_sign false (round_bits (mag (Z.of_N x) + mag (Z.of_N y)) 1).
(** x <= y for such. *)
Definition le_double (x y : f64) : bool := (x <=? y)%N.

(** writeFloat; strconv.AppendFloat(…, 'g', -1, 64). *)
Definition g_double (x : f64) : string :=
  let b := Z.of_N x mod sign_bit in
  if b =? 0 then "0"
  else
    let '(m, e) := shortest_decimal b in
    let ds := format_Z m in
    let exp := slen ds + e - 1 in
    (if f64_sign x then "-" else "") +:+
    if (exp <? -4) || (6 <=? exp) then scientific ds e else fixed ds e.

(** ** Histograms: sdk/metric/internal/aggregate/histogram.go with the default bounds
    (sdk/metric/reader.go); addHistogramMetric of the exporter; expfmt. *)
Definition bounds : list Z := [0; 5; 10; 25; 50; 75; 100; 250; 500; 750; 1000; 2500; 5000; 7500; 10000].
(** sort.SearchFloat64s: the first bound that is not less. *)
Fixpoint bucket_of (x : f64) (bs : list Z) : nat :=
  match bs with [] => O | b :: bs' => if le_double x (of_int b) then O else S (bucket_of x bs') end.
Definition bucket_count (i : nat) (xs : list f64) : Z :=
  Z.of_nat (length (List.filter (λ x, Nat.eqb (bucket_of x bounds) i) xs)).
Fixpoint cumulative (acc : Z) (i : nat) (xs : list f64) (bs : list Z) : list (Z * Z) :=
  match bs with
  | [] => []
  | b :: bs' => let acc := acc + bucket_count i xs in (b, acc) :: cumulative acc (S i) xs bs'
  end.

(** ** Samples *)

Record sample := Sample { sa_name : string; sa_labels : list (string * string); sa_value : string }.
Inductive data := DSum (z : Z) | DInts (zs : list Z) | DMicros (us : list Z).

(** Labels are sorted by name (prometheus.MakeLabelPairs); le comes last. *)
Fixpoint ascii_leb (s t : string) : bool :=
  match s, t with
  | "", _ => true
  | String _ _, "" => false
  | String c s', String d t' =>
      if (N_of_ascii c <? N_of_ascii d)%N then true
      else if (N_of_ascii d <? N_of_ascii c)%N then false else ascii_leb s' t'
  end.
Fixpoint insert (l : string * string) (ls : list (string * string)) : list (string * string) :=
  match ls with
  | [] => [l]
  | l' :: ls' => if ascii_leb l.1 l'.1 then l :: ls else l' :: insert l ls'
  end.
Fixpoint sort (ls : list (string * string)) : list (string * string) :=
  match ls with [] => [] | l :: ls' => insert l (sort ls') end.

(** getAttrs: the attributes and the scope. *)
Definition labels (scope : string) (attrs : list (string * string)) : list (string * string) :=
  sort (map (λ a, (sanitize a.1, a.2)) attrs ++ [("otel_scope_name", scope); ("otel_scope_version", "")])%list.

Definition hist_samples (n : string) (ls : list (string * string)) (xs : list f64) (sum : f64) : list sample :=
  (map (λ bc, Sample (n +:+ "_bucket") (ls ++ [("le", g_double (of_int bc.1))]) (g_double (of_int bc.2)))
       (cumulative 0 0 xs bounds) ++
   [Sample (n +:+ "_bucket") (ls ++ [("le", "+Inf")]) (g_double (of_int (Z.of_nat (length xs))));
    Sample (n +:+ "_sum") ls (g_double sum);
    Sample (n +:+ "_count") ls (g_double (of_int (Z.of_nat (length xs))))])%list.

(** A series whose labels are not UTF-8 is left out (NewConstMetric; the error is given to
    OpenTelemetry's error handler). *)
Definition series_samples (scope : string) (i : instrument) (s : list (string * string) * data) : list sample :=
  let ls := labels scope s.1 in let n := page_name i in
  if forallb (λ l, utf8_valid l.2) ls then
    match s.2 with
    | DSum z => [Sample n ls (g_double (of_int z))]
    | DInts zs => hist_samples n ls (map of_int zs) (of_int (fold_left Z.add zs 0))
    | DMicros us => hist_samples n ls (map of_micros us) (fold_left add_double (map of_micros us) 0%N)
    end
  else [].

(** ** What was recorded, by series *)

Section by_attribute.
  Context {K V : Type} `{EqDecision K}.
  Definition keys (l : list (K * V)) : list K := remove_dups (map fst l).
  Definition values (k : K) (l : list (K * V)) : list V := map snd (filter (λ p, p.1 = k) l).
  Definition grouped (l : list (K * V)) : list (K * list V) := map (λ k, (k, values k l)) (keys l).
End by_attribute.
Definition total (zs : list Z) : Z := fold_left Z.add zs 0.

(** What om-core records: the durations and errors of calls (Model/Metrics.v), the histograms
    of the handlers (core/main.go:316, :350, :792), the watches (:852-866), the matches by
    function (:700), the expiration cycles in microseconds; and what the callback of
    the gauges observes (cache/metrics.go:98-100). *)
Record records := Records {
  rc_rpc : rpc_metrics; rc_activations : list Z; rc_deactivations : list Z; rc_assignments : list Z;
  rc_watches : list Z; rc_matches : list (string * Z); rc_expiry : list Z;
  rc_active : Z; rc_inactive : Z; rc_assigned : Z
}.

Definition family : Type := instrument * list (list (string * string) * data).
(** An instrument that has recorded nothing has no series. *)
Definition plain (zs : list Z) (d : list Z → data) : list (list (string * string) * data) :=
  match zs with [] => [] | _ => [([], d zs)] end.
Definition core_families (r : records) : list family :=
  [(i_duration, map (λ s, ([("rpc", s.1)], DMicros s.2)) (grouped (m_durations (rc_rpc r))));
   (i_errors, map (λ s, ([("rpc", s.1.1); ("error", s.1.2)], DSum (total s.2))) (grouped (map (λ e, (e, 1)) (m_errors (rc_rpc r)))));
   (i_activations, plain (rc_activations r) DInts);
   (i_deactivations, plain (rc_deactivations r) DInts);
   (i_assignments, plain (rc_assignments r) DInts);
   (i_watches, plain (rc_watches r) (λ zs, DSum (total zs)));
   (i_matches, map (λ s, ([("mmf.name", s.1)], DSum (total s.2))) (grouped (rc_matches r)));
   (i_active, [([], DSum (rc_active r))]);
   (i_inactive, [([], DSum (rc_inactive r))]);
   (i_assigned, [([], DSum (rc_assigned r))]);
   (i_expiry, plain (rc_expiry r) DMicros);
   (i_assignments_expired, []); (i_tickets_expired, []); (i_inactives_expired, [])].

(** matchmaker-example/main.go:252, :255, :330, :333; the other two counters are never used. *)
Definition example_families (accepted rejected : list Z) : list family :=
  [(i_created, []); (i_assigned_tickets, []);
   (i_accepted, plain accepted (λ zs, DSum (total zs))); (i_rejected, plain rejected (λ zs, DSum (total zs)))].

(** ** Text *)

Definition newline : ascii := "010".
Definition quote : ascii := """".
(** escapeString: for labels with quotes. *)
Fixpoint escaped (quotes : bool) (s : string) : string :=
  match s with
  | "" => ""
  | String c r =>
      (if Ascii.eqb c "\" then "\\" else if Ascii.eqb c newline then "\n"
       else if quotes && Ascii.eqb c quote then String "\" (String quote "") else String c "") +:+ escaped quotes r
  end.
Definition label_text (l : string * string) : string := l.1 +:+ "=" +:+ String quote (escaped true l.2 +:+ String quote "").
Fixpoint labels_text (ls : list (string * string)) : string :=
  match ls with [] => "" | [l] => label_text l | l :: ls' => label_text l +:+ "," +:+ labels_text ls' end.
Definition sample_text (s : sample) : string :=
  sa_name s +:+ match sa_labels s with [] => "" | ls => "{" +:+ labels_text ls +:+ "}" end +:+ " " +:+ sa_value s.
Definition line (s : string) : string := s +:+ String newline "".

Definition family_text (scope : string) (f : family) : string :=
  match f.2 ≫= series_samples scope f.1 with
  | [] => ""
  | ss =>
      line ("# HELP " +:+ page_name f.1 +:+ " " +:+ escaped false (in_help f.1)) +:+
      line ("# TYPE " +:+ page_name f.1 +:+ " " +:+ page_type (in_kind f.1)) +:+
      String.concat "" (map (λ s, line (sample_text s)) ss)
  end.
Definition page (scope : string) (fs : list family) : string := String.concat "" (map (family_text scope) fs).
(** core/metrics.go:97; matchmaker-example/metrics.go:37. *)
Definition core_page (r : records) : string := page "open_match.core" (core_families r).
Definition example_page (accepted rejected : list Z) : string :=
  page "open-match.dev/matchmaker_example" (example_families accepted rejected).
