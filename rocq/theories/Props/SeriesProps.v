(** C127: om-core keeps few time series. *)
From Coq Require Import Ascii String ZArith NArith Lia.
From stdpp Require Import prelude strings gmap.
From Verif.Model Require Import GoStrings Types Proto Wire Handlers Invoke Gateway Metrics Series.
From Verif.Spec Require Import SeriesSpec.
From Verif.Proofs Require Import SeriesLemmas.
Local Open Scope string_scope.
Local Open Scope Z_scope.

(** Whatever clients send, there are at most a thousand time series. *)
Definition C127_few_series : Prop :=
  ∀ cfg tx cs, Forall CanArrive cs → (length (kept cfg tx cs) <= 1000)%nat.

Theorem C127_few_series_refuted : ¬ C127_few_series.
Proof.
  exact (λ H, let '(ex_intro _ cs (conj H1 H2)) :=
    few_refuted (Config 600 600 500 500 500 true) (Texts (λ _, "") "") in
    Nat.lt_irrefl _ (Nat.le_lt_trans _ _ _ (H _ _ cs H1) H2)).
Qed.
Print Assumptions C127_few_series_refuted.

(** There are three ways to make more: ask for different numbers of activations,
    all over the limit (the error text has the number) ... *)
Theorem C127_series_per_count : ∀ cfg tx l, NoDup l → 0 <= cfg_max_updates cfg →
  (∀ n, n ∈ l → cfg_max_updates cfg < Z.of_nat n <= 2097152) →
  let cs := map (λ n, CiActivate (replicate n "") []) l in
  Forall CanArrive cs ∧ (length l <= length (kept cfg tx cs))%nat.
Proof. exact many_counts. Qed.
Print Assumptions C127_series_per_count.

(** ... send the headers of messages of different lengths, all over the limit ... *)
Theorem C127_series_per_length : ∀ cfg tx r l, NoDup l → (∀ n, n ∈ l → 4194304 < n < 2 ^ 32) →
  let cs := map (CiTooLong r) l in
  Forall CanArrive cs ∧ (length l <= length (kept cfg tx cs))%nat.
Proof. exact many_lengths. Qed.
Print Assumptions C127_series_per_length.

(** ... or call one function by different names. *)
Theorem C127_series_per_name : ∀ cfg tx p l,
  NoDup l → Forall (λ n, utf8_valid n = true ∧ Z.of_nat (String.length n) <= 4000000) l →
  let cs := map (λ n, CiInvoke (Some p) [(n, true)]) l in
  Forall CanArrive cs ∧ (length l <= length (kept cfg tx cs))%nat.
Proof. exact many_names. Qed.
Print Assumptions C127_series_per_name.

(** There are no others: each series is one of 25, or comes from a call of one of
    these three kinds. *)
Theorem C127_sources_partial : ∀ cfg tx cs x, 0 <= cfg_max_updates cfg → x ∈ kept cfg tx cs →
  x ∈ fixed_series tx ∨ ∃ c, c ∈ cs ∧ OwnSeries (cfg_max_updates cfg) c x.
Proof. exact series_only. Qed.
Print Assumptions C127_sources_partial.

(** And exactly when each series that is not one of errors is kept. *)
Theorem C127_kept_exactly : ∀ cfg tx cs,
  (∀ x, match x with SDuration _ | SErrors _ _ => False | _ => True end →
     x ∈ kept cfg tx cs ↔ ∃ c, c ∈ cs ∧ Records (cfg_max_updates cfg) c x) ∧
  (∀ n, SDuration n ∈ kept cfg tx cs ↔ ∃ c, c ∈ cs ∧ NameOf c n).
Proof. exact series_exact. Qed.
Print Assumptions C127_kept_exactly.

(** So without such calls and with few functions there are few. *)
Theorem C127_few_series_partial : ∀ cfg tx cs names, 0 <= cfg_max_updates cfg →
  (∀ c, c ∈ cs → match c with
                 | CiTooLong _ _ => False
                 | CiActivate ids _ | CiDeactivate ids _ => Z.of_nat (length ids) <= cfg_max_updates cfg
                 | CiInvoke _ fns => ∀ f, f ∈ fns → f.1 ∈ names
                 | _ => True
                 end) →
  (length (kept cfg tx cs) <= 25 + length names)%nat.
Proof. exact series_bound. Qed.
Print Assumptions C127_few_series_partial.

(** Ten calls and what is kept of them. *)
Definition sr_cfg : config := Config 600 600 1 500 500 true.
Definition sr_calls : list call_in :=
  [CiCreate None 0 (TicketOrders [] [] []) (Response "" None);
   CiActivate [] []; CiActivate ["1-1"] [Response "1-1" None]; CiActivate ["1-1"] [Response "1-1" (Some EReply)];
   CiActivate ["1-1"; "1-2"] []; CiActivate ["1-1"; "1-2"; "1-3"] []; CiActivate ["4-1"; "4-2"; "4-3"] [];
   CiInvoke (Some (Profile "p" ∅ ∅)) [("a", true); ("b", false); ("a", true)];
   CiWatch []; CiTooLong WatchAssignmentsRpc 4194305].
Example C127_example :
  Forall CanArrive sr_calls ∧
  kept sr_cfg (Texts (λ _, "") "") sr_calls ≡ₚ
    [SDuration "CreateTicket"; SErrors "CreateTicket" "rpc error: code = InvalidArgument desc = ticket is required";
     SDuration "ActivateTickets"; SErrors "ActivateTickets" "rpc error: code = InvalidArgument desc = No Ticket IDs in update request";
     SActivations;
     SErrors "ActivateTickets" "rpc error: code = InvalidArgument desc = One or more state update arguments were invalid";
     SErrors "ActivateTickets" "rpc error: code = InvalidArgument desc = Too many ticket activations requested in a single call (configured maximum 1, requested 2)";
     SErrors "ActivateTickets" "rpc error: code = InvalidArgument desc = Too many ticket activations requested in a single call (configured maximum 1, requested 3)";
     SMatches "a"; SDuration "InvokeMatchmakingFunctions"; SWatches; SDuration "WatchAssignments";
     SErrors "WatchAssignments" "rpc error: code = ResourceExhausted desc = grpc: received message larger than max (4194305 vs. 4194304)"].
Proof.
  split.
  - repeat constructor; vm_compute; congruence.
  - refine (bool_decide_unpack _ _). vm_compute. exact I.
Qed.
