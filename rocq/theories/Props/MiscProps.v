(** Property theorems about log levels, HTTP routes and port selection:
    C62 - C64. *)
From Coq Require Import Ascii String ZArith NArith Lia.
From stdpp Require Import prelude strings.
From Verif.Model Require Import GoStrings Chunk Port Logging Gateway.
From Verif.Spec Require Import MiscSpec.
From Verif.Proofs Require Import MiscLemmas.
Local Open Scope string_scope.

(** C62: level names in any mixture of cases; unknown ones mean info; debug output
    exactly for debug and trace. *)
Theorem C62_level_names : ∀ s,
  (to_level s = LTrace ↔ Folds s "trace") ∧ (to_level s = LDebug ↔ Folds s "debug") ∧
  (to_level s = LWarn ↔ Folds s "warn" ∨ Folds s "warning") ∧ (to_level s = LError ↔ Folds s "error") ∧
  (to_level s = LFatal ↔ Folds s "fatal") ∧ (to_level s = LPanic ↔ Folds s "panic") ∧
  (to_level s = LInfo ↔ ∀ w, w ∈ ["trace"; "debug"; "warn"; "warning"; "error"; "fatal"; "panic"] → ¬ Folds s w) ∧
  (is_debug_level s = true ↔ Folds s "trace" ∨ Folds s "debug").
Proof. exact to_level_spec. Qed.
Print Assumptions C62_level_names.

Example C62_example :
  to_level "WaRnInG" = LWarn ∧ to_level "DEBUG" = LDebug ∧ to_level "debug " = LInfo ∧ to_level "" = LInfo ∧
  is_debug_level "Trace" = true ∧ is_debug_level "error" = false.
Proof. split_and!; vm_compute; reflexivity. Qed.

(** C63: a method and path reach a call exactly if they are its route. *)
Theorem C63_request_reaches_call_iff_route : ∀ meth path r, serve meth path = Reaches r ↔ (meth, path) = route r.
Proof. exact serve_spec. Qed.
Print Assumptions C63_request_reaches_call_iff_route.
Theorem C63_routes_differ : ∀ r r', route r = route r' → r = r'.
Proof. exact routes_distinct. Qed.
Print Assumptions C63_routes_differ.

(** With the headers by which a form may ask for another method: the path is always
    the route's, and the method too, except that a form may reach DeactivateTickets. *)
Theorem C63_override_header : ∀ upper meth content_type override path r,
  (serve_http upper meth content_type override path = Reaches r ↔
     (meth, path) = route r ∧ ¬ MethodOverridden meth content_type override ∨
     MethodOverridden meth content_type override ∧ (upper override, path) = route r) ∧
  (serve_http upper meth content_type override path = Reaches r →
     path = (route r).2 ∧
     (meth = (route r).1 ∨
      r = DeactivateTicketsRpc ∧ MethodOverridden meth content_type override ∧ upper override = "DELETE")).
Proof. exact (λ u m c o p r, conj (serve_http_spec u m c o p r) (serve_http_method u m c o p r)). Qed.
Print Assumptions C63_override_header.

Example C63_example_override :
  serve_http id "POST" "application/x-www-form-urlencoded" "DELETE" "/v2/tickets:deactivate" = Reaches DeactivateTicketsRpc ∧
  serve_http id "POST" "application/json" "DELETE" "/v2/tickets:deactivate" = NotFound ∧
  serve_http id "POST" "application/x-www-form-urlencoded" "DELETE" "/v2/tickets" = NotFound ∧
  MethodOverridden "POST" "application/x-www-form-urlencoded" "DELETE".
Proof. split_and!; try (vm_compute; reflexivity). split; [reflexivity|]. split; [reflexivity|discriminate]. Qed.

Example C63_example :
  serve "POST" "/v2/tickets" = Reaches CreateTicketRpc ∧ serve "DELETE" "/v2/tickets:deactivate" = Reaches DeactivateTicketsRpc ∧
  serve "POST" "/v2/tickets:deactivate" = NotFound ∧ serve "POST" "/v2/tickets/" = NotFound ∧
  serve "POST" "/v2/:fetch" = NotFound ∧ serve "POST" "v2/tickets" = BadRequest.
Proof. split_and!; vm_compute; reflexivity. Qed.

(** C64: the value of PORT if it is a decimal number that fits 32 bits, 8081
    otherwise. *)
Definition C64_port_or_default : Prop :=
  mmf_port None = 8081%Z ∧
  ∀ s, (∀ z, SignedDecimal s z → (- 2 ^ 31 <= z < 2 ^ 31)%Z → mmf_port (Some s) = z) ∧
       ((¬ ∃ z, SignedDecimal s z ∧ (- 2 ^ 31 <= z < 2 ^ 31)%Z) → mmf_port (Some s) = 8081%Z).

(** It is false: numbers that fit 64 bits but not 32 wrap around. *)
Theorem C64_port_or_default_refuted : ¬ C64_port_or_default.
Proof.
  intros [_ H]. destruct (H "4294967297") as [_ H2].
  assert (mmf_port (Some "4294967297") = 1%Z) as E by (vm_compute; reflexivity).
  rewrite E in H2. enough (1 = 8081)%Z as HH by discriminate HH. apply H2. intros (z & Hz & Hr).
  assert (parse_int "4294967297" = PRok z) as Hp.
  { apply parse_int_ok. split; [done|].
    change (2 ^ 31)%Z with 2147483648%Z in Hr. change (2 ^ 63)%Z with 9223372036854775808%Z. lia. }
  vm_compute in Hp. injection Hp as <-. destruct Hr as [_ Hr]. vm_compute in Hr. discriminate Hr.
Qed.
Print Assumptions C64_port_or_default_refuted.

(** C64, exactly: the number modulo 2^32 if it fits 64 bits, 8081 otherwise. *)
Theorem C64_port_exact_partial :
  mmf_port None = 8081%Z ∧
  ∀ s, (∀ z, SignedDecimal s z → (- 2 ^ 63 <= z < 2 ^ 63)%Z → mmf_port (Some s) = wrap32 z) ∧
       ((¬ ∃ z, SignedDecimal s z ∧ (- 2 ^ 63 <= z < 2 ^ 63)%Z) → mmf_port (Some s) = 8081%Z).
Proof. exact (conj eq_refl (λ s, conj (λ z, port_decimal s z) (port_default s))). Qed.
Print Assumptions C64_port_exact_partial.
Theorem C64_port_in_range_partial : ∀ s z,
  SignedDecimal s z → (- 2 ^ 31 <= z < 2 ^ 31)%Z → mmf_port (Some s) = z.
Proof. exact port_fits. Qed.
Print Assumptions C64_port_in_range_partial.

Example C64_example :
  mmf_port (Some "50499") = 50499%Z ∧ mmf_port (Some "+80") = 80%Z ∧ mmf_port (Some "") = 8081%Z ∧
  mmf_port (Some "80a") = 8081%Z ∧ mmf_port (Some "99999999999999999999") = 8081%Z ∧ SignedDecimal "-12" (-12).
Proof.
  split; [vm_compute; reflexivity|]. split; [vm_compute; reflexivity|]. split; [vm_compute; reflexivity|].
  split; [vm_compute; reflexivity|]. split; [vm_compute; reflexivity|].
  exists "12", 12%N. split; [|by right]. apply (V_snoc "1" 1 2); [|done]. by apply (V_digit 1).
Qed.
