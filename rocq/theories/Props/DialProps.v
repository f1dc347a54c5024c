(** C89: a matchmaking function is looked for at the host and port of its
    specification. *)
From Coq Require Import Ascii String ZArith NArith Lia.
From stdpp Require Import prelude strings.
From Verif.Model Require Import GoStrings Dial.
From Verif.Spec Require Import DialSpec.
From Verif.Proofs Require Import DialLemmas.
Local Open Scope string_scope.
Local Open Scope Z_scope.

(** C89 is false of the code: the host "unix" makes it look for a local socket. *)
Theorem C89_dials_what_is_asked_refuted : ¬ DialsWhatIsAsked.
Proof. exact not_what_is_asked. Qed.
Print Assumptions C89_dials_what_is_asked_refuted.

(** What holds: for a host name or IPv4 address it is exactly the four names that
    grpc-go takes for a URL scheme that are not reached. Missing: those names,
    hosts with other characters, and (next) IPv6 addresses. *)
Theorem C89_host_and_port_partial : ∀ h p, HostName h → 0 < p →
  dial (mmf_target h p) = DTcp h (format_Z p) ↔ ¬ Reserved h.
Proof. exact dial_host. Qed.
Print Assumptions C89_host_and_port_partial.

(** An IPv6 address is never reached unless it is in brackets. *)
Theorem C89_ipv6_fails : ∀ h p, V6Like h → 0 < p → dial (mmf_target h p) = DFail.
Proof. exact dial_v6. Qed.
Print Assumptions C89_ipv6_fails.

Theorem C89_ipv6_in_brackets : ∀ h p, V6Like h → 0 < p →
  dial (mmf_target ("[" +:+ h +:+ "]") p) = DTcp h (format_Z p).
Proof. exact dial_v6_brackets. Qed.
Print Assumptions C89_ipv6_in_brackets.

(** A specification without a port may have it in the host; without any port
    nothing is reached. *)
Theorem C89_port_in_host : ∀ h p q, HostName h → 0 < p → q <= 0 →
  mmf_target (h +:+ ":" +:+ format_Z p) q = mmf_target h p.
Proof. exact dial_port_in_host. Qed.
Print Assumptions C89_port_in_host.

Theorem C89_no_port_fails : ∀ h q, HostName h → q <= 0 → dial (mmf_target h q) = DFail.
Proof. exact dial_no_port. Qed.
Print Assumptions C89_no_port_fails.

(** Different functions have different targets. *)
Theorem C89_targets_differ : ∀ h h' p p', HostName h → HostName h' → 0 < p → 0 < p' →
  mmf_target h p = mmf_target h' p' → h = h' ∧ p = p'.
Proof. exact target_inj. Qed.
Print Assumptions C89_targets_differ.

(** The function of matchmaker-example/main.go:131-132, and others. *)
Example C89_example :
  HostName "localhost" ∧ ¬ Reserved "localhost" ∧
  dial (mmf_target "localhost" 8081) = DTcp "localhost" "8081" ∧
  dial (mmf_target "10.0.0.7" 8082) = DTcp "10.0.0.7" "8082" ∧
  dial (mmf_target "my_function:8083" 0) = DTcp "my_function" "8083" ∧
  Reserved "DNS" ∧ dial (mmf_target "DNS" 8081) = DDns "8081" ∧
  V6Like "fe80::1" ∧ dial (mmf_target "fe80::1" 8081) = DFail ∧
  dial (mmf_target "[fe80::1]" 8081) = DTcp "fe80::1" "8081".
Proof.
  split. { split; [done|]. vm_compute; intuition (try congruence). }
  split. { intros H. apply reserved_variant in H. vm_compute in H.
    repeat (apply elem_of_cons in H as [H|H]; [done|]). by apply elem_of_nil in H. }
  split; [by vm_compute|]. split; [by vm_compute|]. split; [by vm_compute|].
  split. { apply reserved_variant. vm_compute. right. left. }
  split; [by vm_compute|]. split.
  { split; [vm_compute; intuition (try congruence)|]. by exists "fe80", ":1". }
  by vm_compute.
Qed.
