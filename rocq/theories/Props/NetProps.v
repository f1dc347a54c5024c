(** Property theorems about the settings for waiting and for the network: C104 - C108. *)
From Coq Require Import Ascii String ZArith NArith Lia.
From stdpp Require Import prelude strings.
From Verif.Model Require Import GoStrings Types Settings Dial NetSettings.
From Verif.Spec Require Import StringSpec MiscSpec SettingsSpec DialSpec NetSpec.
From Verif.Proofs Require Import StringLemmas MiscLemmas SettingsLemmas DialLemmas NetLemmas DurationLemmas.
Local Open Scope string_scope.
Local Open Scope Z_scope.

(** C104. Full claim: the waits and the time limit of functions are as configured. *)
Definition C104_AsConfigured : Prop := ∀ env z, 0 <= z →
  (IsSetTo env "OM_MMF_TIMEOUT_SECS" z → mmf_time env = z * 1000000000) ∧
  (IsSetTo env "OM_CACHE_IN_WAIT_TIMEOUT_MS" z → in_wait env = z * 1000000) ∧
  (IsSetTo env "OM_CACHE_OUT_WAIT_TIMEOUT_MS" z → out_wait env = z * 1000000).

(** It is false: with 9223372037 seconds, some 292 years, functions have no time at all. *)
Theorem C104_as_configured_refuted : ¬ C104_AsConfigured.
Proof.
  intros H. destruct (H (one_var "OM_MMF_TIMEOUT_SECS" "9223372037") 9223372037 ltac:(done)) as [Hm _].
  cut (mmf_time (one_var "OM_MMF_TIMEOUT_SECS" "9223372037") = 9223372037 * 1000000000); [by vm_compute|].
  apply Hm. exists "9223372037". split; [done|]. split; [|done]. change "9223372037" with (format_Z 9223372037). apply format_plain.
Qed.
Print Assumptions C104_as_configured_refuted.

(** They are exactly if they fit in 64 bits. *)
Theorem C104_exactly_if_fits_partial : ∀ env z,
  (IsSetTo env "OM_MMF_TIMEOUT_SECS" z → mmf_time env = z * 1000000000 ↔ FitsInt64 (z * 1000000000)) ∧
  (IsSetTo env "OM_CACHE_IN_WAIT_TIMEOUT_MS" z → in_wait env = z * 1000000 ↔ FitsInt64 (z * 1000000)) ∧
  (IsSetTo env "OM_CACHE_OUT_WAIT_TIMEOUT_MS" z → out_wait env = z * 1000000 ↔ FitsInt64 (z * 1000000)).
Proof. exact (λ env z, conj (mmf_time_iff env z) (conj (in_wait_iff env z) (out_wait_iff env z))). Qed.
Print Assumptions C104_exactly_if_fits_partial.

(** A time limit with a unit, as in "500s", leaves functions no time at all. *)
Theorem C104_unit_is_no_time : ∀ env s, env "OM_MMF_TIMEOUT_SECS" = Some s → HasUnit s →
  expired_at_once (mmf_time env) = true.
Proof. exact mmf_time_unit. Qed.
Print Assumptions C104_unit_is_no_time.

(** Settings that are not given have the documented defaults. *)
Theorem C104_not_given_is_default : ∀ env,
  (NotGiven env "OM_MMF_TIMEOUT_SECS" → mmf_time env = 500 * 1000000000) ∧
  (NotGiven env "OM_CACHE_IN_WAIT_TIMEOUT_MS" → in_wait env = 1500 * 1000000) ∧
  (NotGiven env "OM_CACHE_OUT_WAIT_TIMEOUT_MS" → out_wait env = 500 * 1000000).
Proof. exact default_waits. Qed.
Print Assumptions C104_not_given_is_default.

(** Nobody waits for a negative time. *)
Theorem C104_wait_exact : ∀ d, (0 <= d → waits_for d = d) ∧ (d <= 0 → waits_for d = 0).
Proof. exact wait_exact. Qed.
Print Assumptions C104_wait_exact.

Example C104_example :
  mmf_time (one_var "PORT" "1") = 500 * 1000000000 ∧ in_wait (one_var "PORT" "1") = 1500 * 1000000 ∧
  out_wait (one_var "OM_CACHE_OUT_WAIT_TIMEOUT_MS" "20") = 20000000 ∧
  expired_at_once (mmf_time (one_var "OM_MMF_TIMEOUT_SECS" "9223372036")) = false ∧
  expired_at_once (mmf_time (one_var "OM_MMF_TIMEOUT_SECS" "9223372037")) = true ∧
  expired_at_once (mmf_time (one_var "OM_MMF_TIMEOUT_SECS" "10m")) = true ∧
  waits_for (in_wait (one_var "OM_CACHE_IN_WAIT_TIMEOUT_MS" "-1")) = 0.
Proof. split_and!; vm_compute; reflexivity. Qed.

(** C105. Full claim: Redis is asked to wait as long as the setting says. *)
Definition C105_RedisWaits : Prop := ∀ env s z,
  env "OM_CACHE_IN_WAIT_TIMEOUT_MS" = Some s → SignedDecimal s z → FitsInt64 z → 0 <= z →
  redis_block (block_arg env) = Some z.

Theorem C105_redis_waits_refuted : ¬ C105_RedisWaits.
Proof.
  intros H. specialize (H (one_var "OM_CACHE_IN_WAIT_TIMEOUT_MS" "+10") "+10" 10 eq_refl).
  assert (SignedDecimal "+10" 10) as Hs.
  { exists "10", 10%N. split; [|left; split; [by right|done]].
    apply (V_snoc "1" 1 0); [|done]. by apply (V_digit 1). }
  specialize (H Hs ltac:(split; [done|reflexivity]) ltac:(done)). vm_compute in H. discriminate.
Qed.
Print Assumptions C105_redis_waits_refuted.

(** Redis accepts exactly the numbers in usual decimal form that are not negative, and
    then it has the same meaning for this server. *)
Theorem C105_accepted_partial : ∀ env s, env "OM_CACHE_IN_WAIT_TIMEOUT_MS" = Some s → s ≠ "" →
  ∀ z, redis_block (block_arg env) = Some z ↔ s = format_Z z ∧ FitsInt64 z ∧ 0 <= z.
Proof. exact block_iff. Qed.
Print Assumptions C105_accepted_partial.

Theorem C105_same_meaning : ∀ env z, redis_block (block_arg env) = Some z →
  get_int env "OM_CACHE_IN_WAIT_TIMEOUT_MS" 1500 = z.
Proof. exact block_same. Qed.
Print Assumptions C105_same_meaning.

Theorem C105_not_given_is_default : ∀ env, NotGiven env "OM_CACHE_IN_WAIT_TIMEOUT_MS" → redis_block (block_arg env) = Some 1500.
Proof. exact default_block. Qed.
Print Assumptions C105_not_given_is_default.

Example C105_example :
  redis_block (block_arg (one_var "PORT" "1")) = Some 1500 ∧
  redis_block (block_arg (one_var "OM_CACHE_IN_WAIT_TIMEOUT_MS" "20")) = Some 20 ∧
  redis_block (block_arg (one_var "OM_CACHE_IN_WAIT_TIMEOUT_MS" "-20")) = None ∧
  redis_block (block_arg (one_var "OM_CACHE_IN_WAIT_TIMEOUT_MS" "1500.0")) = None ∧
  in_wait (one_var "OM_CACHE_IN_WAIT_TIMEOUT_MS" "1500.0") = 1500 * 1000000.
Proof. split_and!; vm_compute; reflexivity. Qed.

(** C106: a number for the idle timeout of Redis connections means nanoseconds, and units
    have their usual meaning. *)
Theorem C106_number_is_nanoseconds : ∀ frac env s z, env "OM_REDIS_POOL_IDLE_TIMEOUT" = Some s →
  SignedDecimal s z → FitsInt64 z → idle_timeout frac env = z.
Proof. exact idle_plain. Qed.
Print Assumptions C106_number_is_nanoseconds.

Theorem C106_units : ∀ frac env s z u k, env "OM_REDIS_POOL_IDLE_TIMEOUT" = Some (s +:+ u) → SignedDecimal s z →
  (u, k) ∈ duration_units → FitsInt64 (z * k) → idle_timeout frac env = z * k.
Proof. exact idle_unit. Qed.
Print Assumptions C106_units.

(** In general: a text that is a duration, after "ns" is put behind it if it has no unit
    letter, means this duration. Any other text means 0, which is no limit at all. *)
Theorem C106_exact : ∀ frac env s t, env "OM_REDIS_POOL_IDLE_TIMEOUT" = Some s → s ≠ "" → WithUnit s t →
  (∀ z, DurationText frac t z → FitsInt64 z → idle_timeout frac env = z) ∧
  ((∀ z, DurationText frac t z → ¬ FitsInt64 z) → idle_timeout frac env = 0).
Proof. exact idle_exact. Qed.
Print Assumptions C106_exact.

Theorem C106_not_given_is_default : ∀ frac env, NotGiven env "OM_REDIS_POOL_IDLE_TIMEOUT" → idle_timeout frac env = 0.
Proof. exact idle_default. Qed.
Print Assumptions C106_not_given_is_default.

(** Full claim: closing idle connections does not keep polls from being answered. *)
Definition C106_PollsAnswered : Prop := ∀ frac env connect reply, 0 < connect → 0 < reply →
  poll (idle_timeout frac env) connect reply = PolledOk.

(** It is false: it is also the time limit for connecting and for every reply. *)
Theorem C106_polls_answered_refuted : ¬ C106_PollsAnswered.
Proof.
  intros H. specialize (H (λ _ _, 0%N) (one_var "OM_REDIS_POOL_IDLE_TIMEOUT" "60") 200000 100000 ltac:(done) ltac:(done)).
  vm_compute in H. discriminate.
Qed.
Print Assumptions C106_polls_answered_refuted.

Theorem C106_answered_iff_partial : ∀ limit connect reply,
  poll limit connect reply = PolledOk ↔ limit = 0 ∨ connect < limit ∧ reply < limit.
Proof. exact poll_iff. Qed.
Print Assumptions C106_answered_iff_partial.

(** Unless the limit is longer than the wait of a poll, polls that find nothing fail. *)
Theorem C106_quiet_polls_fail_partial : ∀ env limit connect reply b,
  redis_block (block_arg env) = Some b → b * 1000000 <= reply → limit ≠ 0 → limit <= b * 1000000 →
  poll limit connect reply ≠ PolledOk.
Proof. exact quiet_poll. Qed.
Print Assumptions C106_quiet_polls_fail_partial.

Example C106_example : ∀ frac,
  idle_timeout frac (one_var "PORT" "1") = 0 ∧ idle_timeout frac (one_var "OM_REDIS_POOL_IDLE_TIMEOUT" "60") = 60 ∧
  idle_timeout frac (one_var "OM_REDIS_POOL_IDLE_TIMEOUT" "1h30m") = 5400000000000 ∧
  idle_timeout frac (one_var "OM_REDIS_POOL_IDLE_TIMEOUT" "2µs3us") = 5000 ∧
  idle_timeout frac (one_var "OM_REDIS_POOL_IDLE_TIMEOUT" "1 s") = 0 ∧
  idle_timeout frac (one_var "OM_REDIS_POOL_IDLE_TIMEOUT" "1d") = 0 ∧
  poll (idle_timeout frac (one_var "OM_REDIS_POOL_IDLE_TIMEOUT" "1s")) 200000 1500000000 = NoReply ∧
  poll (idle_timeout frac (one_var "OM_REDIS_POOL_IDLE_TIMEOUT" "2s")) 200000 1500000000 = PolledOk.
Proof. intros frac. split_and!; vm_compute; reflexivity. Qed.

(** C107. Full claim: the HTTP gateway passes requests to the gRPC server of its process. *)
Definition C107_GatewayReaches : Prop := ∀ env p d, serve_ports env = Some (p, d) → Reaches p d.

Theorem C107_gateway_reaches_refuted : ¬ C107_GatewayReaches.
Proof.
  intros H. destruct (H (one_var "PORT" "0") 0 (DTcp "localhost" "0")) as (s & _ & _ & Hp); [vm_compute; reflexivity|done].
Qed.
Print Assumptions C107_gateway_reaches_refuted.

(** It does exactly if the port is not left to the system. *)
Theorem C107_gateway_iff_partial : ∀ env p d, serve_ports env = Some (p, d) → Reaches p d ↔ p ≠ 0.
Proof. exact gateway_iff. Qed.
Print Assumptions C107_gateway_iff_partial.

(** The server starts on the given port, or not at all if that is no port number or
    that of the gateway. *)
Theorem C107_listens_partial : ∀ env s z, env "PORT" = Some s → SignedDecimal s z → - 2 ^ 32 < z < 2 ^ 32 →
  (∃ d, serve_ports env = Some (z, d)) ∧ 0 <= z <= 65535 ∧ z ≠ 58081 ∨
  serve_ports env = None ∧ ¬ (0 <= z <= 65535 ∧ z ≠ 58081).
Proof. exact serve_signed. Qed.
Print Assumptions C107_listens_partial.

(** The same for all numbers is false: bigger numbers wrap around. *)
Definition C107_ListensAsTold : Prop := ∀ env s z p d, env "PORT" = Some s → SignedDecimal s z →
  serve_ports env = Some (p, d) → p = z.
Theorem C107_listens_as_told_refuted : ¬ C107_ListensAsTold.
Proof.
  intros H. specialize (H (one_var "PORT" "4294967300") "4294967300" 4294967300 4 (DTcp "localhost" "4294967300") eq_refl).
  cut (4 = 4294967300); [done|]. apply H; [|vm_compute; reflexivity].
  exists "4294967300", 4294967300%N. split; [|left; split; [by left|done]].
  apply has_value_iff. split; [done|]. split; vm_compute; reflexivity.
Qed.
Print Assumptions C107_listens_as_told_refuted.

(** Without PORT: 8080, and the gateway looks there. *)
Theorem C107_not_given_is_default : ∀ env, NotGiven env "PORT" → serve_ports env = Some (8080, DTcp "localhost" "8080").
Proof. exact default_ports. Qed.
Print Assumptions C107_not_given_is_default.

Example C107_example :
  serve_ports (one_var "TZ" "UTC") = Some (8080, DTcp "localhost" "8080") ∧
  serve_ports (one_var "PORT" "58081") = None ∧ serve_ports (one_var "PORT" "65536") = None ∧
  serve_ports (one_var "PORT" "[::]:80") = None ∧ serve_ports (one_var "PORT" "-1") = None ∧
  Reaches 8080 (DTcp "localhost" "8080").
Proof.
  split; [vm_compute; reflexivity|]. split; [vm_compute; reflexivity|]. split; [vm_compute; reflexivity|].
  split; [vm_compute; reflexivity|]. split; [vm_compute; reflexivity|].
  exists "8080". split; [done|]. split; [vm_compute; reflexivity|done].
Qed.

(** C108. Full claim: Redis is looked for at the configured host and port. *)
Definition C108_RedisFound : Prop := ∀ env h p, h ≠ "" → HostName p →
  (env "OM_REDIS_READ_HOST" = Some h → env "OM_REDIS_READ_PORT" = Some p → read_dest env = DTcp h p) ∧
  (env "OM_REDIS_WRITE_HOST" = Some h → env "OM_REDIS_WRITE_PORT" = Some p → write_dest env = DTcp h p).

Definition two_vars (k v k' v' : string) : environment :=
  λ x, if String.eqb x k then Some v else if String.eqb x k' then Some v' else None.

Theorem C108_redis_found_refuted : ¬ C108_RedisFound.
Proof.
  intros H. destruct (H (two_vars "OM_REDIS_READ_HOST" "::1" "OM_REDIS_READ_PORT" "6379") "::1" "6379" ltac:(done)) as [Hr _].
  - split; [done|]. unfold EachChar, HostChar, between. repeat split; right; right; left; vm_compute; split; discriminate.
  - specialize (Hr eq_refl eq_refl). vm_compute in Hr. discriminate.
Qed.
Print Assumptions C108_redis_found_refuted.

(** It is for host names and IPv4 addresses; IPv6 addresses cannot be given that way. *)
Theorem C108_host_names_partial : ∀ env h p, HostName h → HostName p →
  (env "OM_REDIS_READ_HOST" = Some h → env "OM_REDIS_READ_PORT" = Some p → read_dest env = DTcp h p) ∧
  (env "OM_REDIS_WRITE_HOST" = Some h → env "OM_REDIS_WRITE_PORT" = Some p → write_dest env = DTcp h p).
Proof. exact (λ env h p Hh Hp, conj (λ E1 E2, redis_dest env "READ" h p E1 E2 Hh Hp) (λ E1 E2, redis_dest env "WRITE" h p E1 E2 Hh Hp)). Qed.
Print Assumptions C108_host_names_partial.

Theorem C108_ipv6_fails_partial : ∀ env h p, V6Like h → HostName p →
  (env "OM_REDIS_READ_HOST" = Some h → env "OM_REDIS_READ_PORT" = Some p → read_dest env = DFail) ∧
  (env "OM_REDIS_WRITE_HOST" = Some h → env "OM_REDIS_WRITE_PORT" = Some p → write_dest env = DFail).
Proof. exact (λ env h p Hh Hp, conj (λ E1 E2, redis_v6 env "READ" h p E1 E2 Hh Hp) (λ E1 E2, redis_v6 env "WRITE" h p E1 E2 Hh Hp)). Qed.
Print Assumptions C108_ipv6_fails_partial.

(** Reading and writing can be sent to different servers. *)
Theorem C108_sides_independent : ∀ env env',
  (env "OM_REDIS_READ_HOST" = env' "OM_REDIS_READ_HOST" → env "OM_REDIS_READ_PORT" = env' "OM_REDIS_READ_PORT" →
   read_dest env = read_dest env') ∧
  (env "OM_REDIS_WRITE_HOST" = env' "OM_REDIS_WRITE_HOST" → env "OM_REDIS_WRITE_PORT" = env' "OM_REDIS_WRITE_PORT" →
   write_dest env = write_dest env').
Proof. exact redis_sides. Qed.
Print Assumptions C108_sides_independent.

(** Without these settings: the usual Redis port of this machine. *)
Theorem C108_not_given_is_default : ∀ env,
  (NotGiven env "OM_REDIS_READ_HOST" → NotGiven env "OM_REDIS_READ_PORT" → read_dest env = DTcp "127.0.0.1" "6379") ∧
  (NotGiven env "OM_REDIS_WRITE_HOST" → NotGiven env "OM_REDIS_WRITE_PORT" → write_dest env = DTcp "127.0.0.1" "6379").
Proof. exact default_redis. Qed.
Print Assumptions C108_not_given_is_default.

Example C108_example :
  read_dest (one_var "TZ" "UTC") = DTcp "127.0.0.1" "6379" ∧
  read_dest (one_var "OM_REDIS_WRITE_HOST" "redis-master") = DTcp "127.0.0.1" "6379" ∧
  write_dest (one_var "OM_REDIS_WRITE_HOST" "redis-master") = DTcp "redis-master" "6379" ∧
  write_dest (one_var "OM_REDIS_WRITE_HOST" "[::1]") = DTcp "::1" "6379" ∧
  write_dest (one_var "OM_REDIS_WRITE_HOST" "::1") = DFail.
Proof. split_and!; vm_compute; reflexivity. Qed.
