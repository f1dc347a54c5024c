(** Property theorems about reading the configuration: C75 - C78. *)
From Coq Require Import Ascii String ZArith NArith Lia.
From stdpp Require Import prelude strings gmap.
From Verif.Model Require Import GoStrings Types Wire Proto Logging Filter Cache Handlers Settings.
From Verif.Spec Require Import StringSpec MiscSpec FilterSpec HandlerSpec SettingsSpec IdTimeSpec.
From Verif.Proofs Require Import HandlerLemmas SettingsLemmas SettingsMore LiteralMore.
Local Open Scope string_scope.
Local Open Scope Z_scope.

(** C75: a setting that is not in the environment, or empty there, has its default. *)
Theorem C75_unset_keeps_default : ∀ env k, env k = None ∨ env k = Some "" →
  (∀ d, get_int env k d = d) ∧ (∀ d, get_bool env k d = d) ∧ (∀ d, get_string env k d = d).
Proof. exact get_default. Qed.
Print Assumptions C75_unset_keeps_default.

(** A number is read as written, with or without a fraction of zeros. *)
Theorem C75_number_is_read : ∀ env k s z d, env k = Some s → PlainDecimal s z → FitsInt64 z → get_int env k d = z.
Proof. exact get_int_plain. Qed.
Print Assumptions C75_number_is_read.

Theorem C75_zero_fraction_is_read : ∀ env k s z n d,
  env k = Some (s +:+ "." +:+ zeros (S n)) → PlainDecimal s z → FitsInt64 z → get_int env k d = z.
Proof. exact get_int_point. Qed.
Print Assumptions C75_zero_fraction_is_read.

(** Exactly which texts are read as numbers, and that all others count as 0. *)
Theorem C75_reads : ∀ env k s z d, env k = Some s → ReadsAs s z → get_int env k d = z.
Proof. exact get_int_reads. Qed.
Print Assumptions C75_reads.

Theorem C75_reads_nothing_else : ∀ env k s d, env k = Some s → s ≠ "" → (¬ ∃ z, ReadsAs s z) → get_int env k d = 0.
Proof. exact get_int_unreadable. Qed.
Print Assumptions C75_reads_nothing_else.

Example C75_reads_example : ReadsAs "0x1_F.00." 31 ∧ ticket_ttl (one_var "OM_CACHE_TICKET_TTL_SECS" "0x1_F.00.") = 31 ∧
  ticket_ttl (one_var "OM_CACHE_TICKET_TTL_SECS" "0x1__F") = 0 ∧ ticket_ttl (one_var "OM_CACHE_TICKET_TTL_SECS" "_1") = 0 ∧
  ticket_ttl (one_var "OM_CACHE_TICKET_TTL_SECS" "0_17") = 15 ∧ ticket_ttl (one_var "OM_CACHE_TICKET_TTL_SECS" "-0b_101") = -5.
Proof.
  split; [|repeat split; vm_compute; reflexivity].
  exists "0x1_F". split; [|split; [split; vm_compute; congruence|right; exists 1%nat, 1%nat; reflexivity]].
  apply (GoInteger_plain "0x1_F" 31). apply (GoLiteral_prefix "0x" 16 "" "1_F" 31).
  - right; right. split; [reflexivity|by left].
  - apply (Digits_under 16 "1" 1 "F" 15); [|reflexivity|right; split; [lia|right; reflexivity]].
    apply Digits_one; [lia|left; split; [lia|reflexivity]].
  - by left.
Qed.

(** True for exactly six spellings; "yes" and "on" mean false. *)
Theorem C75_switch_is_read : ∀ env k s d, env k = Some s → s ≠ "" →
  get_bool env k d = true ↔ s ∈ ["1"; "t"; "T"; "true"; "TRUE"; "True"].
Proof. exact get_bool_spec. Qed.
Print Assumptions C75_switch_is_read.

(** Full claim: a value that cannot be read leaves the default in place. *)
Definition C75_UnreadableKeepsDefault : Prop := ∀ env k s d,
  env k = Some s → HasUnit s → get_int env k d = d.

Theorem C75_unreadable_keeps_default_refuted : ¬ C75_UnreadableKeepsDefault.
Proof.
  intros H. specialize (H (one_var "OM_CACHE_TICKET_TTL_SECS" "10m") "OM_CACHE_TICKET_TTL_SECS" "10m" 600 eq_refl).
  assert (HasUnit "10m") as Hu.
  { exists "m"%char. split; [set_solver|]. unfold NotNumeric. apply (bool_decide_eq_true_1 _). vm_compute. reflexivity. }
  specialize (H Hu). vm_compute in H. discriminate.
Qed.
Print Assumptions C75_unreadable_keeps_default_refuted.

(** What happens instead: such a setting, or one that is too big, is 0. *)
Theorem C75_unreadable_is_zero_partial : ∀ env k s d, env k = Some s → HasUnit s → get_int env k d = 0.
Proof. exact get_int_unit. Qed.
Print Assumptions C75_unreadable_is_zero_partial.

Theorem C75_too_big_is_zero : ∀ env k s z d, env k = Some s → PlainDecimal s z → ¬ FitsInt64 z → get_int env k d = 0.
Proof. exact get_int_too_big. Qed.
Print Assumptions C75_too_big_is_zero.

(** With such a ticket lifetime every new ticket expires no later than it was created. *)
Theorem C75_unreadable_lifetime_expires_tickets : ∀ env st cfg s now o t,
  start env = Done (st, cfg) → env "OM_CACHE_TICKET_TTL_SECS" = Some s → HasUnit s →
  SaneNow now → ClientTicketOk t → orders_ok (prepare_ticket (cfg_ticket_ttl cfg) now t) o →
  ∃ v, create_ticket (cfg_ticket_ttl cfg) now o (Some t) = Send [Update CmdTicket "" v] ∧
    ((slen v < 2 ^ 64)%N → ∀ id, ∃ a cr ex x y,
      tk_attrs (stored_ticket id v) = Some a ∧ fd_ctime a = Some cr ∧ tk_exp (stored_ticket id v) = Some ex ∧
      Denotes ex x ∧ Denotes cr y ∧ x <= y).
Proof. exact unit_ttl. Qed.
Print Assumptions C75_unreadable_lifetime_expires_tickets.

(** With such an update limit every activation and deactivation is rejected. *)
Theorem C75_unreadable_limit_rejects_all : ∀ env st cfg s c ids,
  start env = Done (st, cfg) → env "OM_MAX_STATE_UPDATES_PER_CALL" = Some s → HasUnit s →
  set_active_start cfg c ids = Reject InvalidArgument.
Proof. exact unit_updates. Qed.
Print Assumptions C75_unreadable_limit_rejects_all.

(** Full claim: decimal digits are read as a decimal number even with zeros in front. *)
Definition C75_ZerosInFront : Prop := ∀ env k s z d,
  env k = Some s → SignedDecimal s z → FitsInt64 z → get_int env k d = z.

Theorem C75_zeros_in_front_refuted : ¬ C75_ZerosInFront.
Proof.
  intros H. specialize (H (one_var "OM_CACHE_TICKET_TTL_SECS" "0600") "OM_CACHE_TICKET_TTL_SECS" "0600" 600 600 eq_refl).
  assert (SignedDecimal "0600" 600) as Hs.
  { exists "0600", 600%N. split; [|left; split; [by left|done]].
    apply (V_snoc "060" 60 0); [|done]. apply (V_snoc "06" 6 0); [|done].
    apply (V_snoc "0" 0 6); [|done]. by apply (V_digit 0). }
  specialize (H Hs ltac:(split; [done|reflexivity])). vm_compute in H. discriminate.
Qed.
Print Assumptions C75_zeros_in_front_refuted.

(** Such a number is read in base 8. *)
Theorem C75_zero_in_front_is_octal : ∀ env k ds n d,
  env k = Some (String "0" ds) → ValueIn 8 ds n → FitsInt64 (Z.of_N n) → get_int env k d = Z.of_N n.
Proof. exact get_int_octal. Qed.
Print Assumptions C75_zero_in_front_is_octal.

Example C75_example :
  ticket_ttl (one_var "OM_CACHE_TICKET_TTL_SECS" "300") = 300 ∧
  ticket_ttl (one_var "OM_CACHE_TICKET_TTL_SECS" "300.00") = 300 ∧
  ticket_ttl (one_var "OM_CACHE_TICKET_TTL_SECS" "-5") = -5 ∧
  ticket_ttl (one_var "OM_CACHE_TICKET_TTL_SECS" "") = 600 ∧
  ticket_ttl (one_var "PORT" "300") = 600 ∧
  ticket_ttl (one_var "OM_CACHE_TICKET_TTL_SECS" "300.5") = 0 ∧
  ticket_ttl (one_var "OM_CACHE_TICKET_TTL_SECS" "0800") = 0 ∧
  ticket_ttl (one_var "OM_CACHE_TICKET_TTL_SECS" "0x10") = 16 ∧
  ticket_ttl (one_var "OM_CACHE_TICKET_TTL_SECS" "1_000") = 1000 ∧
  wait_deactivation (one_var "OM_MATCH_TICKET_DEACTIVATION_WAIT" "True") = true ∧
  wait_deactivation (one_var "OM_MATCH_TICKET_DEACTIVATION_WAIT" "yes") = false ∧
  activate_start (Config 600 600 (max_updates (one_var "OM_MAX_STATE_UPDATES_PER_CALL" "1k")) 50 100 false) ["1-1"]
    = Reject InvalidArgument.
Proof. split_and!; vm_compute; reflexivity. Qed.

(** C76. Full claim: this server and Redis understand the poll limit alike. *)
Definition C76_SameLimit : Prop := ∀ env s z,
  env "OM_CACHE_IN_MAX_UPDATES_PER_POLL" = Some s → SignedDecimal s z → FitsInt64 z →
  redis_int (count_arg env) = Some (in_max env).

(** Redis refuses the command, so the server never receives an update. *)
Theorem C76_same_limit_refuted : ¬ C76_SameLimit.
Proof.
  intros H. specialize (H (one_var "OM_CACHE_IN_MAX_UPDATES_PER_POLL" "010") "010" 10 eq_refl).
  assert (SignedDecimal "010" 10) as Hs.
  { exists "010", 10%N. split; [|left; split; [by left|done]].
    apply (V_snoc "01" 1 0); [|done]. apply (V_snoc "0" 0 1); [|done]. by apply (V_digit 0). }
  specialize (H Hs ltac:(split; [done|reflexivity])). vm_compute in H. discriminate.
Qed.
Print Assumptions C76_same_limit_refuted.

(** Whatever Redis accepts has the same meaning here. Missing: what Redis refuses. *)
Theorem C76_same_limit_partial : ∀ env z, redis_int (count_arg env) = Some z → in_max env = z.
Proof.
  intros env z. unfold count_arg, in_max, get_string, get_int.
  destruct (env_value env _) as [s|]; [apply redis_agrees|]. intros H. apply redis_agrees in H. rewrite <-H. reflexivity.
Qed.
Print Assumptions C76_same_limit_partial.

(** Redis accepts a setting exactly if it is a 64-bit number in its usual decimal form. *)
Theorem C76_accepted_by_redis : ∀ env s, env "OM_CACHE_IN_MAX_UPDATES_PER_POLL" = Some s → s ≠ "" →
  ∀ z, redis_int (count_arg env) = Some z ↔ s = format_Z z ∧ FitsInt64 z.
Proof.
  intros env s H1 H2 z. unfold count_arg, get_string.
  assert (env_value env "OM_CACHE_IN_MAX_UPDATES_PER_POLL" = Some s) as -> by by apply env_value_some.
  apply redis_int_iff.
Qed.
Print Assumptions C76_accepted_by_redis.

Example C76_example :
  redis_int (count_arg (one_var "PORT" "1")) = Some 10000 ∧ in_max (one_var "PORT" "1") = 10000 ∧
  redis_int (count_arg (one_var "OM_CACHE_IN_MAX_UPDATES_PER_POLL" "25")) = Some 25 ∧
  redis_int (count_arg (one_var "OM_CACHE_IN_MAX_UPDATES_PER_POLL" "25.0")) = None ∧
  in_max (one_var "OM_CACHE_IN_MAX_UPDATES_PER_POLL" "25.0") = 25.
Proof. split_and!; vm_compute; reflexivity. Qed.

(** C77. Full claim: no setting makes the server crash. *)
Definition C77_NeverCrashes : Prop := ∀ env, start env ≠ Panic.

Theorem C77_never_crashes_refuted : ¬ C77_NeverCrashes.
Proof. intros H. apply (H (one_var "OM_STATE_STORAGE_TYPE" "Redis")). vm_compute. reflexivity. Qed.
Print Assumptions C77_never_crashes_refuted.

(** It crashes exactly for another storage type, or a negative poll limit. *)
Theorem C77_crashes_iff_partial : ∀ env, start env = Panic ↔
  get_int env "OM_CACHE_IN_MAX_UPDATES_PER_POLL" 10000 < 0 ∨
  ∃ s, env "OM_STATE_STORAGE_TYPE" = Some s ∧ s ∉ [""; "redis"; "memory"].
Proof. exact start_panics. Qed.
Print Assumptions C77_crashes_iff_partial.

(** Otherwise it uses the settings as read. *)
Theorem C77_uses_settings : ∀ env st cfg, start env = Done (st, cfg) →
  cfg_ticket_ttl cfg = get_int env "OM_CACHE_TICKET_TTL_SECS" 600 ∧
  cfg_assign_ttl cfg = get_int env "OM_CACHE_ASSIGNMENT_ADDITIONAL_TTL_SECS" 600 ∧
  cfg_max_updates cfg = get_int env "OM_MAX_STATE_UPDATES_PER_CALL" 500 ∧
  cfg_out_threshold cfg = get_int env "OM_CACHE_OUT_MAX_QUEUE_THRESHOLD" 50 ∧
  Z.of_nat (cfg_in_max cfg) = get_int env "OM_CACHE_IN_MAX_UPDATES_PER_POLL" 10000 ∧
  cfg_wait_deactivation cfg = get_bool env "OM_MATCH_TICKET_DEACTIVATION_WAIT" false.
Proof. exact start_some. Qed.
Print Assumptions C77_uses_settings.

(** With nothing set it starts with Redis and the shipped defaults. *)
Theorem C77_starts_with_defaults : ∀ env,
  (∀ k, k ∈ ["OM_STATE_STORAGE_TYPE"; "OM_CACHE_TICKET_TTL_SECS"; "OM_CACHE_ASSIGNMENT_ADDITIONAL_TTL_SECS";
             "OM_MAX_STATE_UPDATES_PER_CALL"; "OM_CACHE_OUT_MAX_QUEUE_THRESHOLD";
             "OM_CACHE_IN_MAX_UPDATES_PER_POLL"; "OM_MATCH_TICKET_DEACTIVATION_WAIT"] → env k = None ∨ env k = Some "") →
  start env = Done (SRedis, default_config) ∧ default_config = Config 600 600 500 50 (Z.to_nat 10000) false.
Proof. intros env H. split; [exact (start_defaults env H)|reflexivity]. Qed.
Print Assumptions C77_starts_with_defaults.

Example C77_example :
  (∃ cfg, start (one_var "PORT" "1") = Done (SRedis, cfg) ∧ cfg_ticket_ttl cfg = 600 ∧ cfg_max_updates cfg = 500) ∧
  (∃ cfg, start (one_var "OM_STATE_STORAGE_TYPE" "memory") = Done (SMemory, cfg)) ∧
  start (one_var "OM_CACHE_IN_MAX_UPDATES_PER_POLL" "-1") = Panic.
Proof.
  split; [|split].
  - eexists. split; [reflexivity|]. split; reflexivity.
  - eexists. reflexivity.
  - reflexivity.
Qed.

(** C78. Full claims: an unknown log format means the documented default, and debugging
    is on exactly if the log level says so. *)
Definition C78_UnknownFormatIsDefault : Prop := ∀ env s,
  env "OM_LOGGING_FORMAT" = Some s → (∀ w, w ∈ ["text"; "json"; "stackdriver"] → ¬ Folds s w) → log_format env = FJson.
Definition C78_DebugFollowsLevel : Prop := ∀ env,
  is_debug_enabled env = true ↔ log_level env = LDebug ∨ log_level env = LTrace.

Theorem C78_unknown_format_is_default_refuted : ¬ C78_UnknownFormatIsDefault.
Proof.
  intros H. specialize (H (one_var "OM_LOGGING_FORMAT" "yaml") "yaml" eq_refl).
  cut (log_format (one_var "OM_LOGGING_FORMAT" "yaml") = FJson); [by vm_compute|]. apply H.
  intros w Hw Hf. apply MiscLemmas.lower_folds in Hf.
  - change (lower "yaml") with "yaml" in Hf. subst w. set_solver.
  - revert Hw.
    rewrite !elem_of_cons, elem_of_nil. by intros [->|[->|[->|[]]]].
Qed.
Print Assumptions C78_unknown_format_is_default_refuted.

Theorem C78_debug_follows_level_refuted : ¬ C78_DebugFollowsLevel.
Proof.
  intros H. destruct (H (one_var "OM_LOGGING_LEVEL" "debug")) as [_ H2].
  cut (is_debug_enabled (one_var "OM_LOGGING_LEVEL" "debug") = true); [by vm_compute|]. apply H2. left. reflexivity.
Qed.
Print Assumptions C78_debug_follows_level_refuted.

(** The format in use: text unless the name is one of two. *)
Theorem C78_format_partial : ∀ env s, env "OM_LOGGING_FORMAT" = Some s → s ≠ "" →
  (log_format env = FJson ↔ Folds s "json") ∧ (log_format env = FStackdriver ↔ Folds s "stackdriver") ∧
  (log_format env = FText ↔ ¬ Folds s "json" ∧ ¬ Folds s "stackdriver").
Proof. exact format_spec. Qed.
Print Assumptions C78_format_partial.

(** Settings that are not given, or given as empty, have the documented defaults. *)
Theorem C78_not_given_is_default : ∀ env,
  (env "OM_LOGGING_FORMAT" = None ∨ env "OM_LOGGING_FORMAT" = Some "" → log_format env = FJson) ∧
  (env "OM_LOGGING_LEVEL" = None ∨ env "OM_LOGGING_LEVEL" = Some "" → log_level env = LInfo).
Proof. exact not_given_default. Qed.
Print Assumptions C78_not_given_is_default.

(** The documented log level setting has no influence on IsDebugEnabled. *)
Theorem C78_debug_ignores_level_partial : ∀ env env',
  env "LOGGING.LEVEL" = env' "LOGGING.LEVEL" → is_debug_enabled env = is_debug_enabled env'.
Proof. exact debug_ignores. Qed.
Print Assumptions C78_debug_ignores_level_partial.

Example C78_example :
  log_format (one_var "PORT" "1") = FJson ∧ log_level (one_var "PORT" "1") = LInfo ∧
  log_format (one_var "OM_LOGGING_FORMAT" "JSON") = FJson ∧ log_format (one_var "OM_LOGGING_FORMAT" "jsn") = FText ∧
  log_level (one_var "OM_LOGGING_LEVEL" "trace") = LTrace ∧
  is_debug_enabled (one_var "OM_LOGGING_LEVEL" "trace") = false ∧
  is_debug_enabled (one_var "LOGGING.LEVEL" "trace") = true.
Proof. split_and!; vm_compute; reflexivity. Qed.
