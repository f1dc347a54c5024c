(** Reading the configuration: core/internal/config/config.go:37-139 with
    github.com/spf13/viper v1.18.2 and github.com/spf13/cast v1.6.0, and what
    core/main.go:98-124 does with it.

    The default of a setting is given directly by the functions below; keys are
    upper case as in config.go, and viper asks the environment for the same name
    (it upper-cases the key). *)
From Coq Require Import Ascii String ZArith NArith.
From stdpp Require Import prelude strings.
From Verif.Model Require Import GoStrings Types ParseBase0 Logging Filter.
Local Open Scope string_scope.
Local Open Scope Z_scope.

(** os.LookupEnv *)
Definition environment := string → option string.

(** viper's getEnv: empty variables count as unset (AllowEmptyEnv is not used). *)
Definition env_value (env : environment) (key : string) : option string :=
  match env key with
  | Some s => if String.eqb s "" then None else Some s
  | None => None
  end.

(** cast's trimZeroDecimal: cuts off a dot followed by one or more zeros at the end. The
    loop runs from the end; here over the reversed characters, [found] is
    foundZero. [None]: return s unchanged. *)
Fixpoint trim_loop (found : bool) (r : list ascii) : option (list ascii) :=
  match r with
  | [] => None
  | c :: r' =>
      if Ascii.eqb c "." then if found then Some r' else trim_loop found r'
      else if Ascii.eqb c "0" then trim_loop true r'
      else None
  end.
Definition trim_zero_decimal (s : string) : string :=
  match trim_loop false (rev (list_ascii_of_string s)) with
  | Some r => string_of_list_ascii (rev r)
  | None => s
  end.

(** cast.ToInt (and ToInt64) of a string; the error of ToIntE is dropped. *)
Definition to_int (s : string) : Z :=
  match parse_int0 (trim_zero_decimal s) with PRok z => z | _ => 0 end.

(** cast.ToBool of a string: strconv.ParseBool, the error is dropped. *)
Definition to_bool (s : string) : bool :=
  existsb (String.eqb s) ["1"; "t"; "T"; "TRUE"; "true"; "True"].

(** viper's GetInt, GetBool and GetString for a key with default [d]. *)
Definition get_int (env : environment) (key : string) (d : Z) : Z :=
  match env_value env key with Some s => to_int s | None => d end.
Definition get_bool (env : environment) (key : string) (d : bool) : bool :=
  match env_value env key with Some s => to_bool s | None => d end.
Definition get_string (env : environment) (key : string) (d : string) : string :=
  match env_value env key with Some s => s | None => d end.

(** config.go:41-121. *)
Definition ticket_ttl (env : environment) : Z := get_int env "OM_CACHE_TICKET_TTL_SECS" 600.
Definition assign_ttl (env : environment) : Z := get_int env "OM_CACHE_ASSIGNMENT_ADDITIONAL_TTL_SECS" 600.
Definition max_updates (env : environment) : Z := get_int env "OM_MAX_STATE_UPDATES_PER_CALL" 500.
Definition out_threshold (env : environment) : Z := get_int env "OM_CACHE_OUT_MAX_QUEUE_THRESHOLD" 50.
Definition in_max (env : environment) : Z := get_int env "OM_CACHE_IN_MAX_UPDATES_PER_POLL" 10000.
Definition wait_deactivation (env : environment) : bool := get_bool env "OM_MATCH_TICKET_DEACTIVATION_WAIT" false.

(** main.go:102-118: [None] leaves tc.Replicator nil. *)
Inductive storage := SRedis | SMemory.
Definition storage_of (env : environment) : option storage :=
  let s := get_string env "OM_STATE_STORAGE_TYPE" "redis" in
  if String.eqb s "redis" then Some SRedis
  else if String.eqb s "memory" then Some SMemory
  else None.

(** Starting the replication goroutines (main.go:121-122): make(chan, n) with
    a negative n panics (replicatedticketcache.go:144; sizes too big for the address
    space, which panic too, are not modelled), and so does the call of GetUpdates
    (:149) when there is no replicator. *)
Definition start (env : environment) : outcome (storage * config) :=
  if in_max env <? 0 then Panic
  else match storage_of env with
       | None => Panic
       | Some st =>
           Done (st, Config (ticket_ttl env) (assign_ttl env) (max_updates env) (out_threshold env)
                            (Z.to_nat (in_max env)) (wait_deactivation env))
       end.

(** redis.go:245: what is sent to Redis as the argument of COUNT; the default is an
    int, which GetString prints in decimal. *)
Definition count_arg (env : environment) : string :=
  get_string env "OM_CACHE_IN_MAX_UPDATES_PER_POLL" (format_Z 10000).

(** How Redis reads it (string2ll): only the usual decimal form, without plus sign,
    leading zeros or anything else around it. *)
Definition redis_int (s : string) : option Z :=
  match parse_int s with
  | PRok z => if String.eqb (format_Z z) s then Some z else None
  | _ => None
  end.

(** logging.go:29-37 *)
Definition log_format (env : environment) : formatter := new_formatter (get_string env "OM_LOGGING_FORMAT" "json").
Definition log_level (env : environment) : level := to_level (get_string env "OM_LOGGING_LEVEL" "info").

(** logging.go:69-71: a key without default, for which viper asks the environment for
    "LOGGING.LEVEL". *)
Definition is_debug_enabled (env : environment) : bool := is_debug_level (get_string env "LOGGING.LEVEL" "").
