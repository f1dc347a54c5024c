(** Settings for waiting and for the network: the durations of the replication loops
    (replicatedticketcache.go:91 and :160, memory/main.go:54) and of function calls
    (core/main.go:507, :562), the Redis connections (redis.go:40-92, :247), and the
    ports of the server (core/server.go:39-75).

    Go's time.ParseDuration, net.SplitHostPort (in Dial.v) and net's parsePort are
    modelled; names of services instead of port numbers are not. *)
From Coq Require Import Ascii String ZArith NArith.
From stdpp Require Import prelude strings.
From Verif.Model Require Import GoStrings Types Settings Dial.
Local Open Scope string_scope.
Local Open Scope Z_scope.

(** ** Durations, in nanoseconds *)

(** time.Duration(n) * unit, in 64 bits. *)
Definition duration (unit n : Z) : Z := wrap64 (n * unit).
Definition millisecond : Z := 1000000.
Definition second : Z := 1000000000.

(** The pause before a stretch of updates (replicatedticketcache.go:160) and the
    longest wait of a poll of the memory replicator (memory/main.go:54). *)
Definition in_wait (env : environment) : Z := duration millisecond (get_int env "OM_CACHE_IN_WAIT_TIMEOUT_MS" 1500).
(** The longest wait for more requests (replicatedticketcache.go:91). *)
Definition out_wait (env : environment) : Z := duration millisecond (get_int env "OM_CACHE_OUT_WAIT_TIMEOUT_MS" 500).
(** How long a function may run (main.go:507, :562). *)
Definition mmf_time (env : environment) : Z := duration second (get_int env "OM_MMF_TIMEOUT_SECS" 500).

(** time.Sleep, and the wait for a time.After channel: nothing happens for this long. *)
Definition waits_for (d : Z) : Z := Z.max 0 d.
(** context.WithTimeout: done from the start. *)
Definition expired_at_once (d : Z) : bool := d <=? 0.

(** ** XREAD ... BLOCK, redis.go:247 *)
Definition block_arg (env : environment) : string :=
  get_string env "OM_CACHE_IN_WAIT_TIMEOUT_MS" (format_Z 1500).

(** How Redis reads it; [None]: the command is refused. (So are waits that end later
    than 2^63 ms; these are left out.) 0 means to wait for ever. *)
Definition redis_block (s : string) : option Z :=
  match redis_int s with
  | Some z => if z <? 0 then None else Some z
  | None => None
  end.

(** ** time.ParseDuration (Go standard library, time/format.go) *)

(** leadingInt; [None] on overflow. *)
Fixpoint leading_int (acc : N) (s : string) : option (N * string) :=
  match s with
  | "" => Some (acc, "")
  | String c s' =>
      if is_digit c then
        if (2 ^ 63 / 10 <? acc)%N then None
        else let n := (10 * acc + digit_val c)%N in
             if (2 ^ 63 <? n)%N then None else leading_int n s'
      else Some (acc, s)
  end.

(** The longest prefix of characters with [f], and the rest. *)
Fixpoint span (f : ascii → bool) (s : string) : string * string :=
  match s with
  | "" => ("", "")
  | String c s' => if f c then let '(a, b) := span f s' in (String c a, b) else ("", s)
  end.

Definition number_char (c : ascii) : bool := is_digit c || Ascii.eqb c ".".

(** unitMap; the micro signs U+00B5 and U+03BC are two bytes each. *)
Definition unit_of (u : string) : option N :=
  if String.eqb u "ns" then Some 1%N
  else if String.eqb u "us" || String.eqb u (String (ascii_of_N 194) (String (ascii_of_N 181) "s"))
       || String.eqb u (String (ascii_of_N 206) (String (ascii_of_N 188) "s")) then Some 1000%N
  else if String.eqb u "ms" then Some 1000000%N
  else if String.eqb u "s" then Some 1000000000%N
  else if String.eqb u "m" then Some 60000000000%N
  else if String.eqb u "h" then Some 3600000000000%N
  else None.

(** One number with its unit. [frac ds u]: what the digits [ds] after a decimal point
    amount to in units [u], which Go computes in floating point. *)
Definition duration_part (frac : string → N → N) (s : string) : option (N * string) :=
  match s with
  | "" => None
  | String c _ =>
      if number_char c then
        match leading_int 0 s with
        | None => None
        | Some (v, r) =>
            let pre := negb (String.eqb r s) in
            let '(ds, r) := match r with
                            | String d r' => if Ascii.eqb d "." then span is_digit r' else ("", r)
                            | "" => ("", r)
                            end in
            if pre || negb (String.eqb ds "") then
              let '(u, r) := span (λ c, negb (number_char c)) r in
              match unit_of u with
              | None => None
              | Some k =>
                  if (2 ^ 63 / k <? v)%N then None
                  else let w := (v * k + if String.eqb ds "" then 0 else frac ds k)%N in
                       if (2 ^ 63 <? w)%N then None else Some (w, r)
              end
            else None
        end
      else None
  end.

Fixpoint duration_parts (frac : string → N → N) (fuel : nat) (d : N) (s : string) : option N :=
  match s with
  | "" => Some d
  | _ =>
      match fuel with
      | O => None
      | S fuel =>
          match duration_part frac s with
          | None => None
          | Some (v, r) => if (2 ^ 63 <? d + v)%N then None else duration_parts frac fuel (d + v)%N r
          end
      end
  end.

(** Every part takes at least one character. *)
Definition parse_duration (frac : string → N → N) (s : string) : option Z :=
  let '(neg, s) := match s with
                   | String c s' => if Ascii.eqb c "-" then (true, s')
                                    else if Ascii.eqb c "+" then (false, s') else (false, s)
                   | "" => (false, s)
                   end in
  if String.eqb s "0" then Some 0
  else if String.eqb s "" then None
  else match duration_parts frac (String.length s) 0 s with
       | None => None
       | Some d => if neg then Some (- Z.of_N d)
                   else if (2 ^ 63 - 1 <? d)%N then None else Some (Z.of_N d)
       end.

(** cast.ToDuration of a string: one with a character of "nsuµmh" is parsed as it is,
    others with "ns" appended (a string with the micro sign but no other of these
    cannot be parsed either way); the error is dropped and leaves 0. *)
Definition has_unit_char (s : string) : bool :=
  existsb (λ c, existsb (Ascii.eqb c) ["n"; "s"; "u"; "m"; "h"]%char) (list_ascii_of_string s).
Definition to_duration (frac : string → N → N) (s : string) : Z :=
  match parse_duration frac (if has_unit_char s then s else s +:+ "ns") with
  | Some d => d
  | None => 0
  end.

(** ** Redis connections, redis.go:44-90 *)

(** cfg.GetDuration; the default is the number 0. *)
Definition idle_timeout (frac : string → N → N) (env : environment) : Z :=
  match env_value env "OM_REDIS_POOL_IDLE_TIMEOUT" with Some s => to_duration frac s | None => 0 end.

(** redigo gives up connecting, and waiting for a reply, after the time limit; 0
    means that there is none. *)
Definition in_time (limit took : Z) : bool := (limit =? 0) || (took <? limit).

(** One poll: a new connection (redis.go:256, never returned to the pool), then
    XREAD, whose reply comes after [reply]. *)
Inductive polled := PolledOk | NoConnection | NoReply.
Definition poll (limit connect reply : Z) : polled :=
  if in_time limit connect then if in_time limit reply then PolledOk else NoReply else NoConnection.

(** redis.go:60 and :83: fmt.Sprintf("%s:%s", host, port); the defaults of the ports
    are numbers. *)
Definition redis_addr (env : environment) (side : string) : string :=
  get_string env ("OM_REDIS_" +:+ side +:+ "_HOST") "127.0.0.1" +:+ ":" +:+
  get_string env ("OM_REDIS_" +:+ side +:+ "_PORT") (format_Z 6379).
Definition read_dest (env : environment) : dest := dial_tcp (redis_addr env "READ").
Definition write_dest (env : environment) : dest := dial_tcp (redis_addr env "WRITE").

(** ** The ports of the server, core/server.go:39-75 *)

(** net's parsePort (net/port.go), which computes in 32 bits. *)
Definition port_cutoff : N := (2 ^ 30)%N.
Definition port_max : N := (2 ^ 32 - 1)%N.
Fixpoint port_digits (n : N) (s : string) : option N :=
  match s with
  | "" => Some n
  | String c s' =>
      if is_digit c then
        if (port_cutoff <=? n)%N then Some port_max
        else let m := ((10 * n) mod 2 ^ 32)%N in
             if (port_max <? m + digit_val c)%N then Some port_max else port_digits (m + digit_val c)%N s'
      else None
  end.
(** [None]: the name of a service, to be looked up. *)
Definition parse_port (s : string) : option Z :=
  match s with
  | "" => Some 0
  | String c s' =>
      let '(neg, ds) := if Ascii.eqb c "+" then (false, s') else if Ascii.eqb c "-" then (true, s') else (false, s) in
      match port_digits 0 ds with
      | None => None
      | Some n => Some (if neg then if (port_cutoff <? n)%N then - Z.of_N port_cutoff else - Z.of_N n
                        else if (port_cutoff <=? n)%N then Z.of_N port_cutoff - 1 else Z.of_N n)
      end
  end.
(** The port in an address; [None]: no port, or one that is not accepted. *)
Definition port_of (addr : string) : option Z :=
  match split_host_port addr with
  | Some (_, p) => match parse_port p with
                   | Some n => if (0 <=? n) && (n <=? 65535) then Some n else None
                   | None => None
                   end
  | None => None
  end.

(** :39 and :58; the default is the number 8080. *)
Definition port_setting (env : environment) : string := get_string env "PORT" (format_Z 8080).
Definition listen_addr (env : environment) : string := ":" +:+ port_setting env.
Definition gateway_dest (env : environment) : dest := dial ("localhost:" +:+ port_setting env).

(** The port of the HTTP gateway, :68. *)
Definition http_port : Z := 58081.

(** The server is up: the port it asks for (0: any free one) and where the gateway
    looks for it. [None]: logger.Fatal, since one of the ports cannot be used. *)
Definition serve_ports (env : environment) : option (Z * dest) :=
  match port_of (listen_addr env) with
  | None => None
  | Some p => if p =? http_port then None else Some (p, gateway_dest env)
  end.
