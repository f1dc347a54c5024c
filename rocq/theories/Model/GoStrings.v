(** Executable models of the Go standard-library string functions the code
    relies on: strconv.FormatInt, strconv.ParseInt, strconv.Atoi,
    strings.Split(.., "-")[0], fmt's %d / %04d, strings.ToLower (ASCII part)
    and regexp matching of the replication-id regex. *)
From Coq Require Import Ascii String ZArith NArith.
From stdpp Require Import prelude strings.
Local Open Scope string_scope.

(** ** Decimal formatting *)

(** One decimal digit, [d < 10]. *)
Definition digit_char (d : N) : ascii := ascii_of_N (48 + d).

(** Writes [n] in decimal in front of [acc]; [fuel] bounds the number of
    digits. *)
Fixpoint fmt_fuel (fuel : nat) (n : N) (acc : string) : string :=
  match fuel with
  | O => acc
  | S f =>
      let acc' := String (digit_char (n mod 10)) acc in
      if (n <? 10)%N then acc' else fmt_fuel f (n / 10)%N acc'
  end.

(** strconv.FormatInt(n, 10) / fmt "%d" for n >= 0.
    (A number with k bits has at most k digits, and 0 has one.) *)
Definition format_N (n : N) : string := fmt_fuel (S (N.size_nat n)) n "".

(** strconv.FormatInt(z, 10): core/internal/statestore/memory/main.go:105 and
    core/internal/statestore/redis/redis.go:180. *)
Definition format_Z (z : Z) : string :=
  if (z <? 0)%Z then "-" +:+ format_N (Z.to_N (- z)) else format_N (Z.to_N z).

(** Left-pads [s] with zeros to at least [w] bytes. *)
Fixpoint zeros (n : nat) : string :=
  match n with O => "" | S k => String "0" (zeros k) end.

(** fmt "%0wd" for n >= 0 (functions/golang/soloduel/soloduel.go:94,
    functions/golang/battleroyale/battleroyale.go:84,
    functions/golang/teamshooter/teamshooter.go:88). *)
Definition format_pad (w : nat) (n : N) : string :=
  let s := format_N n in zeros (w - String.length s) +:+ s.

(** ** Decimal parsing *)

Definition is_digit (c : ascii) : bool :=
  let n := N_of_ascii c in ((48 <=? n) && (n <=? 57))%N.

Definition digit_val (c : ascii) : N := (N_of_ascii c - 48)%N.

Definition max_u64 : N := (2 ^ 64 - 1)%N.
Definition max_i64 : Z := (2 ^ 63 - 1)%Z.

(** Outcome of a strconv parse: the returned value and the kind of error. *)
Inductive parse_res (A : Type) :=
| PRok (v : A)
| PRsyntax            (* ErrSyntax, value 0 *)
| PRrange (v : A).    (* ErrRange, value clamped *)
Arguments PRok {A} v.
Arguments PRsyntax {A}.
Arguments PRrange {A} v.

(** The loop of strconv.ParseUint(s, 10, 64): stops with a range error as soon
    as the accumulated value overflows, before looking at later characters. *)
Fixpoint parse_uint_loop (acc : N) (s : string) : parse_res N :=
  match s with
  | "" => PRok acc
  | String c s' =>
      if is_digit c then
        if (max_u64 / 10 + 1 <=? acc)%N then PRrange max_u64
        else
          let n1 := (acc * 10 + digit_val c)%N in
          if (max_u64 <? n1)%N then PRrange max_u64 else parse_uint_loop n1 s'
      else PRsyntax
  end.

(** strconv.ParseUint(s, 10, 64). *)
Definition parse_uint (s : string) : parse_res N :=
  match s with "" => PRsyntax | _ => parse_uint_loop 0 s end.

(** The tail of strconv.ParseInt(s, 10, bitSize): sign and range. [cutoff] is
    2^(bitSize-1). *)
Definition parse_int_signed (cutoff : Z) (neg : bool) (un : parse_res N) : parse_res Z :=
  match un with
  | PRsyntax => PRsyntax
  | PRok u | PRrange u =>
      if negb neg && (cutoff <=? Z.of_N u)%Z then PRrange (cutoff - 1)%Z
      else if neg && (cutoff <? Z.of_N u)%Z then PRrange (- cutoff)%Z
      else PRok (if neg then - Z.of_N u else Z.of_N u)%Z
  end.

(** strconv.ParseInt(s, 10, 64):
    core/internal/statestore/cache/replicatedticketcache.go:295 and :328. *)
Definition parse_int (s : string) : parse_res Z :=
  match s with
  | "" => PRsyntax
  | String c s' =>
      if Ascii.eqb c "+" then parse_int_signed (2 ^ 63) false (parse_uint s')
      else if Ascii.eqb c "-" then parse_int_signed (2 ^ 63) true (parse_uint s')
      else parse_int_signed (2 ^ 63) false (parse_uint s)
  end.

(** The value variable after [x, err := strconv.ParseInt(..)], error or not. *)
Definition parse_val (r : parse_res Z) : Z :=
  match r with PRok v => v | PRsyntax => 0%Z | PRrange v => v end.

(** ** strings.Split(s, "-")[0]: everything before the first dash. *)
Fixpoint before_dash (s : string) : string :=
  match s with
  | "" => ""
  | String c s' => if Ascii.eqb c "-" then "" else String c (before_dash s')
  end.

(** The timestamp the cache reads out of a ticket id; a parse error is only
    logged and the (zero or clamped) value is used.
    core/internal/statestore/cache/replicatedticketcache.go:295-298 and
    :328-331. *)
Definition id_time (id : string) : Z := parse_val (parse_int (before_dash id)).

(** ** Regular expressions *)

(** Just enough syntax for the regex of GetReplIdValidationRegex. *)
Inductive re :=
| REmpty
| REps
| RDigit                      (* \d : [0-9] in Go's RE2 syntax *)
| RChar (c : ascii)
| RSeq (r1 r2 : re)
| RAlt (r1 r2 : re)
| RStar (r : re).

Fixpoint re_nullable (r : re) : bool :=
  match r with
  | REmpty | RDigit | RChar _ => false
  | REps | RStar _ => true
  | RSeq a b => re_nullable a && re_nullable b
  | RAlt a b => re_nullable a || re_nullable b
  end.

(** Brzozowski derivative. *)
Fixpoint re_deriv (c : ascii) (r : re) : re :=
  match r with
  | REmpty | REps => REmpty
  | RDigit => if is_digit c then REps else REmpty
  | RChar d => if Ascii.eqb c d then REps else REmpty
  | RSeq a b =>
      if re_nullable a then RAlt (RSeq (re_deriv c a) b) (re_deriv c b)
      else RSeq (re_deriv c a) b
  | RAlt a b => RAlt (re_deriv c a) (re_deriv c b)
  | RStar a => RSeq (re_deriv c a) (RStar a)
  end.

(** Some prefix of [s] matches. *)
Fixpoint re_prefix (r : re) (s : string) : bool :=
  re_nullable r ||
  match s with "" => false | String c s' => re_prefix (re_deriv c r) s' end.

(** Regexp.MatchString: some substring of [s] matches (unanchored). *)
Fixpoint re_search (r : re) (s : string) : bool :=
  re_prefix r s ||
  match s with "" => false | String _ s' => re_search r s' end.

(** `\d*-\d*`: core/internal/statestore/redis/redis.go:314-316 and
    core/internal/statestore/memory/main.go:42-44. *)
Definition repl_id_regex : re :=
  RSeq (RStar RDigit) (RSeq (RChar "-") (RStar RDigit)).

(** validationRegex.MatchString(id): core/main.go:881-884. *)
Definition valid_ticket_id (id : string) : bool := re_search repl_id_regex id.

(** strings.ToLower on one ASCII character. *)
Definition lower_char (c : ascii) : ascii :=
  let n := N_of_ascii c in
  if ((65 <=? n) && (n <=? 90))%N then ascii_of_N (n + 32) else c.
