(** strconv.ParseInt(s, 0, 64), used by core/main.go:841 (Go standard library,
    strconv/atoi.go). *)
From Coq Require Import Ascii String ZArith NArith.
From stdpp Require Import prelude strings.
From Verif.Model Require Import GoStrings.
Local Open Scope string_scope.

(** lower(c) = c | ('x' - 'X'). *)
Definition lower_bit (c : ascii) : N := N.lor (N_of_ascii c) 32.

(** The value of a digit or letter; [None] for any other character. *)
Definition digit_any (c : ascii) : option N :=
  if is_digit c then Some (digit_val c)
  else if ((97 <=? lower_bit c) && (lower_bit c <=? 122))%N then Some (lower_bit c - 97 + 10)%N
  else None.

(** The digit loop; underscores are skipped. *)
Fixpoint parse_digits (base acc : N) (s : string) : parse_res N :=
  match s with
  | "" => PRok acc
  | String c s' =>
      if Ascii.eqb c "_" then parse_digits base acc s'
      else match digit_any c with
           | None => PRsyntax
           | Some d =>
               if (base <=? d)%N then PRsyntax
               else if (max_u64 / base + 1 <=? acc)%N then PRrange max_u64
               else let n1 := (acc * base + d)%N in
                    if (max_u64 <? n1)%N then PRrange max_u64 else parse_digits base n1 s'
           end
  end.

(** Base and remaining characters. *)
Definition base_prefix (s : string) : N * string :=
  match s with
  | String c s1 =>
      if Ascii.eqb c "0" then
        match s1 with
        | String x (String y s3) =>
            if (lower_bit x =? 98)%N then (2%N, String y s3)
            else if (lower_bit x =? 111)%N then (8%N, String y s3)
            else if (lower_bit x =? 120)%N then (16%N, String y s3)
            else (8%N, s1)
        | _ => (8%N, s1)
        end
      else (10%N, s)
  | "" => (10%N, s)
  end.

Fixpoint has_underscore (s : string) : bool :=
  match s with "" => false | String c s' => Ascii.eqb c "_" || has_underscore s' end.

(** underscoreOK without a sign (ParseInt has removed it): every underscore
    stands between digits or after a base prefix. [i] is the kind of the previous
    character. *)
Inductive prev := PvStart | PvDigit | PvUnder | PvOther.
Fixpoint underscore_loop (hex : bool) (i : prev) (s : string) : bool :=
  match s with
  | "" => match i with PvUnder => false | _ => true end
  | String c s' =>
      if is_digit c || (hex && ((97 <=? lower_bit c) && (lower_bit c <=? 102))%N) then underscore_loop hex PvDigit s'
      else if Ascii.eqb c "_" then match i with PvDigit => underscore_loop hex PvUnder s' | _ => false end
      else match i with PvUnder => false | _ => underscore_loop hex PvOther s' end
  end.
Definition underscore_ok (s : string) : bool :=
  match s with
  | String c (String x s2) =>
      if Ascii.eqb c "0" && ((lower_bit x =? 98) || (lower_bit x =? 111) || (lower_bit x =? 120))%N
      then underscore_loop (lower_bit x =? 120)%N PvDigit s2
      else underscore_loop false PvStart s
  | _ => underscore_loop false PvStart s
  end.

Definition parse_uint0 (s : string) : parse_res N :=
  match s with
  | "" => PRsyntax
  | _ =>
      let '(base, rest) := base_prefix s in
      match parse_digits base 0 rest with
      | PRok n => if has_underscore rest && negb (underscore_ok s) then PRsyntax else PRok n
      | r => r
      end
  end.

Definition parse_int0 (s : string) : parse_res Z :=
  match s with
  | "" => PRsyntax
  | String c s' =>
      if Ascii.eqb c "+" then parse_int_signed (2 ^ 63) false (parse_uint0 s')
      else if Ascii.eqb c "-" then parse_int_signed (2 ^ 63) true (parse_uint0 s')
      else parse_int_signed (2 ^ 63) false (parse_uint0 s)
  end.

(** core/main.go:841: the seconds read out of an id; an error is only logged. *)
Definition id_time0 (id : string) : Z := parse_val (parse_int0 (before_dash id)).
