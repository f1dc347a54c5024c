(** Numbers in JSON, as protojson v1.33.0 reads and writes them
    (internal/encoding/json/decode_number.go, encode.go; encoding/protojson/decode.go,
    unmarshalInt and unmarshalFloat) for the ports of functions and the doubles of tickets and
    filters, which pass over HTTP through grpc-gateway (core/main.go:388-420,
    core/server.go:53-62; matchmaker-example/main.go:260-265).

    Simplifications: strconv.ParseFloat and the shortest format of strconv.AppendFloat are
    given by what they compute (the nearest double, ties to even, and the shortest, then nearest,
    digits that are read back), not by their algorithms; why a text is refused is left out. *)
From Coq Require Import Ascii String ZArith NArith.
From stdpp Require Import prelude strings.
From Verif.Model Require Import GoStrings Types JsonMsg HttpStream JsonBytes Calendar.
Local Open Scope string_scope.
Local Open Scope Z_scope.

(** ** Tokens: parseNumber *)

Record token := Token {
  nt_neg : bool; nt_int : string; nt_frac : string;
  nt_exp : option (string * string)      (* sign and digits *)
}.
Definition letter (c : ascii) : bool :=
  let n := N_of_ascii c in ((65 <=? n) && (n <=? 90) || (97 <=? n) && (n <=? 122))%N.
Definition not_delim (c : ascii) : bool :=
  Ascii.eqb c "-" || Ascii.eqb c "+" || Ascii.eqb c "." || Ascii.eqb c "_" || letter c || is_digit c.

Definition scan_sign (s : string) : bool * string :=
  match s with String c r => if Ascii.eqb c "-" then (true, r) else (false, s) | "" => (false, s) end.
Definition scan_int (s : string) : option (string * string) :=
  match s with
  | String c r => if Ascii.eqb c "0" then Some ("0", r) else if is_digit c then Some (span_digits s) else None
  | "" => None
  end.
Definition scan_frac (s : string) : string * string :=
  match s with
  | String c r =>
      let '(ds, r') := span_digits r in
      if Ascii.eqb c "." && negb (String.eqb ds "") then (ds, r') else ("", s)
  | "" => ("", s)
  end.
Definition exp_sign (s : string) : string * string :=
  match s with
  | String c r => if Ascii.eqb c "+" || Ascii.eqb c "-" then (String c "", r) else ("", s)
  | "" => ("", s)
  end.
Definition scan_exp (s : string) : option (option (string * string) * string) :=
  match s with
  | String c r =>
      if (Ascii.eqb c "e" || Ascii.eqb c "E") && negb (String.eqb r "") then
        let '(sg, r1) := exp_sign r in
        if negb (String.eqb sg "") && String.eqb r1 "" then None
        else let '(ds, r2) := span_digits r1 in Some (Some (sg, ds), r2)
      else Some (None, s)
  | "" => Some (None, s)
  end.
Definition delimited (s : string) : bool :=
  match s with String c _ => negb (not_delim c) | "" => true end.
Definition scan_number (s : string) : option (token * string) :=
  let '(neg, s) := scan_sign s in
  '(ip, s) ← scan_int s;
  let '(fp, s) := scan_frac s in
  '(ep, s) ← scan_exp s;
  if delimited s then Some (Token neg ip fp ep, s) else None.

(** A number may also come as a text: one that neither begins nor ends with white space
    and begins with a number; the rest is not looked at. *)
Definition ends_in_space (s : string) : bool :=
  match last (runes s) with Some r => is_space r | None => false end.
Definition number_in (s : string) : option token :=
  if ends_in_space s then None else fst <$> scan_number s.

(** ** Whole numbers: parseNumberParts, normalizeToIntString, Token.Int(32) *)

Fixpoint trim_zeros (s : string) : string :=
  match s with
  | String c r => let t := trim_zeros r in if Ascii.eqb c "0" && String.eqb t "" then "" else String c t
  | "" => ""
  end.
Fixpoint zeros (n : nat) : string := match n with O => "" | S n => String "0" (zeros n) end.
Definition slen (s : string) : Z := Z.of_nat (String.length s).
Definition fits32 (z : Z) : bool := (- 2 ^ 31 <=? z) && (z <? 2 ^ 31).
Definition signed (neg : bool) (z : Z) : Z := if neg then - z else z.

(** strconv.ParseInt(exp, 10, 32); without digits the exponent is 0. *)
Definition exp_int (e : option (string * string)) : option Z :=
  match e with
  | None => Some 0
  | Some (sg, ds) => let z := signed (String.eqb sg "-") (value 0 ds) in if fits32 z then Some z else None
  end.
Definition int_digits (ip fp : string) (e : Z) : option string :=
  if 0 <=? e then
    if (e <? slen fp) || (20 <? slen ip + e) then None else Some (ip +:+ fp +:+ zeros (Z.to_nat (e - slen fp)))
  else if negb (String.eqb fp "") then None
  else
    let index := slen ip + e in
    if index <? 0 then None
    else if String.eqb (trim_zeros (String.substring (Z.to_nat index) (String.length ip) ip)) ""
    then Some (String.substring 0 (Z.to_nat index) ip)
    else None.
Definition read_int (s : string) : option Z :=
  n ← number_in s;
  if match nt_exp n with Some (String _ _, "") => true | _ => false end then None
  else
    let ip := if String.eqb (nt_int n) "0" then "" else nt_int n in
    let fp := trim_zeros (nt_frac n) in
    if String.eqb ip "" && String.eqb fp "" then Some 0
    else
      e ← exp_int (nt_exp n);
      ds ← int_digits ip fp e;
      let z := signed (nt_neg n) (value 0 ds) in
      if fits32 z then Some z else None.

(** ** Doubles *)

(** n / d, rounded to a whole number, ties to even. *)
Definition half_even (n d : Z) : Z :=
  let q := n / d in let r := n mod d in
  if 2 * r <? d then q else if d <? 2 * r then q + 1 else if Z.even q then q else q + 1.
(** The bits of the double nearest to n / d units of 2^-1074. *)
Definition round_bits (n d : Z) : Z :=
  let e := Z.max 0 (Z.log2 (n / d) - 52) in e * 2 ^ 52 + half_even n (d * 2 ^ e).
(** ... nearest to m * 10^k. *)
Definition dec_bits (m k : Z) : Z := round_bits (m * 10 ^ Z.max 0 k * 2 ^ 1074) (10 ^ Z.max 0 (- k)).
(** Infinity; -0. *)
Definition inf_bits : Z := 2047 * 2 ^ 52.
Definition sign_bit : Z := 2 ^ 63.

(** readFloat: digits of the exponent beyond 10000 are not looked at. *)
Fixpoint capped (e : Z) (ds : string) : Z :=
  match ds with String c r => capped (if e <? 10000 then 10 * e + dig c else e) r | "" => e end.
Definition exp_float (e : option (string * string)) : option Z :=
  match e with
  | None => Some 0
  | Some (_, "") => None
  | Some (sg, ds) => Some (signed (String.eqb sg "-") (capped 0 ds))
  end.
(** Token.Float(64): numbers that are too big are refused. *)
Definition read_double (s : string) : option f64 :=
  n ← number_in s;
  e ← exp_float (nt_exp n);
  let b := dec_bits (value 0 (nt_int n +:+ nt_frac n)) (e - slen (nt_frac n)) in
  if b <? inf_bits then Some (Z.to_N (b + if nt_neg n then sign_bit else 0)) else None.

(** A finite double above 0, in units of 2^-1074. *)
Definition mag (b : Z) : Z :=
  let e := b / 2 ^ 52 in let m := b mod 2 ^ 52 in
  if e =? 0 then m else (2 ^ 52 + m) * 2 ^ (e - 1).
(** The k such that 10^(k-1) <= z * 2^-1074 < 10^k. *)
Fixpoint point (fuel : nat) (z k : Z) : Z :=
  match fuel with
  | O => k
  | S fuel => if z * 10 ^ Z.max 0 (- k) <? 10 ^ Z.max 0 k * 2 ^ 1074 then k else point fuel z (k + 1)
  end.
(** The shortest digits that are read back, and among these the nearest: m * 10^e. *)
Fixpoint shortest (fuel : nat) (b z k : Z) (n : Z) : Z * Z :=
  match fuel with
  | O => (0, 0)
  | S fuel =>
      let e := k - n in
      let num := z * 10 ^ Z.max 0 (- e) in let den := 10 ^ Z.max 0 e * 2 ^ 1074 in
      let m := half_even num den in
      let m' := if m =? num / den then m + 1 else m - 1 in
      if dec_bits m e =? b then (m, e)
      else if dec_bits m' e =? b then (m', e)
      else shortest fuel b z k (n + 1)
  end.
Definition shortest_decimal (b : Z) : Z * Z :=
  let z := mag b in
  let '(m, e) := shortest 17 b z (point 640 z (-323)) 1 in
  if m =? 10 then (1, e + 1) else (m, e).

(** %f and %e with these digits; at least two digits of exponent. *)
Definition fixed (ds : string) (e : Z) : string :=
  let n := slen ds in
  if 0 <=? e then ds +:+ zeros (Z.to_nat e)
  else if 0 <? n + e then
    let i := Z.to_nat (n + e) in String.substring 0 i ds +:+ "." +:+ String.substring i (String.length ds) ds
  else "0." +:+ zeros (Z.to_nat (- (n + e))) +:+ ds.
Definition scientific (ds : string) (e : Z) : string :=
  let x := e + slen ds - 1 in
  String.substring 0 1 ds +:+
  (if (1 <? String.length ds)%nat then "." +:+ String.substring 1 (String.length ds) ds else "") +:+
  "e" +:+ (if x <? 0 then "-" else "+") +:+ (if Z.abs x <? 10 then "0" else "") +:+ format_Z (Z.abs x).
(** e-09 becomes e-9. *)
Definition clean_exp (s : string) : string :=
  let n := String.length s in
  if (4 <=? n)%nat && String.eqb (String.substring (n - 4) 3 s) "e-0"
  then String.substring 0 (n - 2) s +:+ String.substring (n - 1) 1 s else s.
(** appendFloat, for finite doubles. *)
Definition json_double (x : f64) : string :=
  let b := Z.of_N x mod sign_bit in
  (if f64_sign x then "-" else "") +:+
  if b =? 0 then "0"
  else
    let '(m, e) := shortest_decimal b in
    let ds := format_Z m in
    if (b <? dec_bits 1 (-6)) || (dec_bits 1 21 <=? b) then clean_exp (scientific ds e) else fixed ds e.

(** Messages with these numbers and times. *)
Definition go_codec (types : string → option embedded) (skip : bool) : codec :=
  Codec json_double read_double read_int json_time read_time types skip.
