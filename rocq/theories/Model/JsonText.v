(** Reading JSON texts: the syntax that protobuf's internal/encoding/json (decode.go,
    decode_string.go, decode_number.go; v1.33.0) accepts, as used by protojson.Unmarshal in
    the example (matchmaker-example/main.go:314) and in the gateway, where encoding/json's
    Decoder first takes one value off the body (grpc-gateway v2.19.0 JSONPb.NewDecoder;
    core/pkg/api/v2/api.pb.gw.go:35-185).

    Texts are lists of code points, trees are those of HttpStream.v. Simplifications: the
    token reader and its stack are given as a recursive descent; an exponent without
    digits, which the token reader lets pass in some places and the conversion of numbers
    then refuses, is refused at once; the limit of 10000 nested values is left out. *)
From Coq Require Import ZArith NArith.
From stdpp Require Import prelude.
From Verif.Model Require Import HttpStream.
Local Open Scope N_scope.

Fixpoint skip_ws (t : text) : text :=
  match t with
  | [] => []
  | c :: t' => if json_space c then skip_ws t' else t
  end.

(** ** Strings: decode_string.go *)
Definition hex_value (c : N) : option N :=
  if (48 <=? c) && (c <=? 57) then Some (c - 48)
  else if (97 <=? c) && (c <=? 102) then Some (c - 87)
  else if (65 <=? c) && (c <=? 70) then Some (c - 55)
  else None.
Definition hex4 (a b c d : N) : option N :=
  x ← hex_value a; y ← hex_value b; z ← hex_value c; w ← hex_value d;
  Some (4096 * x + 256 * y + 16 * z + w).
(** utf16.IsSurrogate, utf16.DecodeRune *)
Definition surrogate (v : N) : bool := (0xd800 <=? v) && (v <? 0xe000).
Definition pair_of (v w : N) : option N :=
  if (v <? 0xdc00) && (0xdc00 <=? w) && (w <? 0xe000) then Some (0x10000 + 1024 * (v - 0xd800) + (w - 0xdc00)) else None.
Definition unescape (e : N) : option N :=
  if (e =? 34) || (e =? 92) || (e =? 47) then Some e
  else if e =? 98 then Some 8
  else if e =? 102 then Some 12
  else if e =? 110 then Some 10
  else if e =? 114 then Some 13
  else if e =? 116 then Some 9
  else None.
Definition push (r : N) (x : option (text * text)) : option (text * text) :=
  match x with Some (s, rest) => Some (r :: s, rest) | None => None end.

(** What follows the opening quote: the string and what is behind its closing quote. *)
Fixpoint read_string (t : text) : option (text * text) :=
  match t with
  | [] => None
  | c :: t1 =>
      if c =? 34 then Some ([], t1)
      else if c =? 92 then
        match t1 with
        | [] => None
        | e :: t2 =>
            if e =? 117 then
              match t2 with
              | a :: b :: c :: d :: t3 =>
                  match hex4 a b c d with
                  | None => None
                  | Some v =>
                      if surrogate v then
                        match t3 with
                        | q :: u :: a' :: b' :: c' :: d' :: t4 =>
                            if (q =? 92) && (u =? 117) then
                              match hex4 a' b' c' d' with
                              | None => None
                              | Some w => match pair_of v w with Some r => push r (read_string t4) | None => None end
                              end
                            else None
                        | _ => None
                        end
                      else push v (read_string t3)
                  end
              | _ => None
              end
            else match unescape e with Some r => push r (read_string t2) | None => None end
        end
      else if c <? 32 then None
      else push c (read_string t1)
  end.

(** ** Numbers and literals: decode_number.go, matchWithDelim *)
Definition digit (c : N) : bool := (48 <=? c) && (c <=? 57).
Definition not_delim (c : N) : bool :=
  (c =? 45) || (c =? 43) || (c =? 46) || (c =? 95) || ((97 <=? c) && (c <=? 122)) || ((65 <=? c) && (c <=? 90)) || digit c.
Definition delimited (rest : text) : bool := match rest with [] => true | c :: _ => negb (not_delim c) end.

Fixpoint digits (t : text) : text * text :=
  match t with
  | [] => ([], [])
  | c :: t' => if digit c then let '(a, b) := digits t' in (c :: a, b) else ([], t)
  end.
Definition read_sign (t : text) : text * text :=
  match t with c :: t' => if c =? 45 then ([c], t') else ([], t) | [] => ([], t) end.
Definition read_int (t : text) : option (text * text) :=
  match t with
  | c :: t' => if c =? 48 then Some ([c], t') else if digit c then Some (digits t) else None
  | [] => None
  end.
Definition read_frac (t : text) : text * text :=
  match t with
  | p :: d :: t' => if (p =? 46) && digit d then let '(a, b) := digits (d :: t') in (p :: a, b) else ([], t)
  | _ => ([], t)
  end.
Definition read_exp (t : text) : option (text * text) :=
  match t with
  | e :: t' =>
      if (e =? 101) || (e =? 69) then
        let '(sg, t'') := match t' with s :: t2 => if (s =? 43) || (s =? 45) then ([s], t2) else ([], t') | [] => ([], t') end in
        match digits t'' with
        | ([], _) => None
        | (ds, rest) => Some (e :: sg ++ ds, rest)
        end
      else Some ([], t)
  | [] => Some ([], t)
  end.
Definition read_number (t : text) : option (text * text) :=
  let '(sg, t1) := read_sign t in
  '(ip, t2) ← read_int t1;
  let '(fp, t3) := read_frac t2 in
  '(ep, t4) ← read_exp t3;
  if delimited t4 then Some (sg ++ ip ++ fp ++ ep, t4) else None.

Definition literals : list text := [[110; 117; 108; 108]; [116; 114; 117; 101]; [102; 97; 108; 115; 101]].
Fixpoint strip (p t : text) : option text :=
  match p, t with
  | [], _ => Some t
  | x :: p', y :: t' => if x =? y then strip p' t' else None
  | _ :: _, [] => None
  end.
Fixpoint read_literal (ls : list text) (t : text) : option (text * text) :=
  match ls with
  | [] => None
  | l :: ls' => match strip l t with
                | Some rest => if delimited rest then Some (l, rest) else None
                | None => read_literal ls' t
                end
  end.
Definition read_scalar (t : text) : option (text * text) :=
  match read_literal literals t with Some x => Some x | None => read_number t end.

(** ** Values: decode.go *)
Fixpoint read_value (fuel : nat) (t : text) : option (json * text) :=
  match fuel with
  | O => None
  | S fuel =>
      match t with
      | [] => None
      | c :: t1 =>
          if c =? 34 then '(s, r) ← read_string t1; Some (JStr s, r)
          else if c =? 91 then
            match skip_ws t1 with
            | [] => None
            | c1 :: r => if c1 =? 93 then Some (JArr [], r) else '(l, r) ← read_items fuel (c1 :: r); Some (JArr l, r)
            end
          else if c =? 123 then
            match skip_ws t1 with
            | [] => None
            | c1 :: r => if c1 =? 125 then Some (JObj [], r) else '(l, r) ← read_members fuel (c1 :: r); Some (JObj l, r)
            end
          else '(s, r) ← read_scalar t; Some (JRaw s, r)
      end
  end
with read_items (fuel : nat) (t : text) : option (list json * text) :=
  match fuel with
  | O => None
  | S fuel =>
      '(j, r) ← read_value fuel t;
      match skip_ws r with
      | [] => None
      | c :: r1 =>
          if c =? 93 then Some ([j], r1)
          else if c =? 44 then '(l, r2) ← read_items fuel (skip_ws r1); Some (j :: l, r2)
          else None
      end
  end
with read_members (fuel : nat) (t : text) : option (list (text * json) * text) :=
  match fuel with
  | O => None
  | S fuel =>
      match t with
      | [] => None
      | q :: t1 =>
          if q =? 34 then
            '(k, r) ← read_string t1;
            match skip_ws r with
            | [] => None
            | c :: r1 =>
                if c =? 58 then
                  '(j, r2) ← read_value fuel (skip_ws r1);
                  match skip_ws r2 with
                  | [] => None
                  | c :: r3 =>
                      if c =? 125 then Some ([(k, j)], r3)
                      else if c =? 44 then '(l, r4) ← read_members fuel (skip_ws r3); Some ((k, j) :: l, r4)
                      else None
                  end
                else None
            end
          else None
      end
  end.
Definition enough (t : text) : nat := 2 * length t + 1.

(** protojson.Unmarshal: one value, then the end. *)
Definition read_text (t : text) : option json :=
  let t := skip_ws t in
  '(j, r) ← read_value (enough t) t;
  match skip_ws r with [] => Some j | _ => None end.

(** The body of a request at the gateway: the Decoder reads one value and does not look at
    what follows. io.EOF, for a body of white space only, is not taken as an error
    (api.pb.gw.go:43 etc.). *)
Inductive body := NoBody | Body (j : json) | BadBody.
Definition read_body (t : text) : body :=
  match skip_ws t with
  | [] => NoBody
  | t => match read_value (enough t) t with Some (j, _) => Body j | None => BadBody end
  end.
