(** JSON as bytes: from the messages of JsonMsg.v over the texts of HttpStream.v and
    JsonText.v to the UTF-8 that is sent, and back. Bodies of requests
    (core/pkg/api/v2/api.pb.gw.go:35-185) and the stream of matches that the example reads
    (matchmaker-example/main.go:285-318).

    Simplification: the two readers of a body (encoding/json's Decoder for its extent,
    protojson for its content) are one. *)
From Coq Require Import Ascii String ZArith NArith.
From stdpp Require Import prelude strings.
From Verif.Model Require Import Wire JsonMsg HttpStream JsonText.
Local Open Scope N_scope.

(** ** UTF-8 *)

(** utf8.AppendRune. *)
Definition rune_bytes (r : N) : list N :=
  let r := if (r <? 0xd800) || (0xe000 <=? r) && (r <? 0x110000) then r else 0xfffd in
  if r <? 128 then [r]
  else if r <? 2048 then [192 + r / 64; 128 + r mod 64]
  else if r <? 65536 then [224 + r / 4096; 128 + (r / 64) mod 64; 128 + r mod 64]
  else [240 + r / 262144; 128 + (r / 4096) mod 64; 128 + (r / 64) mod 64; 128 + r mod 64].
Definition bytes (l : list N) : string := string_of_list_ascii (map ascii_of_N l).
Definition utf8_enc (t : text) : string := bytes (concat (map rune_bytes t)).

(** utf8.DecodeRuneInString over and over: the code points up to the first byte that is not
    UTF-8, and whether there was none. *)
Definition tail_bits (c : ascii) : N := N_of_ascii c - 128.
Definition rune_then (r : N) (x : text * bool) : text * bool := (r :: x.1, x.2).
Fixpoint utf8_dec (s : string) : text * bool :=
  match s with
  | EmptyString => ([], true)
  | String c s1 =>
      if in_range 0 127 c then rune_then (N_of_ascii c) (utf8_dec s1)
      else match s1 with
      | EmptyString => ([], false)
      | String c1 s2 =>
          if in_range 194 223 c then
            if cont_byte c1 then rune_then ((N_of_ascii c - 192) * 64 + tail_bits c1) (utf8_dec s2) else ([], false)
          else match s2 with
          | EmptyString => ([], false)
          | String c2 s3 =>
              if in_range 224 239 c then
                if (if in_range 224 224 c then in_range 160 191 c1
                    else if in_range 237 237 c then in_range 128 159 c1
                    else cont_byte c1) && cont_byte c2
                then rune_then ((N_of_ascii c - 224) * 4096 + tail_bits c1 * 64 + tail_bits c2) (utf8_dec s3)
                else ([], false)
              else match s3 with
              | EmptyString => ([], false)
              | String c3 s4 =>
                  if in_range 240 244 c then
                    if (if in_range 240 240 c then in_range 144 191 c1
                        else if in_range 244 244 c then in_range 128 143 c1
                        else cont_byte c1) && cont_byte c2 && cont_byte c3
                    then rune_then ((N_of_ascii c - 240) * 262144 + tail_bits c1 * 4096 + tail_bits c2 * 64 + tail_bits c3) (utf8_dec s4)
                    else ([], false)
                  else ([], false)
              end
          end
      end
  end.

(** ** Trees *)
Definition runes (s : string) : text := (utf8_dec s).1.
Definition null_text : text := [110; 117; 108; 108].
Definition true_text : text := [116; 114; 117; 101].
Definition false_text : text := [102; 97; 108; 115; 101].
Fixpoint tree (v : jv) : json :=
  match v with
  | JNull => JRaw null_text
  | JBool b => JRaw (if b then true_text else false_text)
  | JNum t => JRaw (runes t)
  | JsonMsg.JText s => JStr (runes s)
  | JList l => JArr (map tree l)
  | JDict l => JObj (map (λ kv, (runes kv.1, tree kv.2)) l)
  end.
Fixpoint value (j : json) : jv :=
  match j with
  | JRaw t =>
      if bool_decide (t = null_text) then JNull
      else if bool_decide (t = true_text) then JBool true
      else if bool_decide (t = false_text) then JBool false
      else JNum (utf8_enc t)
  | JStr t => JsonMsg.JText (utf8_enc t)
  | JArr l => JList (map value l)
  | JObj l => JDict (map (λ kv, (utf8_enc kv.1, value kv.2)) l)
  end.

(** ** Requests *)

(** protojson.Marshal, in the example and in the mock frontend. *)
Definition client_bytes (sp : bool) (v : jv) : string := utf8_enc (print sp (tree v)).
(** The gateway. A byte that is not UTF-8 is an error if the Decoder comes to it. *)
Definition gateway_bytes {M} (read : jv → option M) (empty : M) (s : string) : option M :=
  let '(t, whole) := utf8_dec s in
  match read_body t with
  | NoBody => if whole then Some empty else None
  | Body j => read (value j)
  | BadBody => None
  end.

(** ** Streams *)
Definition stream_bytes (sp : bool) (vs : list jv) : string :=
  utf8_enc (stream_of (map (λ v, sent_text sp (tree v)) vs)).
(** The example: what protojson.Unmarshal makes of each line; [None] if it is only logged. *)
Definition example_result {M} (read : jv → option M) (s : string) : option (list (option M)) :=
  match example_reads (runes s) with
  | ReadAll ts => Some (map (λ t, j ← read_text t; read (value j)) ts)
  | _ => None
  end.
