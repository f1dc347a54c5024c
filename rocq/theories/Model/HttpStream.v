(** The matches of an invocation on their way over HTTP: how the gateway writes the
    stream (grpc-gateway v2.19.0 runtime.ForwardResponseStream and JSONPb, protobuf
    v1.33.0 protojson in one-line form, encoding/json's compaction) and how the example
    reads it (matchmaker-example/main.go:285-313 with Go's fmt.Fscanf).

    Texts are lists of code points. Simplifications: a JSON value is given as a tree
    (numbers as their text); which fields a message has is left to the caller; invalid
    UTF-8, which protojson refuses, does not occur. *)
From Coq Require Import ZArith NArith.
From stdpp Require Import prelude.
Local Open Scope N_scope.

Definition text := list N.

(** ** JSON, as protojson writes it *)
Inductive json :=
| JRaw (t : text)                    (* numbers, true, false, null *)
| JStr (t : text)
| JArr (l : list json)
| JObj (l : list (text * json)).

(** One hexadecimal digit. *)
Definition hex_digit (d : N) : N := if d <? 10 then 48 + d else 87 + d.

(** appendString of protobuf's internal/encoding/json/encode.go, one code point. *)
Definition escape (r : N) : text :=
  if (r =? 34) || (r =? 92) then [92; r]
  else if r =? 8 then [92; 98]
  else if r =? 12 then [92; 102]
  else if r =? 10 then [92; 110]
  else if r =? 13 then [92; 114]
  else if r =? 9 then [92; 116]
  else if r <? 32 then [92; 117; 48; 48; hex_digit (r / 16); hex_digit (r mod 16)]
  else [r].
Definition quoted (t : text) : text := 34 :: concat (map escape t) ++ [34].

(** prepareNext: a comma, followed by a space in some builds ([sp], detrand.Bool). *)
Definition comma (sp : bool) : text := if sp then [44; 32] else [44].

Fixpoint joined (sp : bool) (ts : list text) : text :=
  match ts with
  | [] => []
  | [t] => t
  | t :: ts' => t ++ comma sp ++ joined sp ts'
  end.

Fixpoint print (sp : bool) (j : json) : text :=
  match j with
  | JRaw t => t
  | JStr t => quoted t
  | JArr l => 91 :: joined sp (map (print sp) l) ++ [93]
  | JObj l => 123 :: joined sp (map (λ kv, quoted kv.1 ++ 58 :: print sp kv.2) l) ++ [125]
  end.

(** ForwardResponseStream hands a Go map with the message to JSONPb.Marshal, whose
    marshalNonProtoField turns the message's JSON into a json.RawMessage and calls
    encoding/json's Marshal. That runs appendCompact with escapeHTML on the text: white
    space between tokens is removed, and <, >, &, U+2028 and U+2029 are escaped. *)
Definition json_space (r : N) : bool := (r =? 32) || (r =? 9) || (r =? 13) || (r =? 10).
Definition html_escape (r : N) : text :=
  if (r =? 60) || (r =? 62) || (r =? 38) then [92; 117; 48; 48; hex_digit (r / 16); hex_digit (r mod 16)]
  else if (r =? 0x2028) || (r =? 0x2029) then [92; 117; 50; 48; 50; hex_digit (r mod 16)]
  else [r].

(** [ins]: inside a string; [esc]: after a backslash in one. *)
Fixpoint compact (ins esc : bool) (t : text) : text :=
  match t with
  | [] => []
  | r :: t' =>
      if ins then html_escape r ++ compact (esc || negb (r =? 34)) (negb esc && (r =? 92)) t'
      else if json_space r then compact false false t'
      else html_escape r ++ compact (r =? 34) false t'
  end.

(** What is sent for a message. *)
Definition sent_text (sp : bool) (j : json) : text := compact false false (print sp j).

(** ForwardResponseStream: each message is the value of "result" in an object of its
    own, followed by a newline. *)
Definition result_open : text := [123; 34; 114; 101; 115; 117; 108; 116; 34; 58].
Definition result_line (t : text) : text := result_open ++ t ++ [125].
Definition stream_of (ts : list text) : text := concat (map (λ t, result_line t ++ [10]) ts).

(** ** fmt.Fscanf(r, "%s\n", &msg) *)

(** isSpace of fmt/scan.go. *)
Definition is_space (r : N) : bool :=
  existsb (λ ab, (ab.1 <=? r) && (r <=? ab.2))
    [(0x9, 0xd); (0x20, 0x20); (0x85, 0x85); (0xa0, 0xa0); (0x1680, 0x1680); (0x2000, 0x200a);
     (0x2028, 0x2029); (0x202f, 0x202f); (0x205f, 0x205f); (0x3000, 0x3000)].

(** SkipSpace: [None] for "unexpected newline"; a carriage return before a newline is
    skipped, but not the newline. *)
Fixpoint skip_space (t : text) : option text :=
  match t with
  | [] => Some []
  | r :: t' => if r =? 10 then None else if is_space r then skip_space t' else Some t
  end.

(** The token: everything up to a space. *)
Fixpoint token (t : text) : text * text :=
  match t with
  | [] => ([], [])
  | r :: t' => if is_space r then ([], t) else let '(a, b) := token t' in (r :: a, b)
  end.

(** The newline in the format: spaces, then a newline or the end. *)
Fixpoint match_newline (t : text) : option text :=
  match t with
  | [] => Some []
  | r :: t' => if r =? 10 then Some t' else if is_space r then match_newline t' else None
  end.

Inductive scanned := ScanEOF | ScanErr | Scanned (msg rest : text).
Definition scan_line (t : text) : scanned :=
  match skip_space t with
  | None => ScanErr
  | Some [] => ScanEOF
  | Some t1 =>
      let '(msg, t2) := token t1 in
      match match_newline t2 with None => ScanErr | Some t3 => Scanned msg t3 end
  end.

(** ** The loop, main.go:288-313 *)

(** [ReadAll]: the texts handed to protojson.Unmarshal; [ReadFatal]: log.Fatalf ends the
    process after these; [ReadPanics]: the slice :312 is out of range. *)
Inductive read_result := ReadAll (ts : list text) | ReadFatal (ts : list text) | ReadPanics.

Definition trim (msg : text) : option text :=
  if (length msg <? 11)%nat then None else Some (take (length msg - 11) (drop 10 msg)).

Fixpoint read_stream (fuel : nat) (t : text) (got : list text) : read_result :=
  match fuel with
  | O => ReadFatal got
  | S fuel =>
      match scan_line t with
      | ScanEOF => ReadAll got
      | ScanErr => ReadFatal got
      | Scanned msg rest =>
          match trim msg with
          | None => ReadPanics
          | Some x => read_stream fuel rest (got ++ [x])
          end
      end
  end.
(** Every message takes at least one code point off the stream. *)
Definition example_reads (t : text) : read_result := read_stream (S (length t)) t [].
