(** How the status of a call reaches its caller: over gRPC (grpc-go v1.62.1,
    internal/transport/http_util.go, handler WriteStatus in http2_server.go, operateHeaders in
    http2_client.go, internal/status.NewWithProto) and from there over HTTP (grpc-gateway
    v2.19.0 runtime.DefaultHTTPErrorHandler, ForwardResponseMessage). The statuses are those
    of core/main.go:152-924.

    Simplifications: padded base64 and base64 with line breaks, which the server does not
    write, are errors; of the types of details the gateway knows only BadRequest, the only one
    used (core/main.go:908); limits on the size of headers are left out. *)
From Coq Require Import Ascii String ZArith NArith.
From stdpp Require Import prelude strings gmap.
From Verif.Model Require Import GoStrings Types Wire Proto Handlers JsonMsg HttpStream JsonText JsonBytes ExampleCalls ExampleCycle Details.
Local Open Scope string_scope.
Local Open Scope N_scope.

(** ** The trailer grpc-message *)

(** encodeGrpcMessage: bytes that need no escape. *)
Definition plain_byte (c : ascii) : bool :=
  let n := N_of_ascii c in (32 <=? n) && (n <=? 126) && negb (n =? 37).
Fixpoint all_plain (s : string) : bool :=
  match s with EmptyString => true | String c r => plain_byte c && all_plain r end.
(** fmt "%%%02X". *)
Definition hex_upper (d : N) : ascii := ascii_of_N (if d <? 10 then 48 + d else 55 + d).
Definition percent (c : ascii) : string :=
  let n := N_of_ascii c in String "%" (String (hex_upper (n / 16)) (String (hex_upper (n mod 16)) "")).

(** utf8.DecodeRuneInString: the bytes of the first code point; 0 for RuneError. *)
Definition rune_len (s : string) : nat :=
  match s with
  | EmptyString => 0
  | String c s1 =>
      if in_range 0 127 c then 1
      else match s1 with
      | EmptyString => 0
      | String c1 s2 =>
          if in_range 194 223 c then (if cont_byte c1 then 2 else 0)
          else match s2 with
          | EmptyString => 0
          | String c2 s3 =>
              if in_range 224 239 c then
                if (if in_range 224 224 c then in_range 160 191 c1
                    else if in_range 237 237 c then in_range 128 159 c1
                    else cont_byte c1) && cont_byte c2 then 3 else 0
              else match s3 with
              | EmptyString => 0
              | String c3 _ =>
                  if in_range 240 244 c then
                    if (if in_range 240 240 c then in_range 144 191 c1
                        else if in_range 244 244 c then in_range 128 143 c1
                        else cont_byte c1) && cont_byte c2 && cont_byte c3 then 4 else 0
                  else 0
              end
          end
      end
  end%nat.

(** encodeGrpcMessageUnchecked; [more]: how many bytes of the code point are still to be
    written. string(RuneError) is EF BF BD. *)
Fixpoint encode_runes (more : nat) (s : string) : string :=
  match s with
  | EmptyString => ""
  | String c r =>
      match more with
      | S k => percent c +:+ encode_runes k r
      | O =>
          match rune_len s with
          | O => "%EF%BF%BD" +:+ encode_runes 0 r
          | S O => (if plain_byte c then String c "" else percent c) +:+ encode_runes 0 r
          | S k => percent c +:+ encode_runes k r
          end
      end
  end.
Definition encode_message (s : string) : string := if all_plain s then s else encode_runes 0 s.

(** decodeGrpcMessage (its unchecked variant does the same to texts without escapes). *)
Fixpoint decode_message (s : string) : string :=
  match s with
  | EmptyString => ""
  | String c r =>
      match r with
      | String a (String b r') =>
          if Ascii.eqb c "%" then
            match hex_value (N_of_ascii a), hex_value (N_of_ascii b) with
            | Some x, Some y => String (ascii_of_N (16 * x + y)) (decode_message r')
            | _, _ => String c (decode_message r)
            end
          else String c (decode_message r)
      | _ => String c (decode_message r)
      end
  end.

(** ** Binary trailers *)

(** encodeBinHeader: base64.RawStdEncoding. *)
Definition sextet (n : N) : ascii :=
  ascii_of_N (if n <? 26 then 65 + n else if n <? 52 then 71 + n else if n <? 62 then n - 4 else if n =? 62 then 43 else 47).
Fixpoint encode_bin (s : string) : string :=
  match s with
  | EmptyString => ""
  | String a r =>
      let x := N_of_ascii a in
      match r with
      | EmptyString => String (sextet (x / 4)) (String (sextet (x mod 4 * 16)) "")
      | String b r' =>
          let y := N_of_ascii b in
          match r' with
          | EmptyString =>
              String (sextet (x / 4)) (String (sextet (x mod 4 * 16 + y / 16)) (String (sextet (y mod 16 * 4)) ""))
          | String c r'' =>
              let z := N_of_ascii c in
              String (sextet (x / 4)) (String (sextet (x mod 4 * 16 + y / 16))
                (String (sextet (y mod 16 * 4 + z / 64)) (String (sextet (z mod 64)) (encode_bin r''))))
          end
      end
  end.
(** decodeBinHeader. *)
Definition unsextet (c : ascii) : option N :=
  let n := N_of_ascii c in
  if (65 <=? n) && (n <=? 90) then Some (n - 65)
  else if (97 <=? n) && (n <=? 122) then Some (n - 71)
  else if (48 <=? n) && (n <=? 57) then Some (n + 4)
  else if n =? 43 then Some 62 else if n =? 47 then Some 63 else None.
Fixpoint decode_bin (s : string) : option string :=
  match s with
  | EmptyString => Some ""
  | String c0 (String c1 r) =>
      x ← unsextet c0; y ← unsextet c1;
      let b0 := ascii_of_N (x * 4 + y / 16) in
      match r with
      | EmptyString => Some (String b0 "")
      | String c2 r' =>
          z ← unsextet c2;
          let b1 := ascii_of_N (y mod 16 * 16 + z / 4) in
          match r' with
          | EmptyString => Some (String b0 (String b1 ""))
          | String c3 r'' =>
              w ← unsextet c3; t ← decode_bin r'';
              Some (String b0 (String b1 (String (ascii_of_N (z mod 4 * 64 + w)) t)))
          end
      end
  | _ => None
  end.

(** ** google.rpc.Status: int32 code = 1; string message = 2; repeated Any details = 3 *)
Record status := RpcStatus { st_code : Z; st_msg : string; st_details : list any }.
Definition fields_status (st : status) : list field :=
  f_int 1 (st_code st) ++ f_string 2 (st_msg st) ++ map (λ a, f_msg 3 (fields_any a)) (st_details st).
Definition marshal_status (st : status) : option string :=
  if utf8_valid (st_msg st) && forallb utf8_any (st_details st) then Some (enc_fields (fields_status st)) else None.
Definition status_step (st : status) (f : field) : option status :=
  match f with
  | (1%N, WVar n) => Some (RpcStatus (u64_to_i32 n) (st_msg st) (st_details st))
  | (2%N, WLen s) => if utf8_valid s then Some (RpcStatus (st_code st) s (st_details st)) else None
  | (3%N, WLen s) => a ← unmarshal any_step (Any "" "") s; Some (RpcStatus (st_code st) (st_msg st) (st_details st ++ [a])%list)
  | _ => Some st
  end.

(** ** The trailers of a call *)
Record trailers := Trailers { tl_status : string; tl_message : string; tl_bin : option string }.
(** WriteStatus: a status that cannot be written is only logged. *)
Definition write_status (st : status) : trailers :=
  Trailers (format_Z (st_code st)) (encode_message (st_msg st))
    (match st_details st with [] => None | _ => encode_bin <$> marshal_status st end).

(** strconv.ParseInt(v, 10, 32). *)
Definition parse_code (s : string) : option Z :=
  match parse_int s with
  | PRok z => if ((- 2 ^ 31 <=? z) && (z <? 2 ^ 31))%Z then Some z else None
  | _ => None
  end.
Definition internal : Z := 13%Z.
(** operateHeaders and NewWithProto. The texts of the client's own errors stop at the
    library's error texts. *)
Definition read_status (t : trailers) : status :=
  match parse_code (tl_status t) with
  | None => RpcStatus internal "transport: malformed grpc-status: " []
  | Some code =>
      match tl_bin t with
      | None => RpcStatus code (decode_message (tl_message t)) []
      | Some v =>
          match decode_bin v with
          | None => RpcStatus internal "transport: malformed grpc-status-details-bin: " []
          | Some b =>
              match unmarshal status_step (RpcStatus 0 "" []) b with
              | None => RpcStatus code (decode_message (tl_message t)) []
              | Some st => if (st_code st =? code)%Z then st else RpcStatus internal "grpc-status-details-bin mismatch" []
              end
          end
      end
  end.
(** What a caller over gRPC, the gateway among them, gets. *)
Definition over_grpc (st : status) : status := read_status (write_status st).

(** ** Details *)

(** google.rpc.BadRequest: repeated FieldViolation field_violations = 1, with string field = 1;
    string description = 2. *)
Definition fields_violation (v : string * string) : list field := f_string 1 v.1 ++ f_string 2 v.2.
Definition fields_bad (vs : list (string * string)) : list field := map (λ v, f_msg 1 (fields_violation v)) vs.
Definition violation_step (v : string * string) (f : field) : option (string * string) :=
  match f with
  | (1%N, WLen s) => if utf8_valid s then Some (s, v.2) else None
  | (2%N, WLen s) => if utf8_valid s then Some (v.1, s) else None
  | _ => Some v
  end.
Definition bad_step (vs : list (string * string)) (f : field) : option (list (string * string)) :=
  match f with
  | (1%N, WLen s) => v ← unmarshal violation_step ("", "") s; Some (vs ++ [v])%list
  | _ => Some vs
  end.
Definition bad_request_url : string := "type.googleapis.com/google.rpc.BadRequest".
(** anypb.New. *)
Definition bad_request (vs : list (string * string)) : any := Any bad_request_url (enc_fields (fields_bad vs)).
Definition read_bad_request (a : any) : option (list (string * string)) :=
  if String.eqb (any_url a) bad_request_url then unmarshal bad_step [] (any_value a) else None.

(** core/main.go:902-924, with the status. *)
Definition code_number (c : code) : Z := match c with OK => 0 | InvalidArgument => 3 | Internal => 13 | Unknown => 2 end.
Definition told_status (t : told) : status :=
  RpcStatus (code_number (td_code t))
    (match td_code t with OK => "" | _ => "One or more state update arguments were invalid" end)
    (match td_violations t with [] => [] | vs => [bad_request vs] end).

(** ** The gateway *)
Definition j_violation (v : string * string) : option jv :=
  w_msg [("field", w_text true v.1); ("description", w_text true v.2)].
Definition j_detail (a : any) : option jv :=
  vs ← read_bad_request a; l ← build [("fieldViolations", w_list true j_violation vs)];
  Some (JDict (("@type", JsonMsg.JText (any_url a)) :: l)).
Definition failure_of (st : status) : failure :=
  Failure (Z.to_N (st_code st)) (st_msg st) (mapM j_detail (st_details st)).
(** The text the gateway writes if it cannot write the status. *)
Definition fallback_text : string := "{""code"": 13, ""message"": ""failed to marshal error message""}".
(** The answer to a call with response [resp]. *)
Definition gateway_unary (sp : bool) (st : status) (resp : jv) : http_answer :=
  if (st_code st =? 0)%Z then HAnswer 200 (client_bytes sp resp) false
  else match j_failure (failure_of st) with
       | Some j => HAnswer (http_status (Z.to_N (st_code st))) (client_bytes sp j) false
       | None => HAnswer 500 fallback_text false
       end.
