(** C145: what the caller of a call that failed gets to know, over gRPC and over HTTP. *)
From Coq Require Import Ascii String ZArith NArith.
From stdpp Require Import prelude strings gmap.
From Verif.Model Require Import GoStrings Types Wire Proto Handlers JsonMsg HttpStream JsonText JsonBytes ExampleCalls ExampleCycle Details StatusWire.
From Verif.Spec Require Import JsonTextSpec JsonBytesSpec StatusSpec.
From Verif.Proofs Require Import StatusMessage StatusLemmas.
Local Open Scope string_scope.

(** The trailers can be sent whatever the texts in a status are. *)
Theorem C145_trailers : ∀ st, HeaderText (tl_message (write_status st)) ∧ ∀ v, tl_bin (write_status st) = Some v → HeaderText v.
Proof. exact trailers_headers. Qed.
Print Assumptions C145_trailers.

(** A status with a message in UTF-8 reaches the caller as it is. *)
Theorem C145_grpc : ∀ st, Fits st → IsUtf8 (st_msg st) → over_grpc st = st.
Proof. exact grpc_same. Qed.
Print Assumptions C145_grpc.

(** Otherwise the code does, and the message with each bad byte replaced; details are lost. *)
Theorem C145_grpc_bad_text : ∀ st, Fits st → ¬ IsUtf8 (st_msg st) →
  st_code (over_grpc st) = st_code st ∧ st_details (over_grpc st) = [] ∧
  Mended (byte_list (st_msg st)) (byte_list (st_msg (over_grpc st))).
Proof.
  intros st HF Hu. rewrite (grpc_mended st HF Hu). split; [reflexivity|split; [reflexivity|exact (message_mended (st_msg st))]].
Qed.
Print Assumptions C145_grpc_bad_text.
Theorem C145_always_text : ∀ st, Fits st → IsUtf8 (st_msg (over_grpc st)).
Proof. intros st HF. exact (proj1 (grpc_message st HF)). Qed.
Print Assumptions C145_always_text.

(** What other servers may send: details that are no status are as if they were not sent; the code is never taken
    for another that was not sent, unless for the code of internal errors. *)
Theorem C145_unreadable_details : ∀ a m v b, decode_bin v = Some b → unmarshal status_step (RpcStatus 0 "" []) b = None →
  read_status (Trailers a m (Some v)) = read_status (Trailers a m None).
Proof. exact unreadable_details. Qed.
Print Assumptions C145_unreadable_details.
Theorem C145_code_sent : ∀ t c, parse_code (tl_status t) = Some c → st_code (read_status t) = c ∨ st_code (read_status t) = internal.
Proof. exact code_sent. Qed.
Print Assumptions C145_code_sent.
(** A detail whose type is not UTF-8, the byte 0xFF. *)
Example C145_unreadable_example :
  let b := enc_fields [(1%N, WVar 3); (3%N, WLen (enc_fields [(1%N, WLen (String (ascii_of_nat 255) ""))]))] in
  read_status (Trailers "3" "no ticket" (Some (encode_bin b))) = RpcStatus 3 "no ticket" [].
Proof. vm_compute. reflexivity. Qed.

(** Over HTTP the caller gets the same in a JSON object: code, message and violations, with
    the HTTP status for the code. The gateway can write every status it gets. *)
Theorem C145_http : ∀ sp st resp vss, Fits st → st_details st = map bad_request vss → Forall GoodViolations vss → st_code st ≠ 0%Z →
  ∃ body, gateway_unary sp (over_grpc st) resp = HAnswer (HttpCode (st_code st)) body false ∧
    BodyOf body (FailureJson (st_code st) (st_msg (over_grpc st)) (if utf8_valid (st_msg st) then vss else [])).
Proof. exact http_failure. Qed.
Print Assumptions C145_http.
Theorem C145_http_success : ∀ sp st resp, Fits st → st_code st = 0%Z →
  gateway_unary sp (over_grpc st) resp = HAnswer 200 (client_bytes sp resp) false.
Proof. exact http_success. Qed.
Print Assumptions C145_http_success.

(** Hence callers of ActivateTickets and DeactivateTickets get what these calls report, and
    all of it, over gRPC and over HTTP. *)
Theorem C145_activations : ∀ c ids rs sp resp, let t := set_active_told c ids rs in let st := told_status t in Fits st →
  over_grpc st = st ∧
  (td_code t = OK → gateway_unary sp (over_grpc st) resp = HAnswer 200 (client_bytes sp resp) false) ∧
  (td_code t ≠ OK → read_bad_request <$> st_details (over_grpc st) = [Some (td_violations t)] ∧
    ∃ body, gateway_unary sp (over_grpc st) resp = HAnswer 400 body false ∧
      BodyOf body (FailureJson 3 "One or more state update arguments were invalid" [td_violations t])).
Proof. exact told_reaches. Qed.
Print Assumptions C145_activations.

(** Examples: an error of Redis with a byte that is not UTF-8; a failed activation. *)
Definition bad_text : string := "ERR " +:+ bytes [0xFF]%N +:+ " 100%".
Example C145_example_text : encode_message bad_text = "ERR %EF%BF%BD 100%25" ∧ ¬ IsUtf8 bad_text ∧
  gateway_unary false (over_grpc (RpcStatus 2 bad_text [])) (JDict []) =
    HAnswer 500 ("{""code"":2,""message"":""ERR " +:+ bytes [0xEF; 0xBF; 0xBD]%N +:+ " 100%"",""details"":[]}") false.
Proof. split; [reflexivity|]. split; [rewrite is_utf8; vm_compute; discriminate|vm_compute; reflexivity]. Qed.
Definition failed_told : told := set_active_told CmdActivate ["1-0"; "2-0"] [TResp "1-0" None; TResp "2-0" (Some "down")].
Example C145_example_activation : td_code failed_told = InvalidArgument ∧
  over_grpc (told_status failed_told) = told_status failed_told ∧
  gateway_unary false (over_grpc (told_status failed_told)) (JDict []) = HAnswer 400
    "{""code"":3,""message"":""One or more state update arguments were invalid"",""details"":[{""@type"":""type.googleapis.com/google.rpc.BadRequest"",""fieldViolations"":[{""field"":""ticketId/2-0"",""description"":""Unable to update ticket 2-0 state to active : down""}]}]}" false.
Proof. vm_compute. split; [reflexivity|split; reflexivity]. Qed.
Example C145_example_fits : Fits (told_status failed_told) ∧ Fits (RpcStatus 2 bad_text []).
Proof. split; (split; [vm_compute; split; [discriminate|reflexivity]|split; [vm_compute; reflexivity|]]); repeat constructor; apply is_utf8; reflexivity. Qed.
