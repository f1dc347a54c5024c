(** Vocabulary for C145: what the caller of a call that failed gets to know. *)
From Coq Require Import Ascii String ZArith NArith.
From stdpp Require Import prelude strings.
From Verif.Model Require Import GoStrings Types Wire Proto JsonMsg HttpStream JsonText JsonBytes StatusWire.
From Verif.Spec Require Import JsonTextSpec JsonBytesSpec.
Local Open Scope N_scope.

Definition IsUtf8 (s : string) : Prop := ∃ t, Utf8 t (byte_list s).

(** Bytes with each one that does not begin a code point replaced by U+FFFD. *)
Inductive Mended : list N → list N → Prop :=
| Mended_nil : Mended [] []
| Mended_rune r b s t : RuneBytes r b → Mended s t → Mended (b ++ s) (b ++ t)
| Mended_bad c s t : (∀ r b s', RuneBytes r b → c :: s ≠ b ++ s') → Mended s t → Mended (c :: s) ([0xEF; 0xBF; 0xBD] ++ t).

(** What may be the value of a header of HTTP/2 as gRPC uses them: visible characters and
    spaces. *)
Definition HeaderText (s : string) : Prop := Forall (λ n, 32 <= n <= 126) (byte_list s).

(** A status with codes and sizes that protobuf allows. *)
Definition Fits (st : status) : Prop :=
  (0 <= st_code st < 2 ^ 31)%Z ∧ N.of_nat (String.length (enc_fields (fields_status st))) < 2 ^ 64 ∧
  Forall (λ a, IsUtf8 (any_url a)) (st_details st).

(** Violations that can be sent. *)
Definition GoodViolations (vs : list (string * string)) : Prop :=
  Forall (λ v, IsUtf8 v.1 ∧ IsUtf8 v.2) vs.

(** A failed call over HTTP: the members of the body. *)
Definition ViolationJson (v : string * string) : jv :=
  JDict [("field"%string, JsonMsg.JText v.1); ("description"%string, JsonMsg.JText v.2)].
Definition DetailJson (vs : list (string * string)) : jv :=
  JDict [("@type"%string, JsonMsg.JText "type.googleapis.com/google.rpc.BadRequest");
         ("fieldViolations"%string, JList (map ViolationJson vs))].
Definition FailureJson (code : Z) (msg : string) (vss : list (list (string * string))) : jv :=
  JDict [("code"%string, JNum (format_Z code)); ("message"%string, JsonMsg.JText msg);
         ("details"%string, JList (map DetailJson vss))].
(** A body that is the JSON of [v] and nothing else. *)
Definition BodyOf (s : string) (v : jv) : Prop :=
  ∃ t j, Utf8 t (byte_list s) ∧ JsonText t j ∧ JsonBytes.value j = v.

(** The HTTP status for the codes of gRPC (google/rpc/code.proto). *)
Definition HttpCode (code : Z) : Z :=
  match code with
  | 0 => 200 | 1 => 499 | 2 => 500 | 3 => 400 | 4 => 504 | 5 => 404 | 6 => 409 | 7 => 403 | 8 => 429 | 9 => 400
  | 10 => 409 | 11 => 400 | 12 => 501 | 13 => 500 | 14 => 503 | 15 => 500 | 16 => 401 | _ => 500
  end%Z.
