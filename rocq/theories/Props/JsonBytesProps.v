(** Property theorems about requests and matches as bytes: C138. *)
From Coq Require Import Ascii String ZArith NArith Lia.
From stdpp Require Import prelude strings gmap countable.
From Verif.Model Require Import GoStrings Types Wire Proto ProtoMsg JsonMsg HttpStream JsonText JsonBytes.
From Verif.Spec Require Import JsonSpec HttpSpec JsonTextSpec JsonBytesSpec.
From Verif.Proofs Require Import StringLemmas JsonLemmas JsonWitness JsonTextLemmas Utf8TextLemmas JsonBytesLemmas.
Local Open Scope string_scope.
Local Open Scope list_scope.

(** C138: what a client writes for a request, byte for byte, is read by the gateway as that
    request, for every request of the API, in either spelling of protojson, with or without
    empty fields and whatever follows the body. (The conditions are those of C118: types of
    extensions that both know, UTF-8, times in range.) *)
Theorem C138_requests_as_bytes : ∀ c d eu, Agree c d → WritesJson c →
  (∀ t, AllOpt (AllTicket (kept c d)) t →
    ∃ v, j_create c eu t = Some v ∧ ∀ sp rest, gateway_bytes (r_create d) None (client_bytes sp v +:+ rest) = Some t) ∧
  (∀ ids, AllList (λ s, utf8_valid s = true) ids →
    ∃ v, j_ids eu ids = Some v ∧ ∀ sp rest, gateway_bytes r_ids [] (client_bytes sp v +:+ rest) = Some ids) ∧
  (∀ r, AllRequest (kept c d) r → AllList PlainType (rq_mmfs r) →
    ∃ v, j_request c eu r = Some v ∧ ∀ sp rest, gateway_bytes (r_request d) (Request None []) (client_bytes sp v +:+ rest) = Some r) ∧
  (∀ r, AllOpt (AllRoster (kept c d)) r →
    ∃ v, j_assign c eu r = Some v ∧ ∀ sp rest, gateway_bytes (r_assign d) None (client_bytes sp v +:+ rest) = Some r).
Proof. exact requests_as_bytes. Qed.
Print Assumptions C138_requests_as_bytes.

(** The gateway takes bytes as a request exactly if they are white space, for the empty
    request, or begin with the UTF-8 of a JSON text that stands for one. *)
Theorem C138_accepted_exactly : ∀ M (read : jv → option M) empty s m, ObjectsOnly read →
  gateway_bytes read empty s = Some m ↔
  m = empty ∧ (∃ t, Utf8 t (byte_list s) ∧ Ws t) ∨ ∃ j, BeginsWith s j ∧ read (value j) = Some m.
Proof. exact @accepted. Qed.
Print Assumptions C138_accepted_exactly.
Theorem C138_api_takes_objects : ∀ c, ObjectsOnly (r_create c) ∧ ObjectsOnly r_ids ∧ ObjectsOnly (r_request c) ∧ ObjectsOnly (r_assign c).
Proof. exact api_readers. Qed.
Print Assumptions C138_api_takes_objects.

(** Matches on their way back: the example gets each of them as it was sent, or, as
    soon as a text has a space, ends. *)
Theorem C138_matches_as_bytes : ∀ c d sp ms, Agree c d → WritesJson c → Forall (AllOpt (AllMatch (kept c d))) ms →
  ∃ vs, mapM (j_result c true) ms = Some vs ∧
    (Forall NoSpaces vs → example_result (r_result d) (stream_bytes sp vs) = Some (map Some ms)).
Proof.
  intros c d sp ms HA HC HM. destruct (stream_all_writable c d ms HA HM) as [vs E]. exists vs. split; [exact E|].
  exact (stream_as_bytes c d sp ms vs HA HC HM E).
Qed.
Print Assumptions C138_matches_as_bytes.
Theorem C138_space_ends_example : ∀ c d sp ms1 m ms2 vs1 v vs2, WritesJson c →
  mapM (j_result c true) ms1 = Some vs1 → j_result c true m = Some v → mapM (j_result c true) ms2 = Some vs2 →
  Forall NoSpaces vs1 → (∃ s, TextIn s v ∧ SpaceInText s) →
  example_result (r_result d) (stream_bytes sp (vs1 ++ v :: vs2)) = None.
Proof. exact stream_stops. Qed.
Print Assumptions C138_space_ends_example.

(** The UTF-8 of the model is that of the Unicode standard: the check that protobuf makes
    succeeds exactly if the bytes are the UTF-8 of a text, and then of one text only. *)
Theorem C138_utf8 : ∀ s t, Utf8 t (byte_list s) ↔ utf8_valid s = true ∧ t = runes s.
Proof. exact utf8_iff. Qed.
Print Assumptions C138_utf8.
Theorem C138_utf8_written : ∀ t, Forall Rune t → Utf8 t (byte_list (utf8_enc t)).
Proof.
  intros t Ht. apply utf8_iff. split; [exact (enc_valid t Ht)|]. unfold runes. rewrite (dec_enc_whole t Ht). reflexivity.
Qed.
Print Assumptions C138_utf8_written.

(** A concrete codec: doubles are written as decimal numbers, and a type with a text. *)
Definition text_type : embedded := Embedded (λ v, if utf8_valid v then Some [("value", JText v)] else None)
  (λ l, match l with [(_, JText v)] => Some v | _ => None end).
Definition text_url : string := "type.googleapis.com/game.Text".
Definition types (u : string) : option embedded := if String.eqb u text_url then Some text_type else None.
Definition dec_codec : codec := Codec (λ x, format_Z (Z.of_N x)) (λ s, Some (dv 0 s)) (jc_int_read (bin_codec types))
  (jc_time (bin_codec types)) (jc_time_read (bin_codec types)) types true.
Lemma bits_ascii p : utf8_valid (bits p) = true.
Proof. induction p as [p IH|p IH|]; cbn; done. Qed.
Lemma dec_codec_ok : Agree dec_codec dec_codec ∧ WritesJson dec_codec.
Proof.
  destruct (bin_agree types types) as (H1 & _ & H3). split; [split; [exact H1|split; [|exact H3]]|split; [|split]].
  - intros x z _ _. cbn [jc_dbl jc_dbl_read dec_codec]. rewrite format_Z_nonneg by lia. rewrite N2Z.id, dv_format_N. reflexivity.
  - intros x z _. apply format_number.
  - intros t _. apply bits_ascii.
  - intros url e v l He Hw. cbn [jc_types dec_codec] in He. unfold types in He. destruct (String.eqb url text_url); [|done]. injection He as <-.
    cbn [em_write text_type] in Hw. destruct (utf8_valid v) eqn:Ev; [|done]. injection Hw as <-. constructor.
    intros k x Hx. apply elem_of_list_singleton in Hx as [= -> ->]. split; [reflexivity|]. constructor. exact Ev.
Qed.

Definition some_ticket : option ticket := Some (Ticket "t""1" (Some (Timestamp 5 7))
  (Some (Filterable ["ä b"; "<"] {["s" := "x"]} {["d" := 0x4000000000000000%N]} None)) {["e" := Any text_url "日"]}).
Definition some_match (id : string) : option match_ := Some (Match id ∅ {["e" := Any text_url "日本"]}).
Example C138_example :
  (∃ v, j_create dec_codec true some_ticket = Some v ∧
    client_bytes true v = "{""ticket"":{""id"":""t\""1"", ""expirationTime"":""" +:+ jc_time dec_codec (Timestamp 5 7) +:+
      """, ""attributes"":{""tags"":[""ä b"", ""<""], ""stringArgs"":{""s"":""x""}, ""doubleArgs"":{""d"":4611686018427387904}, ""creationTime"":null}, " +:+
      """extensions"":{""e"":{""@type"":""type.googleapis.com/game.Text"", ""value"":""日""}}}}" ∧
    gateway_bytes (r_create dec_codec) None (client_bytes true v +:+ "}?") = Some some_ticket) ∧
  gateway_bytes r_ids [] "{""ticketIds"":[""a"",""ä""]}" = Some ["a"; "ä"] ∧
  gateway_bytes r_ids [] "{""ticketIds"":[""a""" = None ∧
  gateway_bytes r_ids [] (String (ascii_of_N 255) "") = None ∧ gateway_bytes r_ids [] "" = Some [] ∧
  gateway_bytes r_ids [] ("{}" +:+ String (ascii_of_N 255) "") = Some [] ∧
  (∃ vs, mapM (j_result dec_codec true) [some_match "m1"; some_match "ä"] = Some vs ∧
    example_result (r_result dec_codec) (stream_bytes true vs) = Some [Some (some_match "m1"); Some (some_match "ä")]) ∧
  (∃ vs, mapM (j_result dec_codec true) [some_match "m 1"] = Some vs ∧
    example_result (r_result dec_codec) (stream_bytes true vs) = None) ∧
  byte_list (utf8_enc [0x41; 0xe4; 0x20ac; 0x1f600]%N) = [0x41; 0xc3; 0xa4; 0xe2; 0x82; 0xac; 0xf0; 0x9f; 0x98; 0x80]%N.
Proof.
  split; [eexists; split; [vm_compute; reflexivity|]; split; vm_compute; reflexivity|].
  do 5 (split; [vm_compute; reflexivity|]).
  split; [eexists; split; [vm_compute; reflexivity|vm_compute; reflexivity]|].
  split; [eexists; split; [vm_compute; reflexivity|vm_compute; reflexivity]|]. vm_compute. reflexivity.
Qed.
