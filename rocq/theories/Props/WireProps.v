(** Property theorems about texts and messages on the wire: C109-C111. *)
From Coq Require Import Ascii String ZArith NArith Lia.
From stdpp Require Import prelude strings gmap.
From Verif.Model Require Import GoStrings Types Filter Wire Proto Chunk Cache ProtoMsg.
From Verif.Spec Require Import Utf8Spec HandlerSpec ChunkSpec.
From Verif.Proofs Require Import ProtoLemmas Utf8Lemmas ProtoMsgLemmas ProtoMsgMore.
Local Open Scope string_scope.
Local Open Scope list_scope.

(** C109: a text is accepted exactly if it is UTF-8, i.e. the encoding of a
    sequence of Unicode scalar values. *)
Theorem C109_accepted_text_is_utf8 : ∀ s, utf8_valid s = true ↔ Utf8Text s.
Proof. exact utf8_valid_iff. Qed.
Print Assumptions C109_accepted_text_is_utf8.

(** C109: every ticket that gRPC decoded from a request satisfies what C06 and the
    theorems built on it assume about a client's ticket. *)
Theorem C109_received_tickets_are_storable : ∀ s t,
  unmarshal_ticket_err s = Some t → ClientTicketOk t.
Proof. exact ticket_decoded_client. Qed.
Print Assumptions C109_received_tickets_are_storable.

Definition bytes : list N → string := string_of_bytes.
(** The first and the last code points of each length, and a string after one. *)
Example C109_example :
  (∀ c, c ∈ [0x7F; 0x80; 0x7FF; 0x800; 0xD7FF; 0xE000; 0xFFFF; 0x10000; 0x10FFFF]%N →
     utf8_valid (bytes (char_bytes c) +:+ "x") = true ∧ Utf8Text (bytes (char_bytes c) +:+ "x")) ∧
  (* overlong forms, a surrogate, a value past the last one, a cut-off character *)
  (∀ l, l ∈ [[0xC0; 0x80]; [0xC1; 0xBF]; [0xE0; 0x9F; 0xBF]; [0xED; 0xA0; 0x80]; [0xF0; 0x8F; 0xBF; 0xBF];
             [0xF4; 0x90; 0x80; 0x80]; [0xF5; 0x80; 0x80; 0x80]; [0xE2; 0x82]; [0x80]; [0xFF]]%N →
     utf8_valid (bytes l) = false ∧ ¬ Utf8Text (bytes l)).
Proof.
  split.
  - intros c Hc. rewrite <-utf8_valid_iff.
    assert (Forall (λ c, utf8_valid (bytes (char_bytes c) +:+ "x") = true)
      [0x7F; 0x80; 0x7FF; 0x800; 0xD7FF; 0xE000; 0xFFFF; 0x10000; 0x10FFFF]%N) as H
      by (repeat constructor; vm_compute; reflexivity).
    rewrite Forall_forall in H. split; apply H; exact Hc.
  - intros l Hl. rewrite <-utf8_valid_iff.
    assert (Forall (λ l, utf8_valid (bytes l) = false)
      [[0xC0; 0x80]; [0xC1; 0xBF]; [0xE0; 0x9F; 0xBF]; [0xED; 0xA0; 0x80]; [0xF0; 0x8F; 0xBF; 0xBF];
       [0xF4; 0x90; 0x80; 0x80]; [0xF5; 0x80; 0x80; 0x80]; [0xE2; 0x82]; [0x80]; [0xFF]]%N) as H
      by (repeat constructor; vm_compute; reflexivity).
    rewrite Forall_forall in H. specialize (H l Hl). split; [exact H|]. rewrite H. discriminate.
Qed.

(** C110: what is decoded is what was encoded, in whatever order Go writes the
    maps: the request of a matchmaker, a chunk for a function, and the message
    with a function's match. The [_wf] conditions say that numbers are in range
    for their Go types. *)
Theorem C110_requests_arrive : ∀ r s,
  request_wf r → marshals_request r s → (slen s < 2 ^ 64)%N → unmarshal_request s = Some r.
Proof. exact rt_request. Qed.
Print Assumptions C110_requests_arrive.

Theorem C110_chunks_arrive : ∀ c s,
  chunk_wf c → marshals_chunk c s → (slen s < 2 ^ 64)%N →
  unmarshal_chunk s = Some (Some (ch_profile c), ch_num c).
Proof. exact rt_chunk. Qed.
Print Assumptions C110_chunks_arrive.

Theorem C110_matches_arrive : ∀ m s,
  good_opt match_wf m → marshals_result m s → (slen s < 2 ^ 64)%N → unmarshal_result s = Some m.
Proof. exact rt_result. Qed.
Print Assumptions C110_matches_arrive.

(** C110: the bytes of a chunk are as many as proto.Size says, for every order
    of the maps. *)
Theorem C110_chunk_bytes : ∀ c s,
  marshals_chunk c s → Z.of_nat (String.length s) = chunk_size c.
Proof. exact chunk_bytes_size. Qed.
Print Assumptions C110_chunk_bytes.

(** C111: whatever bytes a function sends, if om-core can read a match out of
    them then it can send it on, and the matchmaker reads the same match. *)
Theorem C111_matches_passed_on : ∀ s m, unmarshal_result s = Some m →
  (∃ s', marshals_result m s') ∧
  ∀ s', marshals_result m s' → (slen s' < 2 ^ 64)%N → unmarshal_result s' = Some m.
Proof. exact result_forwarded. Qed.
Print Assumptions C111_matches_passed_on.

(** C111: whatever bytes a matchmaker sent and replicas received, every chunk
    built from them can be encoded, and the function decodes exactly it. *)
Theorem C111_chunks_passed_on : ∀ s r p ts cs c,
  unmarshal_request s = Some r → rq_profile r = Some p →
  NamesFit p ts → Forall cached ts.*1 → build_requests p ts = Done cs → c ∈ cs →
  (∃ b, marshals_chunk c b) ∧
  ∀ b, marshals_chunk c b → (slen b < 2 ^ 64)%N →
    unmarshal_chunk b = Some (Some (ch_profile c), ch_num c).
Proof. exact chunks_sent. Qed.
Print Assumptions C111_chunks_passed_on.

(** A request with every kind of filter, among them one with the bound -0. *)
Definition wire_pool : pool :=
  Pool "north" ["tag"; ""] [("mode", "duel"); ("", "x")]
    [DoubleFilter "mmr" 0x8000000000000000%N 0x4024000000000000%N 2%Z; DoubleFilter "" 0%N 0%N (-1)%Z]
    (Some (TimeFilter (Some (Timestamp (-5) 7)) (Some (Timestamp 0 0)) 3%Z)) None {["e" := Any "u" "v"]}.
Definition wire_profile : profile :=
  Profile "p" {["a" := wire_pool; "" := empty_pool]} {["x" := Any "" "y"; "z" := Any "w" ""]}.
Definition wire_request : request :=
  Request (Some wire_profile)
    [MmfSpec "f" "host" 8080%Z MMF_GRPC; MmfSpec "" "" (-1)%Z MMF_REST; MmfSpec "g" "h" 0%Z (MMF_OTHER 7%Z)].
Definition wire_bytes : string :=
  enc_fields (f_opt 1 fields_profile (Some wire_profile) ++
              map (λ f, f_msg 2 (fields_spec f)) (rq_mmfs wire_request)).
Definition wire_match : match_ :=
  Match "m-1" {["north" := Roster "r" (Some (Assignment "10.0.0.1:7" {["k" := Any "u" "v"]}))
                  [Ticket "1-0" (Some (Timestamp 9 9))
                     (Some (Filterable ["t"] {["s" := ""]} {["d" := 0x8000000000000000%N]} None)) ∅;
                   empty_ticket] ∅; "south" := empty_roster]} {["score" := Any "u" "s"]}.
Definition wire_result : string := enc_fields (f_opt 1 fields_match (Some wire_match)).

Global Instance mmf_type_dec : EqDecision mmf_type.
Proof. solve_decision. Defined.
Global Instance mmf_spec_dec : EqDecision mmf_spec.
Proof. solve_decision. Defined.
Global Instance request_dec : EqDecision request.
Proof. solve_decision. Defined.

Example C110_example :
  marshals_request wire_request wire_bytes ∧ request_wf wire_request ∧
  unmarshal_request wire_bytes = Some wire_request ∧
  marshals_result (Some wire_match) wire_result ∧
  unmarshal_result wire_result = Some (Some wire_match) ∧
  (* a later field wins, an unknown one is skipped, a missing match is nil *)
  unmarshal_result (enc_fields [f_msg 1 [(1%N, WLen "a"); (9%N, WVar 5%N); (1%N, WLen "b")]]) =
    Some (Some (Match "b" ∅ ∅)) ∧
  unmarshal_result "" = Some None ∧
  (* not UTF-8: the message is refused *)
  unmarshal_result (enc_fields [f_msg 1 [(1%N, WLen (bytes [0xC0; 0x80]%N))]]) = None.
Proof.
  assert (Hr : unmarshal_request wire_bytes = Some wire_request)
    by (refine (bool_decide_eq_true_1 _ _); vm_compute; reflexivity).
  assert (Hm : unmarshal_result wire_result = Some (Some wire_match))
    by (refine (bool_decide_eq_true_1 _ _); vm_compute; reflexivity).
  destruct (good_request_ok _ (request_decoded _ _ Hr)) as [Hw Hu].
  split_and!.
  - split; [exact Hu|]. eexists. split; [|reflexivity].
    eexists. split; [apply canon_opt, canon_profile|reflexivity].
  - exact Hw.
  - exact Hr.
  - split; [vm_compute; reflexivity|]. exists (f_opt 1 fields_match (Some wire_match)). split; [|reflexivity].
    apply canon_opt, canon_match.
  - exact Hm.
  - refine (bool_decide_eq_true_1 _ _); vm_compute; reflexivity.
  - refine (bool_decide_eq_true_1 _ _); vm_compute; reflexivity.
  - refine (bool_decide_eq_true_1 _ _); vm_compute; reflexivity.
Qed.

(** A request with one pool without filters; a ticket whose bytes cannot be read
    is stored without attributes and is passed on too. *)
Definition wire_visits : list (ticket * list string) :=
  [(stored_ticket "1-0" (enc_fields (fields_ticket_c
      (Ticket "" None (Some (Filterable [] ∅ ∅ (Some (Timestamp 5 0)))) ∅))), [""]);
   (stored_ticket "2-0" (bytes [0xFF]%N), [""])].
Definition open_request : string := enc_fields (f_opt 1 fields_profile (Some (Profile "p" {["" := empty_pool]} ∅))).
Example C111_example :
  unmarshal_request open_request = Some (Request (Some (Profile "p" {["" := empty_pool]} ∅)) []) ∧
  Forall cached wire_visits.*1 ∧ NamesFit (Profile "p" {["" := empty_pool]} ∅) wire_visits ∧
  ∃ c b, build_requests (Profile "p" {["" := empty_pool]} ∅) wire_visits = Done [c] ∧
    b = enc_fields (fields_chunk c) ∧ unmarshal_chunk b = Some (Some (ch_profile c), 1%Z) ∧
    map tk_id (match pr_pools (ch_profile c) !! "" with
               | Some q => match po_participants q with Some r => ro_tickets r | None => [] end
               | None => [] end) = ["1-0"; "2-0"].
Proof.
  split; [refine (bool_decide_eq_true_1 _ _); vm_compute; reflexivity|]. split.
  { repeat constructor; eexists _, _; (split; [|reflexivity]); reflexivity. }
  split.
  { assert (Hv : (map_to_list (valid_pools (Profile "p" {["" := empty_pool]} ∅))).*1 = [""])
      by (vm_compute; reflexivity).
    intros t ns Hin. unfold pool_order. rewrite Hv. unfold wire_visits in Hin.
    apply elem_of_cons in Hin as [[= _ ->]|Hin]; [done|].
    apply elem_of_list_singleton in Hin as [= _ ->]. done. }
  eexists (chunk_request (Profile "p" {["" := empty_pool]} ∅) 1 {["" := wire_visits.*1]}), _.
  split_and!; [|reflexivity| |].
  - refine (bool_decide_eq_true_1 _ _); vm_compute; reflexivity.
  - refine (bool_decide_eq_true_1 _ _); vm_compute; reflexivity.
  - vm_compute. reflexivity.
Qed.
