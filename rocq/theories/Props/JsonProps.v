(** Property theorems about the API over HTTP: C118 and C119. *)
From Coq Require Import Ascii String ZArith NArith Lia.
From stdpp Require Import prelude strings gmap.
From Verif.Model Require Import GoStrings Types Wire Proto ProtoMsg JsonMsg.
From Verif.Spec Require Import JsonSpec.
From Verif.Proofs Require Import JsonLemmas JsonWitness.
Local Open Scope string_scope.
Local Open Scope list_scope.

(** C118. Full claim: every ticket that can be sent over gRPC can be sent over HTTP,
    whatever the gateway knows about the types of its extensions. *)
Definition C118_every_ticket_over_http : Prop := ∀ c d t, Agree c d → AllTicket over_grpc t →
  ∃ j, gateway_request (r_create d) None (Some j) = Some (Some t).

Definition score_url : string := "type.googleapis.com/game.Score".
(** A type whose value is written as a text. *)
Definition plain_type : embedded := Embedded (λ v, Some [("value", JText v)])
  (λ l, match l with [(_, JText v)] => Some v | _ => None end).
Definition knows_nothing : codec := bin_codec (λ _, None).
Definition knows_score : codec := bin_codec (λ u, if String.eqb u score_url then Some plain_type else None).
Definition scored_ticket : ticket := Ticket "t1" (Some (Timestamp 5 7)) (Some (Filterable ["a"] {["s" := "x"]} {["d" := 0x4000000000000000%N]} None))
  {["score" := Any score_url "12"]}.

Lemma scored_ticket_grpc : AllTicket over_grpc scored_ticket.
Proof.
  unfold AllTicket, scored_ticket. cbn [tk_id tk_exp tk_attrs tk_ext]. split_and!.
  - reflexivity.
  - intros t [= <-]. reflexivity.
  - intros x [= <-]. unfold AllFilterable. cbn [fd_tags fd_strings fd_doubles fd_ctime]. split_and!.
    + intros a ->%elem_of_list_singleton. reflexivity.
    + intros k a [<- <-]%lookup_singleton_Some. split; reflexivity.
    + intros k a [<- <-]%lookup_singleton_Some. split; [reflexivity|]. split; [reflexivity|]. intros H. vm_compute in H. discriminate H.
    + intros a [=].
  - intros k a [<- <-]%lookup_singleton_Some. split; reflexivity.
Qed.

(** It is false: no body whatsoever stands for a ticket with an extension of a type that
    the gateway was not linked with. *)
Theorem C118_every_ticket_over_http_refuted : ¬ C118_every_ticket_over_http.
Proof.
  intros H. destruct (H knows_score knows_nothing scored_ticket (bin_agree _ _) scored_ticket_grpc) as [j Hj].
  destruct (r_create_inv _ _ _ Hj _ eq_refl) as (_ & _ & _ & He).
  destruct (He "score" (Any score_url "12") (lookup_singleton _ _)) as [_ [[Hu _]|(_ & e & l & He' & _)]]; discriminate.
Qed.
Print Assumptions C118_every_ticket_over_http_refuted.

(** The strongest true version. What a client writes, the gateway reads as the same
    message, provided that both know the types of the extensions (and texts are UTF-8,
    times are in range). This holds of every request of the API, whether or
    not the client leaves out empty fields. *)
Theorem C118_same_request_partial : ∀ c d eu, Agree c d →
  (∀ t, AllOpt (AllTicket (kept c d)) t →
    ∃ j, j_create c eu t = Some j ∧ gateway_request (r_create d) None (Some j) = Some t) ∧
  (∀ ids, AllList (λ s, utf8_valid s = true) ids →
    ∃ j, j_ids eu ids = Some j ∧ gateway_request r_ids [] (Some j) = Some ids) ∧
  (∀ r, AllRequest (kept c d) r → AllList PlainType (rq_mmfs r) →
    ∃ j, j_request c eu r = Some j ∧ gateway_request (r_request d) (Request None []) (Some j) = Some r) ∧
  (∀ r, AllOpt (AllRoster (kept c d)) r →
    ∃ j, j_assign c eu r = Some j ∧ gateway_request (r_assign d) None (Some j) = Some r).
Proof. exact same_request. Qed.
Print Assumptions C118_same_request_partial.

(** Which requests a client can write at all. *)
Theorem C118_writable_iff : ∀ c eu,
  (∀ t, is_Some (j_create c eu t) ↔ AllOpt (AllTicket (in_json c)) t) ∧
  (∀ ids, is_Some (j_ids eu ids) ↔ AllList (λ s, utf8_valid s = true) ids) ∧
  (∀ r, is_Some (j_request c eu r) ↔ AllRequest (in_json c) r) ∧
  (∀ r, is_Some (j_assign c eu r) ↔ AllOpt (AllRoster (in_json c)) r).
Proof. exact writable. Qed.
Print Assumptions C118_writable_iff.

(** Whatever the body, extensions that come out of it are of types the gateway knows (or
    empty), in all requests. *)
Theorem C118_only_known_extensions : ∀ d body,
  (∀ t, gateway_request (r_create d) None body = Some t → AllOpt (AllTicket (from_json d)) t) ∧
  (∀ r, gateway_request (r_request d) (Request None []) body = Some r → AllRequest (from_json d) r) ∧
  (∀ r, gateway_request (r_assign d) None body = Some r → AllOpt (AllRoster (from_json d)) r).
Proof. exact only_known. Qed.
Print Assumptions C118_only_known_extensions.

(** The bodies of calls that take ticket ids, exactly: either name of the field is
    accepted, but only once; other members do not matter. *)
Theorem C118_ids_body_iff : ∀ body ids,
  gateway_request r_ids [] body = Some ids ↔
  body = None ∧ ids = [] ∨ ∃ j, body = Some j ∧ IdsBody j ids.
Proof. exact ids_body. Qed.
Print Assumptions C118_ids_body_iff.

(** Extensions with the same key twice are rejected. *)
Theorem C118_same_key_rejected : ∀ d l1 k v1 l2 v2 l3, r_ext d (JDict (l1 ++ (k, v1) :: l2 ++ (k, v2) :: l3)) = None.
Proof. exact same_key. Qed.
Print Assumptions C118_same_key_rejected.

Example C118_example :
  (∃ j, j_create knows_score false (Some scored_ticket) = Some j ∧ r_create knows_score j = Some (Some scored_ticket) ∧
        r_create knows_nothing j = None) ∧
  j_create knows_nothing true (Some scored_ticket) = None ∧
  j_create knows_nothing true (Some (Ticket "" None None ∅)) = Some (JDict [("ticket",
    JDict [("id", JText ""); ("expirationTime", JNull); ("attributes", JNull); ("extensions", JDict [])])]) ∧
  r_create knows_nothing (JDict [("other", JNum "1"); ("ticket", JDict [("expiration_time", JNull); ("id", JText "x")])]) =
    Some (Some (Ticket "x" None None ∅)) ∧
  r_ids (JDict [("ticketIds", JList [JText "a"]); ("ticket_ids", JList [])]) = None ∧
  gateway_request (r_create knows_nothing) None None = Some None.
Proof.
  split_and!.
  - eexists. split; [vm_compute; reflexivity|]. split; vm_compute; reflexivity.
  - vm_compute. reflexivity.
  - vm_compute. reflexivity.
  - vm_compute. reflexivity.
  - vm_compute. reflexivity.
  - reflexivity.
Qed.

(** C119. Full claim: an HTTP caller of the streaming calls sees all that a gRPC caller
    would see. *)
Definition C119_sees_every_match : Prop := ∀ c d ms, Agree c d → Forall (AllOpt (AllMatch over_grpc)) ms →
  received (r_result d) (http_lines (j_result c true) ms) = (map Some ms, false).

Definition scored_match : match_ := Match "m1" {["all" := Roster "all" None [scored_ticket] ∅]} ∅.
Definition other_match : match_ := Match "m2" ∅ ∅.
Lemma two_matches_grpc : Forall (AllOpt (AllMatch over_grpc)) [Some other_match; Some scored_match; Some other_match].
Proof.
  assert (AllOpt (AllMatch over_grpc) (Some other_match)) as H2.
  { intros m [= <-]. split_and!; [reflexivity|apply none_map|apply none_map]. }
  constructor; [done|constructor; [|constructor; [done|constructor]]].
  intros m [= <-]. split_and!; [reflexivity| |apply none_map].
  cbn [ma_rosters scored_match]. intros k a [<- <-]%lookup_singleton_Some. split; [reflexivity|]. unfold AllRoster. cbn [ro_name ro_assignment ro_tickets ro_ext]. split_and!.
  - reflexivity.
  - apply none_opt.
  - intros t ->%elem_of_list_singleton. apply scored_ticket_grpc.
  - apply none_map.
Qed.

(** It is false: a match with an extension of a type the gateway does not know ends the
    stream, and it and all that follow are lost. *)
Theorem C119_sees_every_match_refuted : ¬ C119_sees_every_match.
Proof.
  intros H. specialize (H knows_nothing knows_score _ (bin_agree _ _) two_matches_grpc).
  vm_compute in H. discriminate H.
Qed.
Print Assumptions C119_sees_every_match_refuted.

(** The strongest true version: all is seen, and nothing else, if the types of the
    extensions are known to the gateway and to the caller. *)
Theorem C119_all_received_partial : ∀ c d, Agree c d →
  (∀ ms, Forall (AllOpt (AllMatch (kept c d))) ms →
    received (r_result d) (http_lines (j_result c true) ms) = (map Some ms, false)) ∧
  (∀ ws, Forall (AllWatch (kept c d)) ws →
    received (r_watch d) (http_lines (j_watch c true) ws) = (map Some ws, false)).
Proof. exact all_received. Qed.
Print Assumptions C119_all_received_partial.

(** Otherwise: what was sent before the first message that cannot be written, and an error. *)
Theorem C119_until_first_partial : ∀ c d, Agree c d →
  (∀ ms1 m ms2, Forall (AllOpt (AllMatch (kept c d))) ms1 → ¬ AllOpt (AllMatch (in_json c)) m →
    received (r_result d) (http_lines (j_result c true) (ms1 ++ m :: ms2)) = (map Some ms1, true)) ∧
  (∀ ws1 w ws2, Forall (AllWatch (kept c d)) ws1 → ¬ AllWatch (in_json c) w →
    received (r_watch d) (http_lines (j_watch c true) (ws1 ++ w :: ws2)) = (map Some ws1, true)).
Proof. exact until_first. Qed.
Print Assumptions C119_until_first_partial.

(** The caller is told of an error exactly if some message cannot be written. *)
Theorem C119_error_iff : ∀ c,
  (∀ ms, ErrorLine ∈ http_lines (j_result c true) ms ↔ ∃ m, m ∈ ms ∧ ¬ AllOpt (AllMatch (in_json c)) m) ∧
  (∀ ws, ErrorLine ∈ http_lines (j_watch c true) ws ↔ ∃ w, w ∈ ws ∧ ¬ AllWatch (in_json c) w).
Proof. exact error_iff. Qed.
Print Assumptions C119_error_iff.

Example C119_example :
  received (r_result knows_score) (http_lines (j_result knows_score true) [Some other_match; Some scored_match; None]) =
    ([Some (Some other_match); Some (Some scored_match); Some None], false) ∧
  received (r_result knows_score) (http_lines (j_result knows_nothing true) [Some other_match; Some scored_match; Some other_match]) =
    ([Some (Some other_match)], true) ∧
  received (r_result knows_nothing) (http_lines (j_result knows_score true) [Some scored_match; Some other_match]) =
    ([None; Some (Some other_match)], false) ∧
  http_lines (j_watch knows_nothing true) [(Some (Assignment "host:1" ∅), "t1")] =
    [ResultLine (JDict [("assignment", JDict [("connection", JText "host:1"); ("extensions", JDict [])]); ("id", JText "t1")])].
Proof. split_and!; vm_compute; reflexivity. Qed.
