(** Property theorems about tickets and matches within gRPC's limits: C122. *)
From Coq Require Import Ascii String ZArith NArith Lia.
From stdpp Require Import prelude strings gmap.
From Verif.Model Require Import GoStrings Types Wire Proto Filter Chunk Cache Handlers.
From Verif.Spec Require Import ChunkSpec.
From Verif.Model Require Import ProtoMsg FnWire Mmf Samples MatchWire.
From Verif.Spec Require Import FnWireSpec SampleSpec MatchWireSpec.
From Verif.Proofs Require Import ChunkWitness ProtoMsgMore MatchWireLemmas MatchWireMore.
From Verif.Props Require Import FnWireProps.
Local Open Scope string_scope.
Local Open Scope list_scope.
Local Open Scope Z_scope.

(** C122, first claim: a ticket CreateTicket accepted can be given to a function by a
    profile that is itself short: alone in the snapshot, it is read. *)
Definition C122_tickets_offered : Prop := ∀ p t ns msgs,
  AskedFor p [(t, ns)] → GivenTo p [(t, ns)] msgs →
  empty_chunk_size p <= 100 → names_cost (pr_pools p) <= 100 →
  ∃ got, request_from_bytes msgs = Done (Received got) ∧ IsServed p [t] got.

Lemma asked_all : ∃ s r, unmarshal_request s = Some r ∧ rq_profile r = Some all_profile.
Proof. exists all_request. eexists. split; [exact all_request_read|reflexivity]. Qed.

(** It is false: the id and the times that om-core adds make the ticket too long for
    the function's server, though the request with it was not for om-core's. *)
Theorem C122_tickets_offered_refuted : ¬ C122_tickets_offered.
Proof.
  intros H. pose proof (lone_asked asked_all) as Ha. destruct (given_exists _ _ Ha) as [msgs Hg].
  destruct (H all_profile lone ["all"] msgs Ha Hg) as (got & Hgot & _).
  - vm_compute. discriminate.
  - vm_compute. discriminate.
  - rewrite (one_ticket_spoils _ _ _ "all" lone Ha Hg) in Hgot; [done|rewrite visits_fst; left| |exact lone_large].
    exact (big_eligible _ _).
Qed.
Print Assumptions C122_tickets_offered_refuted.

(** Worse, such a ticket keeps all the others from the function: no chunk is used,
    and no match is made. *)
Theorem C122_one_ticket_spoils_all : ∀ p ts f show ms n t,
  AskedFor p ts → FunctionRan p ts f show ms → t ∈ ts.*1 → Eligible p n t →
  grpc_max < ticket_size t + 4 → ms = [].
Proof. exact one_ticket_no_match. Qed.
Print Assumptions C122_one_ticket_spoils_all.

Theorem C122_too_large_ticket_exists : ∃ t, Accepted t ∧ grpc_max < ticket_size t + 4.
Proof. exists lone. split; [exact lone_accepted|exact lone_large]. Qed.
Print Assumptions C122_too_large_ticket_exists.

(** The restriction that holds: tickets of at least 128 bytes, for which the limit
    leaves room beside the profile. (For smaller ones, see C113.) *)
Theorem C122_tickets_offered_partial : ∀ p ts msgs,
  AskedFor p ts → GivenTo p ts msgs →
  empty_chunk_size p < max_pb_size → names_cost (pr_pools p) <= 38000 →
  (∀ t, t ∈ ts.*1 → empty_chunk_size p + ticket_size t + names_cost (pr_pools p) + 14 <= grpc_max ∧ 128 <= ticket_size t) →
  ∃ got, request_from_bytes msgs = Done (Received got) ∧ IsServed p ts.*1 got.
Proof. exact larger_tickets_read. Qed.
Print Assumptions C122_tickets_offered_partial.

(** Second claim: the matches a sample function sends arrive at om-core. *)
Definition C122_matches_arrive : Prop := ∀ p ts f show ms bs,
  (∀ z, utf8_valid (show z) = true ∧ Z.of_nat (String.length (show z)) <= 100) →
  Z.of_nat (String.length (pr_name p)) <= 10000 →
  AskedFor p ts → FunctionRan p ts f show ms → SentResults ms bs →
  received_results bs = (Some <$> ms, true).

(** It is false: a match repeats the tickets, all in one message, and two tickets that
    came in different chunks may not fit. *)
Theorem C122_matches_arrive_refuted : ¬ C122_matches_arrive.
Proof.
  intros H. destruct (two_served (Z.to_nat 2200000) (λ _, "") (λ _, 0) (λ _, 0) (Z2Nat.id 2200000 ltac:(lia)) (λ _, eq_refl) asked_all)
    as (Ha & ms & bs & Hr & Hb & Hx).
  revert Ha Hr. generalize (visits (two_big (Z.to_nat 2200000))). intros ts Ha Hr.
  rewrite (H all_profile ts Solo (λ _, "") ms bs) in Hx; [discriminate Hx| | |exact Ha|exact Hr|exact Hb].
  - intros z. split; [reflexivity|]. vm_compute. discriminate.
  - vm_compute. discriminate.
Qed.
Print Assumptions C122_matches_arrive_refuted.

(** What happens: if all messages are within the limit the matches are received
    exactly as sent, extensions included; otherwise the first too long one and
    everything after it is lost, and the loop ends with an error. *)
Theorem C122_matches_received : ∀ p ts f show ms bs, (∀ z, utf8_valid (show z) = true) →
  AskedFor p ts → FunctionRan p ts f show ms → SentResults ms bs →
  if decide (ResultsFit bs) then received_results bs = (Some <$> ms, true)
  else ∃ k, (k < length ms)%nat ∧ received_results bs = (Some <$> take k ms, false).
Proof. exact matches_received. Qed.
Print Assumptions C122_matches_received.

Theorem C122_first_too_large : ∀ p ts f show ms bs i b, (∀ z, utf8_valid (show z) = true) →
  AskedFor p ts → FunctionRan p ts f show ms → SentResults ms bs →
  bs !! i = Some b → grpc_max < Z.of_nat (String.length b) → ResultsFit (take i bs) →
  received_results bs = (Some <$> take i ms, false).
Proof. exact first_too_large. Qed.
Print Assumptions C122_first_too_large.

(** A match is at least as long as its tickets together. *)
Theorem C122_match_weight : ∀ m b, marshals_result (Some m) b → MatchWeight m <= Z.of_nat (String.length b).
Proof. exact match_weight. Qed.
Print Assumptions C122_match_weight.

(** Tickets of the given size, and texts of reasonable length: all matches arrive. *)
Theorem C122_matches_arrive_partial : ∀ p ts f show ms bs,
  (∀ z, utf8_valid (show z) = true ∧ Z.of_nat (String.length (show z)) <= 100) →
  Z.of_nat (String.length (pr_name p)) <= 10000 →
  AskedFor p ts → FunctionRan p ts f show ms → SentResults ms bs →
  (∀ t, t ∈ ts.*1 → ticket_size t <= SmallTicket f) →
  received_results bs = (Some <$> ms, true).
Proof. exact small_tickets_arrive. Qed.
Print Assumptions C122_matches_arrive_partial.

(** Every match names the profile and the function. *)
Theorem C122_match_says_whose : ∀ p ts f show ms m,
  AskedFor p ts → FunctionRan p ts f show ms → m ∈ ms →
  SaysText m "profileName" (pr_name p) ∧
  SaysText m "mmfName" (match f with Solo => "a-simple-1v1-matchfunction" | Royale => "battle-royale"
                        | Team => "team-shooter-5v5-matchfunction" end).
Proof. exact dressed_says. Qed.
Print Assumptions C122_match_says_whose.

(** Two tickets, soloduel, and the bytes of the one match. *)
Definition duo_match : match_ :=
  dress Solo "everyone" (1700000001 * 10 ^ 9)
    (single_match solo_name "2023-11-14T22:13:21.00" 0 [tiny 1; tiny 2]).
Definition duo_bytes : string := enc_fields [f_msg 1 (fields_match duo_match)].
Example C122_example :
  match run_dressed Solo (λ _, "2023-11-14T22:13:21.00") (λ _, 0) (λ _, 1700000001 * 10 ^ 9)
          [("all", chunk_pool "all" [tiny 1; tiny 2])]
          (Received (Profile "everyone" {["all" := chunk_pool "all" [tiny 1; tiny 2]]} ∅)) with
  | Done [m] => bool_decide (m = duo_match)
  | _ => false
  end = true ∧
  Z.of_nat (String.length duo_bytes) = 541 ∧
  match received_results [duo_bytes; duo_bytes] with
  | ([Some m1; Some m2], true) => bool_decide (m1 = duo_match) && bool_decide (m2 = duo_match)
  | _ => false
  end = true ∧
  (* a message cut short ends the loop *)
  (let '(ms, ok) := received_results [duo_bytes; String.substring 0 200 duo_bytes; duo_bytes] in
   negb ok && (length ms =? 1)%nat) = true ∧
  option_map any_value (ma_ext duo_match !! "profileName") = Some (String (ascii_of_N 10) (String (ascii_of_N 8) "everyone")).
Proof.
  split; [vm_compute; reflexivity|]. split; [vm_compute; reflexivity|]. split; [vm_compute; reflexivity|].
  split; vm_compute; reflexivity.
Qed.
