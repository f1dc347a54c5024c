(** Notions for tickets and matches within gRPC's limits. *)
From Coq Require Import Ascii String ZArith NArith.
From stdpp Require Import prelude strings gmap.
From Verif.Model Require Import GoStrings Types Wire Proto ProtoMsg Filter Chunk Cache Handlers Mmf Samples FnWire MatchWire.
From Verif.Spec Require Import ChunkSpec FnWireSpec.
Local Open Scope Z_scope.

(** The CreateTicketRequest with this ticket is within gRPC's default limit
    (messages.proto:200; the server of core/server.go has default limits). *)
Definition RequestFits (t : ticket) : Prop :=
  Z.of_nat (String.length (enc_fields [f_msg 1 (fields_ticket_c t)])) <= grpc_max.

(** The ticket was asked for in a request that arrived, it was accepted, and is
    stored under a valid text as its id. *)
Definition Accepted (t : ticket) : Prop :=
  ∃ ttl now o req v id,
    RequestFits req ∧ orders_ok (prepare_ticket ttl now req) o ∧
    create_ticket ttl now o (Some req) = Send [Update CmdTicket "" v] ∧
    utf8_valid id = true ∧ t = stored_ticket id v.

(** Bytes of the tickets of a match, all rosters together. *)
Definition MatchWeight (m : match_) : Z :=
  map_fold (λ _ r acc, foldr (λ t a, ticket_size t + a) 0 (ro_tickets r) + acc) 0 (ma_rosters m).

(** The bytes [bs] are what a function may have written for the matches [ms]. *)
Definition SentResults (ms : list match_) (bs : list string) : Prop :=
  Forall2 (λ m b, marshals_result (Some m) b) ms bs.
Definition ResultsFit (bs : list string) : Prop :=
  Forall (λ b, Z.of_nat (String.length b) <= grpc_max) bs.
Global Instance ResultsFit_dec bs : Decision (ResultsFit bs).
Proof. unfold ResultsFit. apply _. Defined.

(** The extension under this name is a google.protobuf.StringValue with this text:
    its only field, number 1, holds it (and is absent for the empty text). *)
Definition SaysText (m : match_) (k txt : string) : Prop :=
  ∃ a, ma_ext m !! k = Some a ∧ any_url a = "type.googleapis.com/google.protobuf.StringValue"%string ∧
       any_value a = enc_fields (match txt with ""%string => [] | _ => [(1%N, WLen txt)] end).

(** A request for profile [p], as decoded by om-core, is answered from the snapshot
    [ts] of accepted tickets (each with an order of the pools); no filter panics
    (C05), and the count of chunks is in range. *)
Definition AskedFor (p : profile) (ts : list (ticket * list string)) : Prop :=
  (∃ s r, unmarshal_request s = Some r ∧ rq_profile r = Some p) ∧
  NamesFit p ts ∧ Forall Accepted ts.*1 ∧ NoFilterPanic p ts.*1 ∧
  1 + Z.of_nat (length ts) * Z.of_nat (base.size (pr_pools p)) < 2 ^ 31.

(** The bytes on the wire to a function for this. *)
Definition GivenTo (p : profile) (ts : list (ticket * list string)) (msgs : list (string * list (string * pool))) : Prop :=
  ∃ cs, build_requests p ts = Done cs ∧ SentAs cs msgs.

(** The matches [ms] are those of a run of sample function [f] that was given this. *)
Definition FunctionRan (p : profile) (ts : list (ticket * list string)) (f : sample) (show : Z → string)
    (ms : list match_) : Prop :=
  ∃ msgs got ps clock nows,
    GivenTo p ts msgs ∧ request_from_bytes msgs = Done got ∧ ps ≡ₚ map_to_list (request_pools got) ∧
    run_dressed f show clock nows ps got = Done ms.

(** A size of tickets at which all matches of the function are within the limit. *)
Definition SmallTicket (f : sample) : Z :=
  match f with Solo => 2090000 | Royale => 41800 | Team => 418000 end.
