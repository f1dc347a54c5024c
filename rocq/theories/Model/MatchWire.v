(** Matches on the wire from a sample function to om-core: what the functions put
    into the messages beside the tickets (functions/golang/soloduel/soloduel.go:96-142,
    battleroyale/battleroyale.go:86-122, teamshooter/teamshooter.go:113-148), and what
    mmfStream.Recv, core/main.go:593, makes of the bytes.

    RecvMsg of grpc v1.62.1 refuses a message longer than
    defaultClientMaxReceiveMessageSize = 1024 * 1024 * 4 bytes with ResourceExhausted
    (the dial options, core/main.go:506-511, do not change it); a message that does
    not decode is an error too. Either ends the loop, core/main.go:600-603. *)
From Coq Require Import Ascii String ZArith NArith.
From stdpp Require Import prelude strings gmap.
From Verif.Model Require Import GoStrings Types Wire Proto ProtoMsg Filter Chunk Mmf Samples FnWire.
Local Open Scope string_scope.
Local Open Scope Z_scope.

(** anypb.New: the type URL and the encoded message. *)
Definition any_of (name : string) (fs : list field) : any :=
  Any ("type.googleapis.com/google.protobuf." +:+ name) (enc_fields fs).
(** google.protobuf.StringValue: string value = 1; Int32Value: int32 value = 1. *)
Definition any_string (s : string) : any := any_of "StringValue" (f_string 1 s).
Definition any_int32 (z : Z) : any := any_of "Int32Value" (f_int 1 z).
Definition any_time (now : instant) : any := any_of "Timestamp" (fields_ts (ts_new now)).

Definition sample_name (f : sample) : string :=
  match f with Solo => solo_name | Royale => royale_name | Team => team_name end.

(** soloduel.go:113-136, battleroyale.go:103-125, teamshooter.go:121-143. *)
Definition common_ext (f : sample) (prof : string) : extensions :=
  {[ "score" := any_int32 100; "mmfName" := any_string (sample_name f); "profileName" := any_string prof ]}.

(** The match of Mmf.v with its extensions: soloduel and battleroyale put the time
    into the roster, teamshooter into the match. *)
Definition dress (f : sample) (prof : string) (now : instant) (m : match_) : match_ :=
  match f with
  | Solo | Royale =>
      Match (ma_id m)
        ((λ r, Roster (ro_name r) (ro_assignment r) (ro_tickets r) {[ "CreationTime" := any_time now ]}) <$> ma_rosters m)
        (common_ext f prof)
  | Team => Match (ma_id m) (ma_rosters m) (<["creationTime" := any_time now]> (common_ext f prof))
  end.

Definition request_name (r : received) : string :=
  match r with Received p => pr_name p | RecvErr | RecvNil => "" end.

(** A run of a sample function; [nows k] is the reading of timestamppb.Now() for
    match [k]. *)
Definition run_dressed (f : sample) (show : Z → string) (clock : N → instant) (nows : nat → instant)
    (ps : list (string * pool)) (r : received) : outcome (list match_) :=
  match run_sample f show clock ps r with
  | Panic => Panic
  | Done ms => Done (imap (λ k m, dress f (request_name r) (nows k) m) ms)
  end.

(** One Recv of om-core. *)
Definition recv_result (b : string) : option (option match_) :=
  if max_receive <? Z.of_nat (String.length b) then None else unmarshal_result b.

(** The loop core/main.go:590-603 on the messages of a function that then closes its
    stream: the results received, and whether the loop ended with EOF. *)
Fixpoint received_results (bs : list string) : list (option match_) * bool :=
  match bs with
  | [] => ([], true)
  | b :: bs' =>
      match recv_result b with
      | None => ([], false)
      | Some m => let '(ms, ok) := received_results bs' in (m :: ms, ok)
      end
  end.
