(** What a matchmaking function reads off the wire: mmf/server/server.go:60-61 (a
    gRPC server with default options), :75-76 (stream.Recv in GetChunkedRequest).

    RecvMsg of grpc v1.62.1 refuses a message longer than
    defaultServerMaxReceiveMessageSize = 1024 * 1024 * 4 bytes with
    ResourceExhausted, before decoding it; a message that does not decode is an error
    too. After either error GetChunkedRequest returns, server.go:77-80.

    Simplification: messages are not compressed (nobody asks for it) and arrive in
    order, none missing; that they may stop early is C92. *)
From Coq Require Import Ascii String ZArith NArith.
From stdpp Require Import prelude strings gmap.
From Verif.Model Require Import GoStrings Types Wire Proto ProtoMsg Filter Chunk.
Local Open Scope Z_scope.

Definition max_receive : Z := 1024 * 1024 * 4.

(** One Recv: a chunk, or an error. The getters of a missing profile return zero
    values. *)
Definition recv_chunk (b : string) : option chunk :=
  if max_receive <? Z.of_nat (String.length b) then None
  else match unmarshal_chunk b with
       | Some (p, n) => Some (Chunk (default (Profile "" ∅ ∅) p) n)
       | None => None
       end.

(** The messages read until the first error; each comes with the order in which its
    pools are visited. *)
Fixpoint readable (msgs : list (string * list (string * pool))) : list (chunk * list (string * pool)) :=
  match msgs with
  | [] => []
  | (b, qs) :: msgs' =>
      match recv_chunk b with
      | Some c => (c, qs) :: readable msgs'
      | None => []
      end
  end.

(** server.go:70-112 on bytes. *)
Definition request_from_bytes (msgs : list (string * list (string * pool))) : outcome received :=
  get_chunked_request (readable msgs).
