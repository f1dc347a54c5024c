(** The conversation of om-core with one matchmaking function on the stream that
    client.Run opens (core/main.go:562-603; for the sample functions
    mmf/server/server.go:70-112 and functions/golang/*/*.go).

    om-core sends all chunks of the request before it receives anything (:576-579,
    then :590-603) and never closes its direction of the stream (there is no call of
    CloseSend); errors of Send are ignored (:577).

    What a function does in one run is a list of operations; what it computes in
    between does not matter here. It ends by returning, which closes the stream after
    the matches sent before.

    Simplifications: each direction of the stream holds a number of messages (gRPC
    counts bytes) [cu], [cd]. The deadline of the call (:562, OM_MMF_TIMEOUT_SECS) and
    failures are left out: this is what happens before. A function that sends matches
    for ever is left out. *)
From Coq Require Import Ascii String ZArith NArith.
From stdpp Require Import prelude strings relations.
Local Open Scope nat_scope.

(** stream.Recv and stream.Send of a function. *)
Inductive op := ORead | OEmit (m : string).
Global Instance op_eq_dec : EqDecision op.
Proof. solve_decision. Defined.

Record conv := Conv {
  cv_left : list string;   (* chunks om-core has not sent *)
  cv_up : list string;     (* chunks on their way *)
  cv_ops : list op;        (* what the function has still to do *)
  cv_read : list string;   (* history: the chunks the function has read *)
  cv_down : list string;   (* matches on their way *)
  cv_got : list string;    (* history: the matches om-core has received *)
  cv_over : bool           (* om-core has received io.EOF, main.go:596-599 *)
}.

Definition conv0 (chunks : list string) (ops : list op) : conv := Conv chunks [] ops [] [] [] false.

Inductive cvstep (cu cd : nat) : conv → conv → Prop :=
(* main.go:577 *)
| CV_send c cs u ops rd d g :
    length u < cu →
    cvstep cu cd (Conv (c :: cs) u ops rd d g false) (Conv cs (u ++ [c]) ops rd d g false)
(* main.go:577: the function has returned, Send fails *)
| CV_send_fails c cs u rd d g :
    cvstep cu cd (Conv (c :: cs) u [] rd d g false) (Conv cs u [] rd d g false)
(* stream.Recv of the function *)
| CV_read cs c u ops rd d g :
    cvstep cu cd (Conv cs (c :: u) (ORead :: ops) rd d g false) (Conv cs u ops (rd ++ [c]) d g false)
(* stream.Send of the function *)
| CV_emit cs u m ops rd d g :
    length d < cd →
    cvstep cu cd (Conv cs u (OEmit m :: ops) rd d g false) (Conv cs u ops rd (d ++ [m]) g false)
(* main.go:593 *)
| CV_recv u ops rd m d g :
    cvstep cu cd (Conv [] u ops rd (m :: d) g false) (Conv [] u ops rd d (g ++ [m]) false)
(* main.go:593-599 *)
| CV_eof u rd g :
    cvstep cu cd (Conv [] u [] rd [] g false) (Conv [] u [] rd [] g true).

Definition cvreach (cu cd : nat) (chunks : list string) (ops : list op) : conv → Prop :=
  rtc (cvstep cu cd) (conv0 chunks ops).

(** A function that uses GetChunkedRequest and then sends its matches: it reads as
    many messages as the chunks say there are (server.go:75-110). *)
Definition sample_ops (n : nat) (matches : list string) : list op := repeat ORead n ++ map OEmit matches.

(** A function that reads until the stream is closed: after the chunks it asks for
    one more message. *)
Definition until_eof_ops (n : nat) (matches : list string) : list op := repeat ORead (S n) ++ map OEmit matches.
