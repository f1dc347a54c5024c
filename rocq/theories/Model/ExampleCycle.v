(** One matchmaking cycle of the example: the call of InvokeMatchmakingFunctions and what
    becomes of its answer, matchmaker-example/main.go:224-344, over gRPC and over HTTP; and
    how grpc-gateway v2.19.0 answers the call over HTTP (runtime.ForwardResponseStream,
    handleForwardResponseStreamError, HTTPStatusFromCode).

    Simplifications: writing the request (:260-265) and creating it (:268-277) cannot fail,
    request and URL being fixed; a failed protojson.Unmarshal leaves an empty message
    (so it does for a line that is not a result); debug and info entries are left out. *)
From Coq Require Import Ascii String ZArith NArith.
From stdpp Require Import prelude strings gmap.
From Verif.Model Require Import GoStrings Types Wire JsonMsg HttpStream JsonText JsonBytes ExampleCalls.
Local Open Scope N_scope.

(** ** The gateway *)

(** HTTPStatusFromCode, for the gRPC codes by number. *)
Definition http_status (code : N) : Z :=
  default 500%Z ([200; 499; 500; 400; 504; 404; 409; 403; 429; 400; 409; 400; 501; 500; 503; 500; 401]%Z !! N.to_nat code).

(** An error of a call: its status. [fl_details]: as JSON; [None] if some cannot be written. *)
Record failure := Failure { fl_code : N; fl_msg : string; fl_details : option (list jv) }.

(** errorChunk and Marshal, with EmitUnpopulated. *)
Definition j_failure (f : failure) : option jv :=
  match fl_details f with
  | Some ds => if utf8_valid (fl_msg f) then Some (error_body (format_N (fl_code f)) (fl_msg f) ds) else None
  | None => None
  end.
Definition error_open : text := [123; 34; 101; 114; 114; 111; 114; 34; 58].
Definition failure_line (t : text) : text := error_open ++ t ++ [125].

(** The messages that are written, and the error at which the loop ends: that of the call,
    or that of the first message that cannot be written ([bad]). *)
Fixpoint written {M} (write : M → option jv) (bad : M → failure) (ms : list M) (e : option failure) : list jv * option failure :=
  match ms with
  | [] => ([], e)
  | m :: ms' =>
      match write m with
      | Some v => let r := written write bad ms' e in (v :: r.1, r.2)
      | None => ([], Some (bad m))
      end
  end.

(** What the client gets. [HNoAnswer]: client.Do returns an error; [broken]: reading the
    body ends with an error. *)
Inductive http_answer := HNoAnswer | HAnswer (status : Z) (body : string) (broken : bool).
Definition stream_status (w : list jv * option failure) : Z :=
  match w with ([], Some f) => http_status (fl_code f) | _ => 200%Z end.
Definition failure_text (sp : bool) (e : option failure) : text :=
  match e with
  | Some f => match j_failure f with Some j => failure_line (sent_text sp (tree j)) ++ [10] | None => [] end
  | None => []
  end.
Definition gateway_stream (sp : bool) (w : list jv * option failure) : http_answer :=
  HAnswer (stream_status w)
    (utf8_enc (stream_of (map (λ v, sent_text sp (tree v)) w.1) ++ failure_text sp w.2)) false.

(** ** The example *)

(** [Next]: the cycle goes on with these results of GetMatch; [logged]: an error was
    logged. [Exit]: log.Fatalf. [Crash]: panic. *)
Inductive cycle_end := Next (ms : list (option match_)) (logged : bool) | Exit | Crash.

(** :226-257. [GFails]: the call itself returns an error; otherwise the messages received
    and whether Recv then returned an error other than io.EOF. *)
Inductive grpc_answer := GFails | GStream (ms : list (option match_)) (err : bool).
Definition cycle_grpc (a : grpc_answer) : cycle_end :=
  match a with
  | GFails => Exit
  | GStream ms err => Next ms err
  end.

(** The lines of a body that are there with their newline. *)
Fixpoint whole_lines (s : string) : string :=
  match s with
  | EmptyString => ""%string
  | String c r =>
      let w := whole_lines r in
      if String.eqb w "" then (if Ascii.eqb c (ascii_of_N 10) then String c "" else ""%string) else String c w
  end.

(** :280-338. Without an answer, resp is nil and :285 reads its field. If reading the body
    fails, Fscanf returns that error for the line it is at (:293-302). *)
Definition cycle_http (read : jv → option (option match_)) (a : http_answer) : cycle_end :=
  match a with
  | HNoAnswer => Crash
  | HAnswer st body broken =>
      if negb (st =? 200)%Z then Exit
      else match example_reads (runes (if broken then whole_lines body else body)) with
           | ReadPanics => Crash
           | ReadFatal _ => Exit
           | ReadAll ts =>
               if broken then Exit
               else let rs := map (λ t, j ← read_text t; read (value j)) ts in
                    Next (map (λ r, default None r) rs) (existsb (λ r, match r with None => true | Some _ => false end) rs)
           end
  end.

(** :341-344, the line about the cycle: the matches received, approved and rejected, and
    whether it tells an error. err is the variable of :162, which holds what grpc.Dial
    returned, nil; :226, :260 and :293 declare others. *)
Definition cycle_line (ms : list (option match_)) (rej : nat) : nat * nat * nat * bool :=
  let err_162 := false in
  (length ms, length ms - rej, rej, err_162)%nat.
