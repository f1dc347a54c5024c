(** The sample matchmaking functions (functions/golang) as they run against
    om-core: the request read by GetChunkedRequest, the clock, and the matches. *)
From Coq Require Import Ascii String ZArith NArith.
From stdpp Require Import prelude strings gmap.
From Verif.Model Require Import GoStrings Types Filter Chunk Mmf.
Local Open Scope string_scope.
Local Open Scope Z_scope.

Inductive sample := Solo | Royale | Team.

(** time.Now().Format("2006-01-02T15:04:05.00") (soloduel.go:81, battleroyale.go:79,
    teamshooter.go:115): a function [show] of the time in hundredths of a second,
    cut off. *)
Definition stamp (show : Z → string) (now : instant) : string := show (now / 10000000).

(** soloduel.go:61-148, battleroyale.go:62-153, teamshooter.go:61-156. [clock k] is
    the reading of the clock for match [k]; the first two functions read it once.
    [ps] is the order in which soloduel visits the pools. An error of
    GetChunkedRequest is only logged; the request is then nil, and reading req.Name
    (soloduel.go:121, battleroyale.go:112, teamshooter.go:129), which happens when a
    match is made, panics. *)
Definition run_sample (f : sample) (show : Z → string) (clock : N → instant)
    (ps : list (string * pool)) (r : received) : outcome (list match_) :=
  let ms := match f with
            | Solo => soloduel (stamp show (clock 0%N)) ps
            | Royale => battleroyale (stamp show (clock 0%N)) (request_pools r)
            | Team => teamshooter (λ k, stamp show (clock k)) (request_pools r)
            end in
  match r with
  | Received _ => Done ms
  | RecvErr | RecvNil => match ms with [] => Done [] | _ :: _ => Panic end
  end.
