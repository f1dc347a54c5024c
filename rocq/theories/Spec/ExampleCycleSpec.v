(** Vocabulary for C139: a cycle of the example matchmaker. *)
From Coq Require Import Ascii String ZArith NArith.
From stdpp Require Import prelude strings gmap.
From Verif.Model Require Import Types JsonMsg ExampleCycle.
From Verif.Spec Require Import JsonSpec JsonBytesSpec.
Local Open Scope N_scope.

(** An error: not the code OK, and details that are JSON. *)
Definition RealFailure (f : failure) : Prop :=
  fl_code f ≠ 0 ∧ ∀ ds, fl_details f = Some ds → Forall Writable ds.

(** om-core sent these matches and ended with [e]; the gateway could write the matches
    [ms1] and then came to [f]: the end of the call, or a match that JSON cannot express. *)
Inductive BreaksOff (c : codec) (bad : option match_ → failure) (ms : list (option match_)) (e : option failure) :
    list (option match_) → option failure → Prop :=
| BO_end : BreaksOff c bad ms e ms e
| BO_bad ms1 m ms2 : ms = (ms1 ++ m :: ms2)%list → ¬ AllOpt (AllMatch (in_json c)) m → BreaksOff c bad ms e ms1 (Some (bad m)).

(** What becomes of the cycle, if the matches [ms], written as [vs], were sent, and
    then [f] happened. *)
Inductive Outcome (ms : list (option match_)) (vs : list jv) (f : option failure) : cycle_end → Prop :=
| OC_all : f = None → Forall NoSpaces vs → Outcome ms vs f (Next ms false)
| OC_refused x : f = Some x → vs = [] → Outcome ms vs f Exit
| OC_space v : v ∈ vs → ¬ NoSpaces v → Outcome ms vs f Exit
| OC_silent x : f = Some x → vs ≠ [] → Forall NoSpaces vs → j_failure x = None → Outcome ms vs f (Next ms false)
| OC_counted x j : f = Some x → vs ≠ [] → Forall NoSpaces vs → j_failure x = Some j → NoSpaces j →
    Outcome ms vs f (Next (ms ++ [None]) true)
| OC_fatal x j : f = Some x → vs ≠ [] → Forall NoSpaces vs → j_failure x = Some j → ¬ NoSpaces j → Outcome ms vs f Exit.

(** The HTTP statuses of the gRPC codes. *)
Inductive CodeStatus (code : N) : Z → Prop :=
| CS_ok : code = 0 → CodeStatus code 200                                       (* OK *)
| CS_bad_request : code ∈ [3; 9; 11] → CodeStatus code 400                     (* InvalidArgument, FailedPrecondition, OutOfRange *)
| CS_unauthorized : code = 16 → CodeStatus code 401                            (* Unauthenticated *)
| CS_forbidden : code = 7 → CodeStatus code 403                                (* PermissionDenied *)
| CS_not_found : code = 5 → CodeStatus code 404                                (* NotFound *)
| CS_conflict : code ∈ [6; 10] → CodeStatus code 409                           (* AlreadyExists, Aborted *)
| CS_too_many : code = 8 → CodeStatus code 429                                 (* ResourceExhausted *)
| CS_closed : code = 1 → CodeStatus code 499                                   (* Canceled *)
| CS_internal : code ∈ [2; 13; 15] ∨ 16 < code → CodeStatus code 500           (* Unknown, Internal, DataLoss; other codes *)
| CS_not_implemented : code = 12 → CodeStatus code 501                         (* Unimplemented *)
| CS_unavailable : code = 14 → CodeStatus code 503                             (* Unavailable *)
| CS_timeout : code = 4 → CodeStatus code 504.                                 (* DeadlineExceeded *)
