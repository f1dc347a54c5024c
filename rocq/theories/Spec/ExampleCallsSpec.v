(** Notions for the calls of the example matchmaker. *)
From Coq Require Import Ascii String ZArith NArith.
From stdpp Require Import prelude strings gmap.
From Verif.Model Require Import GoStrings Types JsonMsg ExampleCalls.
Local Open Scope Z_scope.

(** om-core answered a call over HTTP, without an error and with this body ([Some]), or
    with an error. *)
Inductive OmCoreAnswers : option jv → post_result → Prop :=
| OA_ok j : OmCoreAnswers (Some j) (PAnswer 200 (Some j))
| OA_error st num msg det : 400 ≤ st → OmCoreAnswers None (PAnswer st (Some (error_body num msg det)))
| OA_fallback : OmCoreAnswers None (PAnswer 500 (Some fallback_body)).

(** The call failed: om-core was not reached or its answer was cut off, or it answered
    with a status that is not 200. *)
Definition PostFailed (p : post_result) : Prop :=
  match p with PAnswer st _ => st ≠ 200 | _ => True end.
Definition CallFailed (grpc ok : bool) (p : post_result) : Prop :=
  if grpc then ok = false else PostFailed p.
