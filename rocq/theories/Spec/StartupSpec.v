(** What is asked of the start of the server. *)
From Coq Require Import Ascii String ZArith NArith.
From stdpp Require Import prelude strings.
From Verif.Model Require Import Startup.
Local Open Scope string_scope.

Definition su_reach (s : startup) : Prop := rtc su_step startup0 s.

(** The process has done all it does by itself. *)
Definition Settled (s : startup) : Prop := ∀ s', ¬ su_own s s'.

Definition error_text (f : failure) : string :=
  match f with ListenFailed e | GrpcFailed _ e | RegisterFailed e | HttpFailed e => e end.

(** Both servers run. *)
Definition Serves (s : startup) : Prop :=
  su_exit s = None ∧ su_main s = SWait ∧ su_grpc s = VServing ∧ su_http s = VServing.
