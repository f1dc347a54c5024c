(** How om-core invokes a function given by its MatchmakingFunctionSpec:
    core/main.go:513-521 (one goroutine per element of req.GetMmfs()), :528-531 (its
    address), :532-538 (its type). *)
From Coq Require Import Ascii String ZArith NArith.
From stdpp Require Import prelude strings.
From Verif.Model Require Import GoStrings Types Dial ProtoMsg Invoke.

(** :532, :538. Every type but REST is invoked over gRPC. *)
Definition fn_type_of (f : mmf_spec) : fn_type :=
  match mf_type f with MMF_REST => FnRest | _ => FnGrpc end.

(** :528-547: the target given to grpc.Dial, if it is called. *)
Definition dialled (f : mmf_spec) : option string :=
  match fn_type_of f with
  | FnRest => None
  | FnGrpc => Some (mmf_target (mf_host f) (mf_port f))
  end.

(** The functions of a request. *)
Definition request_fns (r : request) : list fn_type := map fn_type_of (rq_mmfs r).
