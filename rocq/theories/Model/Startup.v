(** start, core/server.go:28-77, as a transition system: the function itself and the
    two goroutines that it starts for the gRPC server (:50-54) and for the HTTP
    gateway (:67-71). All three assign to one variable, err (:41, :51, :58, :68), and
    look at it afterwards. An assignment, a test and the reading for the message of
    logger.Fatal are single steps.

    Modelled from outside: net.Listen and RegisterOpenMatchServiceHandlerFromEndpoint
    may fail; Serve returns an error at any time, or nil after Stop; ListenAndServe
    returns an error at any time (it never returns nil); logger.Fatal logs and ends
    the process with status 1. What main does after start has returned (main.go:116-124)
    ends with status 0. *)
From Coq Require Import Ascii String ZArith NArith.
From stdpp Require Import prelude strings.
Local Open Scope string_scope.

(** An error, or nil. *)
Notation error := (option string).

Inductive start_pc :=
| SListen                  (* :41 *)
| SRegister                (* :58 *)
| SCheck                   (* :64 *)
| SFatal                   (* :65 *)
| SWait                    (* :75 *)
| SStopped.                (* after :76 *)

Inductive serve_pc :=
| VOff                     (* not started *)
| VServing                 (* in Serve or ListenAndServe *)
| VCheck                   (* err was assigned, :51 / :68 *)
| VFatal                   (* :52 / :69 *)
| VDone.

(** Who failed; for the gRPC server, whether err was still to be assigned by
    start itself. *)
Inductive failure := ListenFailed (e : string) | GrpcFailed (early : bool) (e : string)
  | RegisterFailed (e : string) | HttpFailed (e : string).

Record startup := Startup {
  su_err : error;              (* the variable *)
  su_main : start_pc;
  su_grpc : serve_pc;
  su_http : serve_pc;
  su_signal : bool;            (* a signal has arrived in signalChan *)
  su_logged : list error;      (* messages of logger.Fatal *)
  su_exit : option nat;        (* the status the process has ended with *)
  su_failures : list failure   (* history, not code *)
}.

Definition startup0 : startup := Startup None SListen VOff VOff false [] None [].

Definition is_register (p : start_pc) : bool := match p with SRegister => true | _ => false end.
Definition is_stopped (p : start_pc) : bool := match p with SStopped => true | _ => false end.

(** What comes from outside: failures and signals. *)
Inductive su_env : startup → startup → Prop :=
(* :41-44; the message has the port and the error *)
| SU_listen_fails e err g h sg lg fs :
    su_env (Startup err SListen g h sg lg None fs)
           (Startup (Some e) SListen g h sg (lg ++ [Some e]) (Some 1) (fs ++ [ListenFailed e]))
| SU_register_fails e err g h sg lg fs :
    su_env (Startup err SRegister g h sg lg None fs)
           (Startup (Some e) SCheck g h sg lg None (fs ++ [RegisterFailed e]))
| SU_serve_fails e err p h sg lg fs :
    su_env (Startup err p VServing h sg lg None fs)
           (Startup (Some e) p VCheck h sg lg None (fs ++ [GrpcFailed (is_register p) e]))
| SU_http_fails e err p g sg lg fs :
    su_env (Startup err p g VServing sg lg None fs)
           (Startup (Some e) p g VCheck sg lg None (fs ++ [HttpFailed e]))
| SU_signal err p g h lg fs :
    su_env (Startup err p g h false lg None fs) (Startup err p g h true lg None fs).

(** What the process does by itself. *)
Inductive su_own : startup → startup → Prop :=
| SU_listen err g h sg lg fs :
    su_own (Startup err SListen g h sg lg None fs) (Startup None SRegister VServing h sg lg None fs)
| SU_register err g h sg lg fs :
    su_own (Startup err SRegister g h sg lg None fs) (Startup None SCheck g h sg lg None fs)
| SU_check_ok g h sg lg fs :
    su_own (Startup None SCheck g h sg lg None fs) (Startup None SWait g VServing sg lg None fs)
| SU_check_fails e g h sg lg fs :
    su_own (Startup (Some e) SCheck g h sg lg None fs) (Startup (Some e) SFatal g h sg lg None fs)
| SU_fatal err g h sg lg fs :
    su_own (Startup err SFatal g h sg lg None fs) (Startup err SFatal g h sg (lg ++ [err]) (Some 1) fs)
| SU_stop err g h lg fs :
    su_own (Startup err SWait g h true lg None fs) (Startup err SStopped g h true lg None fs)
| SU_end err g h sg lg fs :
    su_own (Startup err SStopped g h sg lg None fs) (Startup err SStopped g h sg lg (Some 0) fs)
(* Serve returns nil after Stop *)
| SU_served err h sg lg fs :
    su_own (Startup err SStopped VServing h sg lg None fs) (Startup None SStopped VCheck h sg lg None fs)
| SU_grpc_ok p h sg lg fs :
    su_own (Startup None p VCheck h sg lg None fs) (Startup None p VDone h sg lg None fs)
| SU_grpc_fails e p h sg lg fs :
    su_own (Startup (Some e) p VCheck h sg lg None fs) (Startup (Some e) p VFatal h sg lg None fs)
| SU_grpc_fatal err p h sg lg fs :
    su_own (Startup err p VFatal h sg lg None fs) (Startup err p VFatal h sg (lg ++ [err]) (Some 1) fs)
| SU_http_ok p g sg lg fs :
    su_own (Startup None p g VCheck sg lg None fs) (Startup None p g VDone sg lg None fs)
| SU_http_fails2 e p g sg lg fs :
    su_own (Startup (Some e) p g VCheck sg lg None fs) (Startup (Some e) p g VFatal sg lg None fs)
| SU_http_fatal err p g sg lg fs :
    su_own (Startup err p g VFatal sg lg None fs) (Startup err p g VFatal sg (lg ++ [err]) (Some 1) fs).

Definition su_step (s s' : startup) : Prop := su_env s s' ∨ su_own s s'.
