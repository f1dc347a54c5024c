(** An invocation (Invoke.v) whose caller may go away. The caller of
    InvokeMatchmakingFunctions, core/main.go:366, may cancel its call or lose its
    connection at any time. The handler does not look at stream.Context(); functions
    run under context.Background(), :562; and the error stream.Send then returns is
    ignored, :493.

    Simplification: a match sent while the caller is there is delivered. *)
From Coq Require Import Ascii String ZArith NArith.
From stdpp Require Import prelude strings gmap.
From Verif.Model Require Import GoStrings Types Invoke.

Record hstate := HState {
  h_inv : istate;
  h_gone : bool;               (* the caller has gone *)
  h_delivered : list nat       (* goroutines whose match the caller got *)
}.

Definition h_init (fns : list fn_type) (ina : gset string) : hstate := HState (v_init fns ina) false [].

(** What stream.Send was called with in this step. *)
Definition sends (s s' : istate) : list nat := drop (length (v_streamed s)) (v_streamed s').

Inductive h_step (wait : bool) : hstate → hstate → Prop :=
| H_hangup s d : h_step wait (HState s false d) (HState s true d)
| H_server s s' gone d :
    v_step wait s s' →
    h_step wait (HState s gone d) (HState s' gone (d ++ (if gone then [] else sends s s')))%list.
