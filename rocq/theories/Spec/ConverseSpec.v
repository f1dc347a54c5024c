(** What may be expected of a conversation with a function. *)
From Coq Require Import Ascii String ZArith NArith.
From stdpp Require Import prelude strings relations.
From Verif.Model Require Import Converse.
Local Open Scope nat_scope.

Definition reads (ops : list op) : nat := length (filter (λ o, o = ORead) ops).
Definition emits (ops : list op) : list string := omap (λ o, match o with OEmit m => Some m | ORead => None end) ops.

(** The function asks for no more messages than there are chunks, and whenever it has
    sent more matches than the stream holds, all but [cu] chunks have been read. *)
Definition Fits (cu cd n : nat) (ops : list op) : Prop :=
  reads ops ≤ n ∧
  ∀ pre m post, ops = pre ++ OEmit m :: post → cd ≤ length (emits pre) → n ≤ reads pre + cu.

(** Nobody can do anything, and om-core has not seen the end. *)
Definition Deadlock (cu cd : nat) (s : conv) : Prop := cv_over s = false ∧ ∀ s', ¬ cvstep cu cd s s'.

(** The full claims: a conversation never comes to a standstill before its end, ... *)
Definition NeverStuck : Prop := ∀ cu cd chunks ops s,
  1 ≤ cu → 1 ≤ cd → reads ops ≤ length chunks → cvreach cu cd chunks ops s → ¬ Deadlock cu cd s.
(** ... and a function may read its request until the end. *)
Definition RequestEnds : Prop := ∀ cu cd chunks matches,
  1 ≤ cu → 1 ≤ cd → ∃ s, cvreach cu cd chunks (until_eof_ops (length chunks) matches) s ∧ cv_over s = true.
