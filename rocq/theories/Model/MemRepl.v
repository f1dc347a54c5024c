(** Model of core/internal/statestore/memory/main.go. *)
From Coq Require Import Ascii String ZArith NArith.
From stdpp Require Import prelude strings.
From Verif.Model Require Import GoStrings Types.
Local Open Scope string_scope.
Local Open Scope Z_scope.

(** main.go:24-29 (the channel is modelled where it is used). *)
Record mem_state := MemState { mr_ts : instant; mr_count : Z }.

(** main.go:31-38 New; [now] is the reading of time.Now(). *)
Definition mem_new (now : instant) : mem_state := MemState now 0.

(** main.go:98-107 getReplId. [clk.1] is the first reading of the clock (:99),
    [clk.2] the second one (:102, only made in the else branch).
    Simplification: the counter does not wrap at 2^63. *)
Definition get_repl_id (st : mem_state) (clk : instant * instant) : string * mem_state :=
  let st' := if unix_secs clk.1 =? unix_secs (mr_ts st)
             then MemState (mr_ts st) (mr_count st + 1)
             else MemState clk.2 0 in
  (format_Z (unix_secs (mr_ts st')) +:+ "-" +:+ format_Z (mr_count st'), st').

(** main.go:81-90: one round of the loop of SendUpdates: the update as written
    to the channel, the response, and the new state. *)
Definition mem_send1 (st : mem_state) (u : update) (clk : instant * instant)
    : update * response * mem_state :=
  let '(rid, st') := get_repl_id st clk in
  let u' := match u_cmd u with
            | CmdTicket => Update (u_cmd u) rid (u_value u)
            | _ => u
            end in
  (u', Response rid None, st').

(** main.go:75-94 SendUpdates; every update comes with the clock readings made
    for it. *)
Fixpoint mem_send (st : mem_state) (us : list (update * (instant * instant)))
    : list update * list response * mem_state :=
  match us with
  | [] => ([], [], st)
  | (u, clk) :: us' =>
      let '(u', r, st1) := mem_send1 st u clk in
      let '(us1, rs1, st2) := mem_send st1 us' in
      (u' :: us1, r :: rs1, st2)
  end.
