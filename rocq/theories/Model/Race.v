(** The variable [err] of one matchmaking-function goroutine, core/main.go:521-714,
    and the goroutines that use it: the function goroutine itself, which assigns the
    outcome of grpc.Dial, Run and of every Recv to it (:524, :525, :536, :547, :567,
    :593) and looks at it (:548, :568, :596, :600, :709, :713), and the match
    goroutines it starts (:626), which mention the same variable in a log message if
    some deactivation failed (:640-:642).

    An execution is the list of the actions on this variable and of the actions that
    order goroutines, in the order in which they were done, each with the goroutine
    that did it. The value of a read is the last value written.

    Simplifications. Several reads of the variable with no write between them are
    one. Everything a match goroutine does that neither uses the variable nor orders
    it with its function goroutine is left out: its requests to the outgoing queue go
    to another goroutine, and so does its match (:681). That mmfStream.Recv, or a
    lock inside the logging library, might order the two goroutines in some
    executions is left out; the code does not rely on either. *)
From Coq Require Import String.
From stdpp Require Import prelude strings list.

Inductive goerr := ENil | EEof | EErr (msg : string).
Global Instance goerr_eq_dec : EqDecision goerr.
Proof. solve_decision. Defined.

Inductive gid :=
| Fn              (* the function goroutine, :521 *)
| Mg (k : nat).   (* the goroutine of the (k+1)-th match, :626 *)
Global Instance gid_eq_dec : EqDecision gid.
Proof. solve_decision. Defined.

Inductive act :=
| AWr (v : goerr)            (* err = v *)
| ARd (v : goerr)            (* err is read and is v *)
| AGo (k : nat)              (* tdwg.Add(1); go …, :625-:626 *)
| ADeact (errs : list goerr) (* errs := updateTicketsActiveState(…), :639 *)
| ADone                      (* tdwg.Done(), :627 *)
| AWait.                     (* tdwg.Wait() returns, :703 *)

Definition trace := list (gid * act).

Inductive fn_pc :=
| F_decl     (* :524 *)
| F_type     (* :532 *)
| F_dialled  (* :548 *)
| F_run      (* :567 *)
| F_ran      (* :568 *)
| F_recv     (* :593 *)
| F_recvd    (* :596 *)
| F_got      (* :625 *)
| F_wait     (* :703 *)
| F_end      (* :709 *)
| F_ret.

Inductive mg_pc :=
| M_start    (* :639 *)
| M_failed   (* :641 *)
| M_rest     (* :643 to the end *)
| M_gone.

Record rstate := RState { r_pc : fn_pc; r_err : goerr; r_mgs : list mg_pc }.

Definition r_init : rstate := RState F_decl ENil [].

Inductive r_step : rstate → gid * act → rstate → Prop :=
| R_decl v ms :                                     (* err = nil, :524-:525 *)
    r_step (RState F_decl v ms) (Fn, AWr ENil) (RState F_type ENil ms)
| R_rest v msg ms :                                 (* REST, :536 *)
    r_step (RState F_type v ms) (Fn, AWr (EErr msg)) (RState F_end (EErr msg) ms)
| R_dial v e ms :                                   (* conn, err = grpc.Dial, :547 *)
    r_step (RState F_type v ms) (Fn, AWr e) (RState F_dialled e ms)
| R_dialled v ms :                                  (* :548 *)
    r_step (RState F_dialled v ms) (Fn, ARd v)
           (RState (if decide (v = ENil) then F_run else F_ret) v ms)
| R_run v e ms :                                    (* mmfStream, err = client.Run, :567 *)
    r_step (RState F_run v ms) (Fn, AWr e) (RState F_ran e ms)
| R_ran v ms :                                      (* :568 *)
    r_step (RState F_ran v ms) (Fn, ARd v)
           (RState (if decide (v = ENil) then F_recv else F_ret) v ms)
| R_recv v e ms :                                   (* result, err = mmfStream.Recv(), :593 *)
    r_step (RState F_recv v ms) (Fn, AWr e) (RState F_recvd e ms)
| R_recvd v ms :                                    (* :596-:603 *)
    r_step (RState F_recvd v ms) (Fn, ARd v)
           (RState (match v with ENil => F_got | EEof => F_wait | EErr _ => F_ret end) v ms)
| R_go v ms :                                       (* :625-:626 *)
    r_step (RState F_got v ms) (Fn, AGo (length ms)) (RState F_recv v (ms ++ [M_start]))
| R_wait v ms :                                     (* tdwg.Wait(), :703 *)
    Forall (λ m, m = M_gone) ms →
    r_step (RState F_wait v ms) (Fn, AWait) (RState F_end v ms)
| R_end v ms :                                      (* :709-:713 *)
    r_step (RState F_end v ms) (Fn, ARd v) (RState F_ret v ms)
| R_deact pc v ms k errs :                          (* :639 *)
    ms !! k = Some M_start →
    r_step (RState pc v ms) (Mg k, ADeact errs)
           (RState pc v (<[k := if decide (errs = []) then M_rest else M_failed]> ms))
| R_log pc v ms k :                                 (* :641 *)
    ms !! k = Some M_failed →
    r_step (RState pc v ms) (Mg k, ARd v) (RState pc v (<[k := M_rest]> ms))
| R_done pc v ms k :                                (* :627 *)
    ms !! k = Some M_rest →
    r_step (RState pc v ms) (Mg k, ADone) (RState pc v (<[k := M_gone]> ms)).

(** Executions, from the start of the function goroutine. *)
Inductive r_run : trace → rstate → Prop :=
| R_start : r_run [] r_init
| R_more tr s a s' : r_run tr s → r_step s a s' → r_run (tr ++ [a]) s'.
