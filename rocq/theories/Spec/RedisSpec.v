(** What the Redis-backed replicator should do, in terms of a log of updates. *)
From Coq Require Import Ascii String ZArith NArith Sorting.
From stdpp Require Import prelude strings.
From Verif.Model Require Import GoStrings Types Filter RedisRepl RedisReader.
From Verif.Spec Require Import IdSpec.
Local Open Scope string_scope.
Local Open Scope Z_scope.

(** Updates with all required parts. *)
Definition Sendable (u : update) : Prop :=
  match u_cmd u with
  | CmdTicket => u_value u ≠ ""
  | CmdActivate | CmdDeactivate => u_key u ≠ ""
  | CmdAssign => u_key u ≠ "" ∧ u_value u ≠ ""
  | CmdOther => False
  end.
Global Instance Sendable_dec u : Decision (Sendable u).
Proof. unfold Sendable. destruct (u_cmd u); apply _. Defined.

(** The update a reader should see for [u] stored under stream id [i]: a new
    ticket gets the stream id as its key. *)
Definition as_read (i : Z * Z) (u : update) : update :=
  match u_cmd u with
  | CmdTicket => Update CmdTicket (id_text i) (u_value u)
  | CmdActivate => Update CmdActivate (u_key u) ""
  | CmdDeactivate => Update CmdDeactivate (u_key u) ""
  | CmdAssign => Update CmdAssign (u_key u) (u_value u)
  | CmdOther => u
  end.

(** The log entries that a batch should produce: its sendable updates whose
    command the server executed, with the ids the server gave them. *)
Fixpoint log_batch (l : sid) (us : list update) (os : list xadd_outcome) : list (sid * update) :=
  match us with
  | [] => []
  | u :: us' =>
      if decide (Sendable u) then
        match os with
        | XaddOk ms :: os' => (next_sid l ms, u) :: log_batch (next_sid l ms) us' os'
        | XaddErr :: os' => log_batch l us' os'
        | [] => []
        end
      else log_batch l us' os
  end.

(** The answers that the updates of a batch should get. *)
Fixpoint own_answers (l : sid) (us : list update) (os : list xadd_outcome) : list response :=
  match us, os with
  | u :: us', XaddOk ms :: os' => Response (id_text (next_sid l ms)) None :: own_answers (next_sid l ms) us' os'
  | u :: us', XaddErr :: os' => Response "" (Some EReply) :: own_answers l us' os'
  | _, _ => []
  end.

Definition executed (po : pipe_outcome) : list xadd_outcome :=
  match po with PipeOk os => os | PipeFail os => os end.

Definition last_id (l : sid) (log : list (sid * update)) : sid := default l (last log.*1).

(** The log of a run, starting after id [l]. *)
Fixpoint run_log (l : sid) (es : list rdev) : list (sid * update) :=
  match es with
  | [] => []
  | RSend _ po us :: es' =>
      let b := log_batch l us (executed po) in (b ++ run_log (last_id l b) es')%list
  | RPoll _ :: es' => run_log l es'
  end.

(** [e] is the stream entry of log entry [p]. *)
Definition Holds (e : entry) (p : sid * update) : Prop :=
  e_id e = p.1 ∧ redis_decode e = Done (as_read p.1 p.2).

(** [s] contains exactly the log [log]: ids increase, are above 0-0, and are not
    above the last id. *)
Definition StreamOf (s : stream) (log : list (sid * update)) : Prop :=
  Forall2 Holds (st_entries s) log ∧ StronglySorted LexLt log.*1 ∧
  (∀ p, p ∈ log → LexLt (0, 0) p.1) ∧
  (∀ p, p ∈ log → p.1 = st_last s ∨ LexLt p.1 (st_last s)) ∧
  (st_last s = (0, 0) ∨ LexLt (0, 0) (st_last s)).

(** No batch trims an entry that the reader has not read yet. *)
Fixpoint TrimsOnlyRead (ttl : Z) (count : nat) (st : rstate) (es : list rdev) : Prop :=
  match es with
  | [] => True
  | e :: es' =>
      match e with
      | RSend now po us =>
          ∀ i, (i ∈ map e_id (st_entries (rs_stream st)) ∨
                i ∈ (log_batch (st_last (rs_stream st)) us (executed po)).*1) →
               i.1 < unix_secs now - ttl → ¬ LexLt (rs_cursor st) i
      | RPoll _ => True
      end ∧ TrimsOnlyRead ttl count (rstep ttl count st e) es'
  end.
