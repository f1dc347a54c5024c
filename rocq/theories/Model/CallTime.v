(** How long a call of InvokeMatchmakingFunctions takes (core/main.go:480-500, :513-723): the
    functions are called at the same time, each with its limit (Connect.v); each match they
    return has its tickets deactivated (:639), waits for the check (:648-667) and for the
    goroutine that sends matches to the caller, one at a time; the call ends when all functions
    have, those that ended normally after the goroutines of their matches (:703). Functions
    that failed do not wait for those (:602).

    Simplifications: computing takes no time; the check is the sleep of 100 ms (:661, the
    timeout of :654 cannot be ready, C43); REST functions (which end at once), matches without
    tickets and sends on the closed channel, which end the process (C42), are left out. *)
From Coq Require Import ZArith.
From stdpp Require Import prelude.
From Verif.Model Require Import Types Connect.
Local Open Scope Z_scope.

(** A match: when it comes, after the call of the function is open; how long its tickets take to be
    deactivated; how long stream.Send (:493) takes. *)
Record fmatch := FMatch { m_after : Z; m_update : Z; m_send : Z }.
(** A function: its addresses; when it ends the stream, after the call is open; whether it does so
    without an error; its matches. *)
Record fcall := FCall { fc_dns : dns; fc_run : Z; fc_ok : bool; fc_matches : list fmatch }.

(** :661 *)
Definition check_time : Z := 100 * millisecond.

(** When a function's receive loop ends (:590-603), and if with io.EOF (:596). *)
Definition fn_end (limit start : Z) (f : fcall) : instant :=
  match run_call limit start start (fc_dns f) with
  | NotOpen t => t
  | Open t => Z.min (t + fc_run f) (start + limit)
  end.
Definition fn_complete (limit start : Z) (f : fcall) : bool :=
  match run_call limit start start (fc_dns f) with
  | NotOpen _ => false
  | Open t => fc_ok f && (t + fc_run f <? start + limit)
  end.

(** A match that was received: of which function, when its goroutine is ready to hand it over
    (:671-681), how long it is sent. *)
Record item := Item { it_fn : nat; it_ready : instant; it_send : Z }.
Definition items_of (wait : bool) (limit start : Z) (i : nat) (f : fcall) : list item :=
  match run_call limit start start (fc_dns f) with
  | NotOpen _ => []
  | Open t =>
      (λ m, Item i (t + m_after m + m_update m + if wait then check_time else 0) (m_send m)) <$>
      filter (λ m, t + m_after m <= fn_end limit start f) (fc_matches f)
  end.
Fixpoint all_items (wait : bool) (limit start : Z) (i : nat) (fs : list fcall) : list item :=
  match fs with
  | [] => []
  | f :: fs' => items_of wait limit start i f ++ all_items wait limit start (S i) fs'
  end.

(** The goroutine that sends matches (:485-500) takes them in some order; the times at which
    it takes them. *)
Fixpoint serve (now : instant) (l : list item) : list (item * instant) :=
  match l with
  | [] => []
  | x :: l' => let t := Z.max now (it_ready x) in (x, t) :: serve (t + it_send x) l'
  end.
(** It takes none that comes later when there is one already (:489). *)
Fixpoint no_idling (now : instant) (l : list item) : Prop :=
  match l with
  | [] => True
  | x :: l' => Forall (λ y, it_ready x <= Z.max now (it_ready y)) l' ∧
      no_idling (Z.max now (it_ready x) + it_send x) l'
  end.
(** All matches of functions that ended normally are taken; others may be. *)
Definition served_ok (wait : bool) (limit start : Z) (fs : list fcall) (served : list item) : Prop :=
  no_idling start served ∧
  ∃ rest, served ++ rest ≡ₚ all_items wait limit start 0 fs ∧
    ∀ x f, x ∈ rest → fs !! it_fn x = Some f → fn_complete limit start f = false.

(** When the goroutine of a match is done: the check is at its end if it was not before (:685);
    when that of a function is (:703, :602). *)
Definition match_done (wait : bool) (xt : item * instant) : instant := xt.2 + if wait then 0 else check_time.
Definition latest (l : list instant) (d : instant) : instant := foldr Z.max d l.
Definition fn_done (wait : bool) (limit start : Z) (taken : list (item * instant)) (i : nat) (f : fcall) : instant :=
  if fn_complete limit start f
  then latest (match_done wait <$> filter (λ xt, it_fn xt.1 = i) taken) (fn_end limit start f)
  else fn_end limit start f.
(** :720-723 *)
Definition invoke_end (wait : bool) (limit start : Z) (fs : list fcall) (served : list item) : instant :=
  latest (imap (fn_done wait limit start (serve start served)) fs) start.
