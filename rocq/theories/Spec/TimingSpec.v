(** How long things may take in the replication loops. *)
From Coq Require Import Ascii String ZArith NArith.
From stdpp Require Import prelude strings gmap relations.
From Verif.Model Require Import GoStrings Types Cache MemRepl Queues Timing.
From Verif.Spec Require Import CacheSpec.
Local Open Scope Z_scope.

(** Requests per batch. *)
Definition batch_size (p : oparams) : Z := Z.max 1 (op_thr p).

(** The latest answer to a request: one collection time, and the executions of
    the batch under way, of the full batches of those ahead, and of its own. *)
Definition answer_by (p : oparams) (o : offered) : instant :=
  of_at o + op_wait p + (Z.of_nat (of_ahead o) / batch_size p + 2) * op_send p.

Definition SaneOut (p : oparams) : Prop := 0 < op_wait p ∧ 0 <= op_send p.

Definition SaneIn (p : iparams) : Prop := 0 <= ip_wait p ∧ 0 <= ip_apply p ∧ 0 <= ip_cycle p.

(** The stretch of updates under way is at most [l] long. *)
Definition StretchWithin (l : Z) (s : istate) : Prop :=
  match is_phase s with IApply since _ _ _ _ => is_now s <= since + l | _ => True end.

(** A step after which the stretch under way is at most [l] long. *)
Definition istep_within (cfg : config) (p : iparams) (l : Z) (s s' : istate) : Prop :=
  istep cfg p s s' ∧ StretchWithin l s'.

(** From this instant on an id is older than [limit] seconds. *)
Definition old_from (limit : Z) (k : string) : instant := (id_time k + limit + 1) * giga.

Definition half_a_second : Z := 500 * 1000000.

(** The timer of :166 never ends a stretch: only an empty channel does. *)
Definition OnlyEmptyEnds (cfg : config) (p : iparams) : Prop := ∀ t s s' since r h m a since',
  rtc (istep cfg p) (i_init t) s → istep cfg p s s' →
  is_phase s = IApply since r h m a → is_phase s' = ICycle since' → is_chan s = [].

(** The claim of the comment at replicatedticketcache.go:164-166, "a hard limit":
    no stretch of updates is longer than the limit (and the round that notices). *)
Definition HardLimit : Prop := ∀ cfg p t s,
  SaneIn p → rtc (istep cfg p) (i_init t) s → StretchWithin (half_a_second + ip_apply p) s.

(** Every expired ticket is gone a bounded time after it has expired and was last
    updated. *)
Definition GoneInTime : Prop := ∀ cfg p, SaneIn p → ∃ l, ∀ t s k tk tau,
  rtc (istep cfg p) (i_init t) s → c_tickets (is_cache s) !! k = Some tk →
  is_touched s !! k = Some tau → is_now s <= Z.max (as_time (tk_exp tk)) tau + l.
