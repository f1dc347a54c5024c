(** Vocabulary for C151. *)
From Coq Require Import ZArith.
From stdpp Require Import prelude.
From Verif.Model Require Import Types Connect CallTime.
From Verif.Spec Require Import ConnectSpec.
Local Open Scope Z_scope.

(** Things take time, and do not happen before their causes. *)
Definition SaneMatch (m : fmatch) : Prop := 0 <= m_after m ∧ 0 <= m_update m ∧ 0 <= m_send m.
Definition SaneFn (start : instant) (f : fcall) : Prop :=
  SaneDns start (fc_dns f) ∧ 0 <= fc_run f ∧ Forall SaneMatch (fc_matches f).
(** The time it takes to send all of the matches. *)
Definition Sending (fs : list fcall) : Z := Total (fs ≫= (λ f, m_send <$> fc_matches f)).
Definition MatchOf (fs : list fcall) (m : fmatch) : Prop := ∃ f, f ∈ fs ∧ m ∈ fc_matches f.
(** The function ends normally, in time. *)
Definition EndsWell (limit start : Z) (f : fcall) (t : instant) : Prop :=
  ∃ o, run_call limit start start (fc_dns f) = Open o ∧ fc_ok f = true ∧ t = o + fc_run f ∧ t < start + limit.
(** The function ends at [t], or is given up. *)
Definition FnEnds (limit start : Z) (f : fcall) (t : instant) : Prop :=
  run_call limit start start (fc_dns f) = NotOpen t ∨
  ∃ o, run_call limit start start (fc_dns f) = Open o ∧
    (o + fc_run f <= start + limit ∧ t = o + fc_run f ∨ start + limit < o + fc_run f ∧ t = start + limit).
(** [t] is the latest of some moments. *)
Definition Latest (P : instant → Prop) (t : instant) : Prop := P t ∧ ∀ u, P u → u <= t.
(** What the call has to wait for if sending takes no time. *)
Definition WaitedFor (limit start : Z) (fs : list fcall) (t : instant) : Prop :=
  t = start ∨ (∃ f, f ∈ fs ∧ FnEnds limit start f t) ∨
  ∃ f m e, f ∈ fs ∧ m ∈ fc_matches f ∧ EndsWell limit start f e ∧ m_after m <= fc_run f ∧
    t = e - fc_run f + m_after m + m_update m + 100 * 1000000.
