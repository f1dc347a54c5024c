(** Notions for callers that go away. *)
From Coq Require Import Ascii String ZArith NArith.
From stdpp Require Import prelude strings gmap relations.
From Verif.Model Require Import GoStrings Types Watch Gone.

(** [y] can follow [x] when callers may go away. *)
Definition g_later {St} (step : St → St → Prop) (x y : St * gset nat) : Prop := rtc (gone_step step) x y.

(** What a watch does by itself: no time passes and no assignment is made or lost. *)
Definition OwnStep (ttl : Z) (ids : list string) (s s' : wstate) : Prop :=
  w_step ttl ids s s' ∧ w_clock s' = w_clock s ∧ w_assignments s' = w_assignments s.
Definition CanEnd (ttl : Z) (ids : list string) (s : wstate) : Prop :=
  ∃ s', rtc (OwnStep ttl ids) s s' ∧ ∃ b, w_handler s' = Returned b.
