(** Notions for watches. *)
From Coq Require Import Ascii String ZArith NArith.
From stdpp Require Import prelude strings gmap.
From Verif.Model Require Import GoStrings Types Watch.
Local Open Scope Z_scope.

(** [s2] can follow [s1] in a watch of [ids]. *)
Definition w_later (ttl : Z) (ids : list string) (s1 s2 : wstate) : Prop := rtc (w_step ttl ids) s1 s2.

Definition w_ended (s : wstate) : Prop := ∃ b, w_handler s = Returned b.
Definition w_timed_out (s : wstate) : Prop := w_handler s = Returned true.

(** Is a goroutine of the watch still running? *)
Definition w_running (s : wstate) : Prop := ∃ j id p, w_pollers s !! j = Some (id, p) ∧ p ≠ Finished.

(** An id issued by the in-memory store (seconds) or by Redis (milliseconds) no
    later than [now]. *)
Definition MemIdBy (now : instant) (id : string) : Prop :=
  ∃ t k, id = (format_Z t +:+ "-" +:+ format_Z k)%string ∧ 0 <= t ∧ t * 1000000000 <= now.
Definition RedisIdBy (now : instant) (id : string) : Prop :=
  ∃ t k, id = (format_Z t +:+ "-" +:+ format_Z k)%string ∧ 0 <= t ∧ t * 1000000 <= now.
