(** Property theorems about entries of the replication stream that this version of
    the program did not write: C85. *)
From Coq Require Import Ascii String ZArith NArith Lia.
From stdpp Require Import prelude strings gmap.
From Verif.Model Require Import GoStrings Types Filter Proto Cache RedisRepl.
From Verif.Spec Require Import CacheSpec ForeignSpec.
From Verif.Proofs Require Import ForeignLemmas.
Local Open Scope string_scope.

(** The full claims: reading the stream never crashes the instance; an entry of an
    unknown kind changes nothing. *)
Definition C85_NeverCrashes : Prop := ∀ count s cur ok, (redis_get count s cur ok).1 ≠ Panic.
Definition C85_ForeignIgnored : Prop := ∀ e c u, Foreign e → redis_decode e = Done u → apply_update c u = c.

(** Reading crashes exactly when an entry that is read lacks a part. *)
Theorem C85_crash_iff : ∀ count s cur,
  (redis_get count s cur true).1 = Panic ↔ ∃ e, e ∈ xread s count cur ∧ Short e.
Proof. exact get_panic. Qed.
Print Assumptions C85_crash_iff.

(** An entry of an unknown kind is read as the creation of a ticket without id or
    content. *)
Theorem C85_foreign_is_a_blank_ticket : ∀ e,
  Foreign e → redis_decode e = Done (Update CmdTicket "" "").
Proof. exact foreign_blank. Qed.
Print Assumptions C85_foreign_is_a_blank_ticket.

(** No other ticket and no assignment is touched, and the blank ticket is not
    active. *)
Theorem C85_foreign_harmless_partial : ∀ e c u,
  Foreign e → redis_decode e = Done u →
  (∀ k, k ≠ "" → c_tickets (apply_update c u) !! k = c_tickets c !! k) ∧
  c_assign (apply_update c u) = c_assign c ∧
  (∀ k, Active (apply_update c u) k ↔ k ≠ "" ∧ Active c k).
Proof. exact foreign_effect. Qed.
Print Assumptions C85_foreign_harmless_partial.

(** ** Witnesses and examples *)
Definition fgn_short : entry := Entry (5, 0)%Z ["assign"; "3-0"].
Definition fgn_new : entry := Entry (6, 0)%Z ["extend"; "3-0"].
Definition fgn_stream : stream := Stream [Entry (3, 0)%Z ["ticket"; "x"]; fgn_short; fgn_new] (6, 0)%Z.

Theorem C85_never_crashes_refuted : ¬ C85_NeverCrashes.
Proof. intros H. by apply (H 10%nat fgn_stream (3, 0)%Z true). Qed.
Print Assumptions C85_never_crashes_refuted.

Lemma fgn_foreign : Foreign fgn_new.
Proof. exists "extend", ["3-0"]. split; [done|]. unfold kinds. set_solver. Qed.

Theorem C85_foreign_ignored_refuted : ¬ C85_ForeignIgnored.
Proof.
  intros H. specialize (H fgn_new empty_cache _ fgn_foreign (foreign_blank _ fgn_foreign)).
  apply (f_equal (λ c, bool_decide (is_Some (c_tickets c !! "")))) in H. vm_compute in H. done.
Qed.
Print Assumptions C85_foreign_ignored_refuted.

Example C85_example :
  Short fgn_short ∧ Foreign fgn_new ∧
  (redis_get 1 fgn_stream (0, 0)%Z true).1 = Done [Update CmdTicket "3-0" "x"] ∧
  (redis_get 2 fgn_stream (0, 0)%Z true).1 = Panic ∧
  (redis_get 2 fgn_stream (5, 0)%Z true).1 = Done [Update CmdTicket "" ""].
Proof.
  split; [right; right; exists ["3-0"]; split; [done|simpl; lia]|]. split; [exact fgn_foreign|].
  split_and!; vm_compute; reflexivity.
Qed.
