(** Property theorems about replication ids: C08 - C11. *)
From Coq Require Import Ascii String ZArith NArith Sorting.
From stdpp Require Import prelude strings gmap.
From Verif.Model Require Import GoStrings Types MemRepl RedisRepl.
From Verif.Spec Require Import StringSpec IdSpec.
From Verif.Proofs Require Import StringLemmas MemLemmas RedisLemmas.
Local Open Scope string_scope.
Local Open Scope Z_scope.

(** C08: with a clock that never runs backwards, the ids issued by the
    in-memory store (over all updates since its start) are strictly increasing,
    hence pairwise different. *)
Theorem C08_ids_increasing : ∀ t0 us uo rs st',
  mem_send (mem_new t0) us = (uo, rs, st') → 0 <= t0 → Monotone t0 us.*2 →
  IncreasingIds (map r_result rs) ∧ NoDup (map r_result rs).
Proof. exact mem_ids_increasing. Qed.
Print Assumptions C08_ids_increasing.

(** Three updates, the third in a later second. *)
Definition three_updates (t1 t2 t3 : Z) : list (update * (instant * instant)) :=
  [(Update CmdTicket "" "a", (t1, t1)); (Update CmdTicket "" "b", (t2, t2)); (Update CmdActivate "x-1" "", (t3, t3))].
Example C08_example :
  Monotone (10 * giga) (three_updates (10 * giga + 5) (10 * giga + 6) (11 * giga)).*2 ∧
  map r_result (mem_send (mem_new (10 * giga)) (three_updates (10 * giga + 5) (10 * giga + 6) (11 * giga))).1.2
    = ["10-1"; "10-2"; "11-0"].
Proof.
  split; [|vm_compute; reflexivity].
  unfold Monotone. repeat (constructor; try (vm_compute; discriminate)).
Qed.

(** C09: the full claim, uniqueness without any assumption on the clock. *)
Definition UniqueWhateverTheClock : Prop := ∀ t0 us uo rs st',
  mem_send (mem_new t0) us = (uo, rs, st') → 0 <= t0 → NoDup (map r_result rs).

(** It is false: seconds 10, 11, 10, 10 yield 10-1, 11-0, 10-0, 10-1. *)
Theorem C09_clock_step_back_refuted : ¬ UniqueWhateverTheClock.
Proof. exact clock_step_back. Qed.
Print Assumptions C09_clock_step_back_refuted.

(** Missing from the full claim: clocks that go back to an earlier second. Steps
    back within a second are harmless. *)
Theorem C09_unique_partial : ∀ t0 us uo rs st',
  mem_send (mem_new t0) us = (uo, rs, st') → 0 <= unix_secs t0 → MonotoneSecs t0 us.*2 →
  NoDup (map r_result rs).
Proof. exact mem_ids_unique_secs. Qed.
Print Assumptions C09_unique_partial.

Example C09_example :
  MonotoneSecs (10 * giga + 9) (three_updates (10 * giga + 5) (10 * giga + 2) (11 * giga)).*2 ∧
  ¬ Monotone (10 * giga + 9) (three_updates (10 * giga + 5) (10 * giga + 2) (11 * giga)).*2.
Proof.
  split.
  - unfold MonotoneSecs. repeat (constructor; try (vm_compute; discriminate)).
  - unfold Monotone. intros H. apply Sorted_inv in H as [_ H]. apply HdRel_inv in H.
    vm_compute in H. by apply H.
Qed.

(** C10: an id built from a time and an index is accepted by validation, and its
    time is what the cache's expiry reads back. *)
Theorem C10_ids_valid_and_dated : ∀ t k,
  0 <= t <= max_i64 → 0 <= k →
  valid_ticket_id (id_text (t, k)) = true ∧ WellFormedId (id_text (t, k)) ∧ id_time (id_text (t, k)) = t.
Proof. exact id_text_ok. Qed.
Print Assumptions C10_ids_valid_and_dated.

Theorem C10_ids_injective : ∀ p q,
  0 <= p.1 → 0 <= p.2 → 0 <= q.1 → 0 <= q.2 → id_text p = id_text q → p = q.
Proof. exact id_text_inj. Qed.
Print Assumptions C10_ids_injective.

(** The in-memory store: the time in the id is that of a clock reading made for
    this very id. *)
Theorem C10_memory_ids : ∀ st clk rid st',
  get_repl_id st clk = (rid, st') → 0 <= unix_secs (mr_ts st) <= max_i64 →
  0 <= unix_secs clk.2 <= max_i64 → 0 <= mr_count st →
  valid_ticket_id rid = true ∧ WellFormedId rid ∧
  ((unix_secs clk.1 = unix_secs (mr_ts st) ∧ id_time rid = unix_secs clk.1) ∨
   (unix_secs clk.1 ≠ unix_secs (mr_ts st) ∧ id_time rid = unix_secs clk.2)).
Proof. exact get_repl_id_ok. Qed.
Print Assumptions C10_memory_ids.

(** The Redis store: the ids XADD generates. *)
Theorem C10_redis_ids : ∀ s ms fields s' i,
  xadd s ms fields = (s', i) → 0 <= (st_last s).1 <= max_i64 → 0 <= (st_last s).2 → ms <= max_i64 →
  valid_ticket_id (sid_str i) = true ∧ WellFormedId (sid_str i) ∧ id_time (sid_str i) = i.1 ∧ ms <= i.1.
Proof. exact xadd_id_ok. Qed.
Print Assumptions C10_redis_ids.

Example C10_example :
  id_text (1700000000, 12) = "1700000000-12" ∧ id_time "1700000000-12" = 1700000000 ∧
  (xadd empty_stream 1700000000000 ["ticket"; "x"]).2 = (1700000000000, 0) ∧
  (get_repl_id (mem_new (7 * giga)) (7 * giga + 1, 0)).1 = "7-1".
Proof. split_and!; vm_compute; reflexivity. Qed.

(** C11: the full claim. *)
Definition OnlyWellFormedAccepted : Prop := ∀ id, valid_ticket_id id = true → WellFormedId id.

(** It is false, since the regular expression is not anchored. *)
Theorem C11_unanchored_refuted : ¬ OnlyWellFormedAccepted.
Proof. exact unanchored. Qed.
Print Assumptions C11_unanchored_refuted.

(** Exactly the strings containing a dash are accepted. *)
Theorem C11_accepts_iff_dash : ∀ id, valid_ticket_id id = true ↔ HasDash id.
Proof. exact valid_ticket_id_spec. Qed.
Print Assumptions C11_accepts_iff_dash.

(** The regular expression itself describes well-formed ids; only the search is
    too liberal. *)
Theorem C11_regex_language : ∀ s, Lang repl_id_regex s ↔ WellFormedId s.
Proof. exact lang_repl_id. Qed.
Print Assumptions C11_regex_language.

Example C11_example :
  valid_ticket_id "'; drop-table" = true ∧ valid_ticket_id "1700000000" = false ∧ valid_ticket_id "1-2" = true.
Proof. split_and!; vm_compute; reflexivity. Qed.
