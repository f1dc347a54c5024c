(** Property theorems about pool filters: C01 - C05. *)
From Coq Require Import Ascii String ZArith NArith.
From stdpp Require Import prelude strings gmap.
From Verif.Model Require Import GoStrings Types Wire Proto Filter Cache Handlers.
From Verif.Spec Require Import FilterSpec HandlerSpec.
From Verif.Proofs Require Import FilterLemmas HandlerMore.
Local Open Scope string_scope.
Local Open Scope Z_scope.

(** Sample data: the doubles 10.0, 20.0, NaN, and a ticket with rank 10.0. *)
Definition ten : f64 := 0x4024000000000000%N.
Definition twenty : f64 := 0x4034000000000000%N.
Definition not_a_number : f64 := 0x7ff8000000000000%N.
Definition sample_attrs (v : f64) : filterable :=
  Filterable ["ranked"] {["mode" := "duel"]} {["rank" := v]} (Some (Timestamp 100 0)).
Definition sample_pool (b : Z) (tf : option time_filter) : pool :=
  Pool "p" ["ranked"] [("mode", "duel")] [DoubleFilter "rank" ten twenty b] tf None ∅.

(** C01: without a creation-time filter, a ticket with attributes is in the pool
    iff it satisfies every filter as the documentation says. *)
Theorem C01_pool_is_intersection : ∀ p a,
  po_time_filter p = None →
  Forall (λ f, DeclaredBounds (df_bounds f)) (po_double_filters p) →
  ∃ b, filter_in (Some p) (Some a) = Done b ∧ (b = true ↔ AttrMember p a).
Proof. exact filter_in_attrs. Qed.
Print Assumptions C01_pool_is_intersection.

(** The lower end is in the pool with bounds 0 and not with bounds 1; NaN never is. *)
Example C01_example :
  po_time_filter (sample_pool 0 None) = None ∧
  Forall (λ f, DeclaredBounds (df_bounds f)) (po_double_filters (sample_pool 1 None)) ∧
  filter_in (Some (sample_pool 0 None)) (Some (sample_attrs ten)) = Done true ∧
  filter_in (Some (sample_pool 1 None)) (Some (sample_attrs ten)) = Done false ∧
  filter_in (Some (sample_pool 0 None)) (Some (sample_attrs not_a_number)) = Done false.
Proof.
  split; [done|]. split; [repeat constructor; right; left; done|].
  split_and!; vm_compute; reflexivity.
Qed.

(** C02: the full claim, that the creation-time filter selects the tickets
    created inside its range. *)
Definition TimeFilterCorrect : Prop := ∀ p f a t,
  po_time_filter p = Some f → as_time (tf_start f) <= as_time (tf_end f) →
  fd_ctime a = Some t →
  in_time p (Some a) = true ↔
    InsideTime (tf_bounds f) (as_time (tf_start f)) (as_time (tf_end f)) (as_time (Some t)).

(** It is false: a ticket created at second 100 is not in [50, 150]. *)
Theorem C02_time_filter_refuted : ¬ TimeFilterCorrect.
Proof.
  intros H.
  specialize (H (sample_pool 0 (Some (TimeFilter (Some (Timestamp 50 0)) (Some (Timestamp 150 0)) 0)))
                _ (sample_attrs ten) _ eq_refl ltac:(vm_compute; discriminate) eq_refl).
  assert (in_time (sample_pool 0 (Some (TimeFilter (Some (Timestamp 50 0)) (Some (Timestamp 150 0)) 0)))
            (Some (sample_attrs ten)) = true) as Hc.
  { apply H. split; vm_compute; discriminate. }
  vm_compute in Hc. discriminate Hc.
Qed.
Print Assumptions C02_time_filter_refuted.

(** What the code does instead: it admits exactly the tickets created strictly
    after the end and strictly before the start. *)
Theorem C02_time_filter_actual : ∀ p f attrs,
  po_time_filter p = Some f →
  in_time p attrs = true ↔
    as_time (tf_end f) < as_time (attrs ≫= fd_ctime) < as_time (tf_start f).
Proof. exact in_time_spec. Qed.
Print Assumptions C02_time_filter_actual.

(** Hence a pool with a well-formed range (start <= end) is always empty. *)
Theorem C02_wellformed_range_selects_nothing : ∀ p f attrs,
  po_time_filter p = Some f → as_time (tf_start f) <= as_time (tf_end f) →
  filter_in (Some p) attrs = Done false.
Proof. exact wellformed_range_empty. Qed.
Print Assumptions C02_wellformed_range_selects_nothing.

Example C02_example :
  let p := sample_pool 0 (Some (TimeFilter (Some (Timestamp 150 0)) (Some (Timestamp 50 0)) 0)) in
  in_time p (Some (sample_attrs ten)) = true ∧
  filter_in (Some p) (Some (sample_attrs ten)) = Done true.
Proof. split; vm_compute; reflexivity. Qed.

(** C03: the full claim for any bounds value. *)
Definition NeverOutside : Prop := ∀ f v,
  double_in_bounds f v = true →
  XLe (ieee (df_min f)) (ieee v) ∧ XLe (ieee v) (ieee (df_max f)).

(** It is false: bounds value 4 admits everything, even NaN. *)
Theorem C03_unknown_bounds_refuted : ¬ NeverOutside.
Proof.
  intros H. destruct (H (DoubleFilter "rank" ten twenty 4) not_a_number) as [H1 _].
  - vm_compute. reflexivity.
  - vm_compute in H1. exact H1.
Qed.
Print Assumptions C03_unknown_bounds_refuted.

(** Missing from the full claim: bounds values other than the four declared ones. *)
Theorem C03_declared_bounds_partial : ∀ f v,
  DeclaredBounds (df_bounds f) → double_in_bounds f v = true →
  XLe (ieee (df_min f)) (ieee v) ∧ XLe (ieee v) (ieee (df_max f)).
Proof. exact double_in_bounds_closed. Qed.
Print Assumptions C03_declared_bounds_partial.

(** The exact set of offending bounds values: all undeclared ones admit every value. *)
Theorem C03_undeclared_admits_all : ∀ f v,
  ¬ DeclaredBounds (df_bounds f) → double_in_bounds f v = true.
Proof. exact undeclared_admits. Qed.
Print Assumptions C03_undeclared_admits_all.

Example C03_example :
  DeclaredBounds 3 ∧ ¬ DeclaredBounds 4 ∧
  double_in_bounds (DoubleFilter "rank" ten twenty 0) twenty = true ∧
  double_in_bounds (DoubleFilter "rank" ten twenty 2) twenty = false.
Proof.
  split; [do 3 right; done|]. split; [unfold DeclaredBounds; lia|].
  split; vm_compute; reflexivity.
Qed.

(** C04, first half: which pools validation accepts. The second half (a
    rejected pool never reaches a function) is C04_rejected_pool_gets_nothing in
    ChunkProps.v. *)
Theorem C04_validation_rule : ∀ p,
  pool_valid p = true ↔
    ∀ f, po_time_filter p = Some f →
      (∀ s, tf_start f = Some s → ValidTs s) ∧ (∀ e, tf_end f = Some e → ValidTs e).
Proof. exact pool_valid_spec. Qed.
Print Assumptions C04_validation_rule.

Example C04_example :
  pool_valid (sample_pool 0 (Some (TimeFilter None (Some (Timestamp 150 999999999)) 0))) = true ∧
  pool_valid (sample_pool 0 (Some (TimeFilter None (Some (Timestamp 150 1000000000)) 0))) = false ∧
  pool_valid (sample_pool 0 (Some (TimeFilter (Some (Timestamp (-62135596801) 0)) None 0))) = false.
Proof. split_and!; vm_compute; reflexivity. Qed.

(** C05: a ticket that came through CreateTicket can be filtered with any pool
    without a panic, whatever id it is stored under. *)
Theorem C05_stored_tickets_never_panic : ∀ ttl now o t id v p,
  SaneTTL ttl → SaneNow now → ClientTicketOk t → orders_ok (prepare_ticket ttl now t) o →
  create_ticket ttl now o (Some t) = Send [Update CmdTicket "" v] → (slen v < 2 ^ 64)%N →
  ∃ b, filter_in (Some p) (tk_attrs (stored_ticket id v)) = Done b.
Proof. exact stored_no_panic. Qed.
Print Assumptions C05_stored_tickets_never_panic.

(** C05: exactly when the filters would panic. *)
Theorem C05_panic_characterisation : ∀ p attrs,
  filter_in p attrs = Panic ↔
    p = None ∨ ∃ q, p = Some q ∧ attrs = None ∧ in_time q None = true ∧
                    (po_double_filters q ≠ [] ∨ po_string_filters q ≠ []).
Proof. exact filter_panics. Qed.
Print Assumptions C05_panic_characterisation.

(** A bare ticket from a client, created at second 1700000000. *)
Definition bare_ticket : ticket := Ticket "ignored" None None ∅.
Definition bare_value : string :=
  match create_ticket 600 1700000000000000000 (canon_orders (prepare_ticket 600 1700000000000000000 bare_ticket)) (Some bare_ticket) with
  | Send [u] => u_value u
  | _ => ""
  end.

Example C05_example :
  SaneTTL 600 ∧ SaneNow 1700000000000000000 ∧ ClientTicketOk bare_ticket ∧
  create_ticket 600 1700000000000000000 (canon_orders (prepare_ticket 600 1700000000000000000 bare_ticket))
    (Some bare_ticket) = Send [Update CmdTicket "" bare_value] ∧
  bare_value ≠ "" ∧
  filter_in (Some (sample_pool 0 None)) (tk_attrs (stored_ticket "1-1" bare_value)) = Done false ∧
  filter_in (Some (sample_pool 0 None)) None = Panic.
Proof.
  split; [unfold SaneTTL; lia|]. split; [unfold SaneNow; lia|].
  split; [unfold ClientTicketOk, client_doubles, client_strings, client_tags; simpl; split_and!; intros *; try rewrite lookup_empty; try done; intros Hf; by apply elem_of_nil in Hf|].
  split; [vm_compute; reflexivity|]. split; [vm_compute; discriminate|].
  split; vm_compute; reflexivity.
Qed.
