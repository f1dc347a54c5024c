(** C130: the WaitGroups. *)
From Coq Require Import Ascii String ZArith NArith.
From stdpp Require Import prelude strings relations.
From Verif.Model Require Import GoStrings Types Matchmaker WaitGroup.
From Verif.Spec Require Import MatchmakerSpec WaitGroupSpec.
From Verif.Proofs Require Import WaitGroupLemmas.
Local Open Scope nat_scope.

(** mmfwg and tdwg, where Add comes before the go statement. *)
Theorem C130_core_never_panics : ∀ s, c_later c_init s → c_panic s = None.
Proof. exact core_never_panics. Qed.
Print Assumptions C130_core_never_panics.

Theorem C130_core_waits_for_all : ∀ s g,
  c_later c_init s → c_main s = MBack → g ∈ c_gs s → g = GOver.
Proof. exact core_waits_for_all. Qed.
Print Assumptions C130_core_waits_for_all.

Theorem C130_core_wait_returns : ∀ s, c_later c_init s →
  ∃ s', c_later s s' ∧ c_main s' = MBack ∧ length (c_gs s') = length (c_gs s).
Proof. exact core_wait_returns. Qed.
Print Assumptions C130_core_wait_returns.

(** activationWg, where the started goroutine calls Add. *)
Definition C130_ActivationNeverPanics : Prop := ∀ q0 s, b_later (b_init q0) s → b_panic s = None.

Theorem C130_activation_never_panics_refuted : ¬ C130_ActivationNeverPanics.
Proof.
  intros H. destruct (many_can_misuse (replicate (Z.to_nat 501) "")) as (s & Hs & _ & Hp).
  - rewrite replicate_length. vm_compute. done.
  - by rewrite (H _ _ Hs) in Hp.
Qed.
Print Assumptions C130_activation_never_panics_refuted.

(** It can panic exactly when more ids arrive than fit into one batch: *)
Theorem C130_activation_panics_iff_partial : ∀ q0,
  (∃ s, b_later (b_init q0) s ∧ b_arrived s = q0 ∧ b_panic s ≠ None) ↔ (500 < Z.of_nat (length q0))%Z.
Proof. exact crash_iff. Qed.
Print Assumptions C130_activation_panics_iff_partial.

(** in both ways, and in no other way; *)
Theorem C130_activation_misuse : ∀ q0, (500 < Z.of_nat (length q0))%Z →
  ∃ s, b_later (b_init q0) s ∧ b_arrived s = q0 ∧ b_panic s = Some Misuse.
Proof. exact many_can_misuse. Qed.
Print Assumptions C130_activation_misuse.

Theorem C130_activation_reused : ∀ q0, (500 < Z.of_nat (length q0))%Z →
  ∃ s, b_later (b_init q0) s ∧ b_arrived s = q0 ∧ b_panic s = Some Reused.
Proof. exact many_can_reuse. Qed.
Print Assumptions C130_activation_reused.

Theorem C130_activation_never_negative : ∀ q0 s, b_later (b_init q0) s → b_panic s ≠ Some Negative.
Proof. exact panic_kinds. Qed.
Print Assumptions C130_activation_never_negative.

(** and never before more than 500 ids have arrived, those before the call and those
    during it taken together. *)
Theorem C130_activation_safe_partial : ∀ q0 s,
  b_later (b_init q0) s → (Z.of_nat (length (b_arrived s)) <= 500)%Z → b_panic s = None.
Proof. exact few_never_panic. Qed.
Print Assumptions C130_activation_safe_partial.

(** As long as it does not panic, it does what C53 and C68 say of it. *)
Theorem C130_activation_refines : ∀ q0 s,
  b_later (b_init q0) s → b_panic s = None → a_later (a_init q0) (outside s).
Proof. exact no_panic_refines. Qed.
Print Assumptions C130_activation_refines.

(** Two goroutines, one of which ends while Wait sleeps; and the panic of the second
    Add, for a first batch that is still small. *)
Example C130_example :
  (∃ s, c_later c_init s ∧ c_main s = MAsleep ∧ c_gs s = [GOver; GBusy] ∧ c_wg s = WG 1 1 0) ∧
  b_step (BState AWaiting MAsleep [] ["b"] [(["a"], GZero 1); (["b"], GNew)] ["a"; "b"] (WG 0 1 0) None)
         (BState AWaiting MAsleep [] ["b"] [(["a"], GZero 1); (["b"], GBusy)] ["a"; "b"] (WG 1 1 0) (Some Misuse)) ∧
  outside (BState AWaiting MAsleep [] ["b"] [(["a"], GZero 1); (["b"], GNew)] ["a"; "b"] (WG 0 1 0) None)
  = AState AWaiting [] ["b"] [(["a"], CallDone); (["b"], CallNew)] ["a"; "b"].
Proof.
  split; [|split; [|reflexivity]].
  - exists (CState false MAsleep [GOver; GBusy] (WG 1 1 0) None). split; [|done].
    eapply rtc_l; [apply C_spawn|]. eapply rtc_l; [apply C_spawn|]. eapply rtc_l; [apply C_wait|].
    eapply rtc_l; [apply C_main, MS_sleep|]. apply rtc_once. exact (C_go false MAsleep [GBusy; GBusy] (WG 2 1 0) 0 GBusy (WG 1 1 0) GOver None eq_refl (GS_done 1 1 0)).
  - exact (B_go 1 ["b"] GNew AWaiting MAsleep [] ["b"] [(["a"], GZero 1); (["b"], GNew)] ["a"; "b"] (WG 0 1 0) (WG 1 1 0) GBusy (Some Misuse) eq_refl (GS_add (WG 0 1 0))).
Qed.
