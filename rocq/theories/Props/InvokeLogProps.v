(** C149: what the log says about an invocation. *)
From Coq Require Import Ascii String ZArith Lia.
From stdpp Require Import prelude strings gmap.
From Verif.Model Require Import GoStrings Types Filter Cache Chunk Logging FinalLog InvokeLog.
From Verif.Spec Require Import PageSpec InvokeLogSpec.
From Verif.Proofs Require Import CacheWitness InvokeLogLemmas.
Local Open Scope string_scope.

(** At the level debug the log tells the profile's name, how many tickets were looked at, how
    many ids were inactive without an assignment, how many pools there were and how many of them
    valid, and how many chunks each function is sent. *)
Theorem C149_tells_debug : ∀ p order ts u cs p' order' ts' u' cs',
  order ≡ₚ map_to_list (pr_pools p) → order' ≡ₚ map_to_list (pr_pools p') →
  build_requests p ts = Done cs → build_requests p' ts' = Done cs' →
  written LDebug (invoke_log p order ts u) = written LDebug (invoke_log p' order' ts' u') →
  pr_name p = pr_name p' ∧ length ts = length ts' ∧ u = u' ∧ size (valid_pools p) = size (valid_pools p') ∧
  size (pr_pools p) = size (pr_pools p') ∧ length cs = length cs'.
Proof. exact tells_debug. Qed.
Print Assumptions C149_tells_debug.
(** At the default level, info, all but the last. *)
Theorem C149_tells_info : ∀ p order ts u p' order' ts' u',
  order ≡ₚ map_to_list (pr_pools p) → order' ≡ₚ map_to_list (pr_pools p') →
  written LInfo (invoke_log p order ts u) = written LInfo (invoke_log p' order' ts' u') →
  pr_name p = pr_name p' ∧ length ts = length ts' ∧ u = u' ∧ InvalidPools p = InvalidPools p'.
Proof. exact tells_info. Qed.
Print Assumptions C149_tells_info.

(** The two numbers are right-aligned in columns of five characters, or more if they need more. *)
Theorem C149_columns : ∀ n, String.length (pad5 (dec n)) = Nat.max 5 (String.length (dec n)) ∧ ∃ k, pad5 (dec n) = spaces k +:+ dec n.
Proof. exact pad5_columns. Qed.
Print Assumptions C149_columns.

(** Invalid pools: at the levels error to trace there is one line for each, with its reason. *)
Theorem C149_each_invalid : ∀ p order ts u lv, order ≡ₚ map_to_list (pr_pools p) →
  length (filter (λ x, en_level x = LError) (written lv (invoke_log p order ts u))) =
  if decide (lv = LFatal ∨ lv = LPanic) then 0 else InvalidPools p.
Proof. exact each_invalid. Qed.
Print Assumptions C149_each_invalid.
Theorem C149_reasons : ∀ p order ts u e, order ≡ₚ map_to_list (pr_pools p) →
  length (filter (λ x, en_text x = LineFor e) (invoke_log p order ts u)) = InvalidFor p e.
Proof. intros p order ts u e. rewrite <- (line_for e). exact (reasons_told p order ts u e). Qed.
Print Assumptions C149_reasons.

(** "The log says which pools are invalid": false, even with everything logged. (C149_reasons is
    what it says about them.) *)
Definition C149_names : Prop := ∀ p order ts u p' order' ts' u',
  order ≡ₚ map_to_list (pr_pools p) → order' ≡ₚ map_to_list (pr_pools p') →
  written LTrace (invoke_log p order ts u) = written LTrace (invoke_log p' order' ts' u') →
  ∀ n, (∃ q, pr_pools p !! n = Some q ∧ pool_valid q = false) ↔ (∃ q, pr_pools p' !! n = Some q ∧ pool_valid q = false).
Definition bad_pool : pool := Pool "" [] [] [] (Some (TimeFilter (Some (Timestamp 0 (-1))) None 0)) None ∅.
Definition bad_profile (n : string) : profile := Profile "p" {[n := bad_pool]} ∅.
Theorem C149_names_refuted : ¬ C149_names.
Proof.
  intros H. destruct (H (bad_profile "a") [("a", bad_pool)] [] 0 (bad_profile "b") [("b", bad_pool)] [] 0) with (n := "a") as [H1 _];
    [by unfold bad_profile; cbn; rewrite map_to_list_singleton..|by vm_compute|].
  destruct H1 as (q & E & _); [exists bad_pool; split; [apply lookup_singleton|by vm_compute]|]. cbn in E. by rewrite lookup_singleton_ne in E.
Qed.
Print Assumptions C149_names_refuted.

(** "No directive of a format is left in a text": false of exactly the lines about invalid
    pools. *)
Definition C149_formatted : Prop := ∀ p order ts u x, order ≡ₚ map_to_list (pr_pools p) → x ∈ invoke_log p order ts u → ¬ Has "%" (en_text x).
Theorem C149_formatted_refuted : ¬ C149_formatted.
Proof.
  intros H. apply (H (bad_profile "a") [("a", bad_pool)] [] 0 (Entry LError "p" (invalid_text BadStart))).
  - unfold bad_profile. cbn. by rewrite map_to_list_singleton.
  - rewrite log_parts. apply elem_of_app. right. apply elem_of_app. left. vm_compute. left.
  - apply invalid_percent.
Qed.
Print Assumptions C149_formatted_refuted.
Theorem C149_formatted_partial : ∀ p order ts u x, x ∈ invoke_log p order ts u → Has "%" (en_text x) ↔ en_level x = LError.
Proof. exact percent_iff. Qed.
Print Assumptions C149_formatted_partial.

(** "As many tickets are inactive without assignment as the line says": false, as ids without
    tickets are counted. *)
Definition C149_unassigned : Prop := ∀ us, let c := apply_updates empty_cache us in
  unassigned c c = size (dom (c_tickets c) ∩ c_inactive c ∖ dom (c_assign c)).
Theorem C149_unassigned_refuted : ¬ C149_unassigned.
Proof. intros H. specialize (H [Update CmdDeactivate w_id ""]). by vm_compute in H. Qed.
Print Assumptions C149_unassigned_refuted.
Theorem C149_unassigned_partial : ∀ c, unassigned c c =
  size (dom (c_tickets c) ∩ c_inactive c ∖ dom (c_assign c)) + size (c_inactive c ∖ dom (c_tickets c) ∖ dom (c_assign c)).
Proof. exact unassigned_exact. Qed.
Print Assumptions C149_unassigned_partial.

Example C149_example : let p := Profile "p" {["a" := bad_pool; "b" := Pool "" [] [] [] None None ∅]} ∅ in
  en_text <$> written LInfo (invoke_log p (map_to_list (pr_pools p)) [] 1234) =
  ["     0 tickets active,  1234 tickets inactive without assignment";
   "Unable to fill pool with tickets, invalid: %wrpc error: code = InvalidArgument desc = .invalid creation time filter start value"] ∧
  en_text <$> drop 3 (written LDebug (invoke_log p (map_to_list (pr_pools p)) [] 7)) = ["Tickets filtered into 1 pools"; "1 pools split into 1 chunks"].
Proof. split; vm_compute; reflexivity. Qed.
