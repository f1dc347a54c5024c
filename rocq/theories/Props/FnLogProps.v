(** C150: what the log says about the call of a function. *)
From Coq Require Import Ascii String ZArith Lia.
From stdpp Require Import prelude strings.
From Verif.Model Require Import GoStrings Logging Dial InvokeLog FnLog.
From Verif.Spec Require Import FnLogSpec.
From Verif.Proofs Require Import FnLogLemmas.
Local Open Scope string_scope.
Local Open Scope Z_scope.

(** At debug level the log tells how the call of a function ended, at which address it was, its
    name unless its type is REST, and the sizes of the messages it was sent, to hundredths of a
    megabyte. *)
Theorem C150_tells : ∀ name host port sizes o name' host' port' sizes' o',
  Forall (λ b, 0 <= b) sizes → Forall (λ b, 0 <= b) sizes' →
  fn_written LDebug (fn_log name host port sizes o) = fn_written LDebug (fn_log name' host' port' sizes' o') →
  SameKind o o' ∧ mmf_target host port = mmf_target host' port' ∧ (o ≠ Rest → name = name') ∧
  (∀ e, o = NoDial e → o' = NoDial e) ∧
  (Sent o → length sizes = length sizes' ∧ hundredths <$> sizes = hundredths <$> sizes').
Proof. intros *. rewrite !all_debug. apply tells. Qed.
Print Assumptions C150_tells.

(** The line of a message has its number, that of all, and its size rounded to the nearest
    hundredth of a megabyte, of two the even one. *)
Theorem C150_chunk_lines : ∀ name host port sizes o k b, Sent o → sizes !! k = Some b →
  fn_log name host port sizes o !! (2 + k)%nat =
  Some (FEntry LDebug (Some (name, mmf_target host port))
    ("MMF request chunk " +:+ pad2 (Z.of_nat (S k)) +:+ "/" +:+ pad2 (Z.of_nat (length sizes)) +:+ ": " +:+ megabytes b +:+ "mb")).
Proof. exact chunk_line. Qed.
Print Assumptions C150_chunk_lines.
Theorem C150_two_digits : ∀ z, 0 <= z →
  String.length (pad2 z) = Nat.max 2 (String.length (format_Z z)) ∧ (pad2 z = format_Z z ∨ pad2 z = "0" +:+ format_Z z).
Proof. exact pad2_columns. Qed.
Print Assumptions C150_two_digits.
Theorem C150_rounding : ∀ b, let h := hundredths b in
  2 * Z.abs (h * 2 ^ 20 - b * 100) <= 2 ^ 20 ∧ (2 * Z.abs (h * 2 ^ 20 - b * 100) = 2 ^ 20 → Z.even h = true).
Proof.
  intros b. cbv zeta. pose proof (hundredths_near b) as H1. pose proof (hundredths_even b) as H2.
  change (2 ^ 18) with 262144 in *. change (2 ^ 20) with 1048576. split; [lia|]. intros H. apply H2. lia.
Qed.
Print Assumptions C150_rounding.

(** "A function that fails is in the log of errors": false of functions that are not reached,
    for which the log says only that om-core is connected. *)
Definition C150_noticed : Prop := ∀ name host port sizes o, Fails o → fn_written LError (fn_log name host port sizes o) ≠ [].
Theorem C150_noticed_refuted : ¬ C150_noticed.
Proof. intros H. by apply (H "f" "h" 1 [] (NoRun "")). Qed.
Print Assumptions C150_noticed_refuted.
Theorem C150_noticed_partial : ∀ name host port sizes o,
  fn_written LError (fn_log name host port sizes o) ≠ [] ↔ (Fails o ∧ ∀ e, o ≠ NoRun e).
Proof. exact noticed_iff. Qed.
Print Assumptions C150_noticed_partial.
Theorem C150_not_reached : ∀ name host port sizes e,
  fn_log name host port sizes (NoRun e) = [FEntry LDebug (Some (name, mmf_target host port)) "connected to MMF"].
Proof. reflexivity. Qed.
Print Assumptions C150_not_reached.

(** "The log says why a function failed": false of all failures but those of grpc.Dial. *)
Definition C150_why : Prop := ∀ name host port sizes o o', fn_log name host port sizes o = fn_log name host port sizes o' → o = o'.
Theorem C150_why_refuted : ¬ C150_why.
Proof. intros H. by specialize (H "f" "h" 1 [] (Broke "a") (Broke "b") eq_refl). Qed.
Print Assumptions C150_why_refuted.
Theorem C150_why_partial : ∀ name host port sizes o o', fn_log name host port sizes o = fn_log name host port sizes o' ↔
  SameKind o o' ∧ ∀ e, o = NoDial e → o' = NoDial e.
Proof. exact same_log. Qed.
Print Assumptions C150_why_partial.

(** "Errors have the fields with the function's name and address": false of functions of type
    REST only. *)
Definition C150_named : Prop := ∀ name host port sizes o x, x ∈ fn_written LError (fn_log name host port sizes o) →
  fe_fn x = Some (name, mmf_target host port).
Theorem C150_named_refuted : ¬ C150_named.
Proof. intros H. exact (proj1 (named_iff "f" "h" 1 [] Rest) (H "f" "h" 1 [] Rest) eq_refl). Qed.
Print Assumptions C150_named_refuted.
Theorem C150_named_partial : ∀ name host port sizes o,
  (∀ x, x ∈ fn_written LError (fn_log name host port sizes o) → fe_fn x = Some (name, mmf_target host port)) ↔ o ≠ Rest.
Proof. exact named_iff. Qed.
Print Assumptions C150_named_partial.

Example C150_example :
  fe_text <$> fn_log "f" "h" 80 [3999990; 5243; 12] Complete =
  ["connected to MMF"; "waiting for results"; "MMF request chunk 01/03: 3.81mb"; "MMF request chunk 02/03: 0.01mb";
   "MMF request chunk 03/03: 0.00mb"; "MMF stream complete"; "async call to mmf complete"] ∧
  fe_text <$> fn_written LInfo (fn_log "f" "h" 80 [3999990] (Broke "connection reset")) = ["MMF Error"] ∧
  fn_written LInfo (fn_log "f" "h" 80 [12] Rest) =
  [FEntry LError None "rpc error: code = Internal desc = REST Mmf invocation NYI h:80: %!w(<nil>)"] ∧
  hundredths 131072 = 12 ∧ hundredths 131073 = 13 ∧ hundredths (131072 * 3) = 38.
Proof. split_and!; vm_compute; reflexivity. Qed.
