(** Property theorems about which of a request's functions are invoked: C114. *)
From Coq Require Import Ascii String ZArith NArith Lia.
From stdpp Require Import prelude strings gmap.
From Verif.Model Require Import GoStrings Types Wire Proto Dial ProtoMsg Invoke FnSpec.
From Verif.Spec Require Import InvokeSpec.
From Verif.Proofs Require Import ProtoLemmas InvokeMore FnSpecLemmas.
Local Open Scope string_scope.
Local Open Scope Z_scope.

(** C114: every function of a request that om-core can read is looked for at the
    host and port given. *)
Definition C114_all_functions_invoked : Prop := ∀ s r f,
  unmarshal_request s = Some r → f ∈ rq_mmfs r → dialled f = Some (mmf_target (mf_host f) (mf_port f)).

(** It is false: a specification with a name, a host and a port (but no type) is
    taken for a REST function, and those are not invoked. *)
Definition untyped_request : string :=
  enc_fields [f_msg 2 [(1%N, WLen "f"); (2%N, WLen "host"); (3%N, WVar 8080)]].
Lemma untyped_read : unmarshal_request untyped_request = Some (Request None [MmfSpec "f" "host" 8080 MMF_REST]).
Proof. vm_compute. reflexivity. Qed.
Theorem C114_all_functions_invoked_refuted : ¬ C114_all_functions_invoked.
Proof. intros H. specialize (H _ _ _ untyped_read ltac:(left)). discriminate H. Qed.
Print Assumptions C114_all_functions_invoked_refuted.

(** What holds: exactly the functions whose type is not 0 (the default) are looked
    for, and at the address given, ... *)
Theorem C114_invoked_iff_typed_partial : ∀ f t,
  dialled f = Some t ↔ mf_type f ≠ MMF_REST ∧ t = mmf_target (mf_host f) (mf_port f).
Proof.
  intros [n h p ty] t. unfold dialled, fn_type_of. cbn. destruct ty; split; try (intros [= <-]; done); try done; by intros [? ->].
Qed.
Print Assumptions C114_invoked_iff_typed_partial.

(** ... that is, for any bytes of a specification: those with a field 4 whose last
    occurrence is not 0 modulo 2^32, ... *)
Theorem C114_type_on_the_wire_partial : ∀ s f, unmarshal spec_step (MmfSpec "" "" 0 MMF_REST) s = Some f →
  ∃ fs, dec_fields s = Some fs ∧ (dialled f = None ↔ ∀ v, last (omap type_field fs) = Some v → (v mod 2 ^ 32 = 0)%N).
Proof. exact undialled_iff. Qed.
Print Assumptions C114_type_on_the_wire_partial.

(** ... all matches come from functions that were looked for, and the others have
    failed when the call returns nil (C44). *)
Theorem C114_matches_only_from_invoked_partial : ∀ wait r ina s, v_later wait (v_init (request_fns r) ina) s →
  (∀ n k m, ReceivedAs s n k m → ∃ f t, rq_mmfs r !! k = Some f ∧ dialled f = Some t) ∧
  (v_returned s → ∀ k f, rq_mmfs r !! k = Some f → dialled f = None → FnFailed s k ∧ v_main s = InvReturned None).
Proof.
  intros wait r ina s H. split.
  - intros n k m Hr. exact (matches_from_grpc wait r ina s n k m H Hr).
  - intros Hret k f Hf Hd. split; [exact (proj1 (undialled_fail wait r ina s k f H Hret Hf Hd))|].
    destruct Hret as [e He]. rewrite He. f_equal. exact (result_nil wait _ ina s e H He).
Qed.
Print Assumptions C114_matches_only_from_invoked_partial.

Example C114_example :
  unmarshal spec_step (MmfSpec "" "" 0 MMF_REST) (enc_fields [(2%N, WLen "host"); (4%N, WVar 1); (3%N, WVar 80)]) =
    Some (MmfSpec "" "host" 80 MMF_GRPC) ∧
  dialled (MmfSpec "" "host" 80 MMF_GRPC) = Some "host:80" ∧
  dialled (MmfSpec "" "host" 80 (MMF_OTHER 7)) = Some "host:80" ∧
  dialled (MmfSpec "f" "host" 8080 MMF_REST) = None ∧
  (* an invocation of two functions, of which only one is looked for *)
  ∃ s, v_later true (v_init (request_fns (Request None [MmfSpec "f" "host" 8080 MMF_REST; MmfSpec "" "host" 80 MMF_GRPC])) ∅) s ∧
    v_main s = InvReturned None ∧ v_fns s = [(FnRest, FnDone false); (FnGrpc, FnDone true)].
Proof.
  split; [vm_compute; reflexivity|]. split; [reflexivity|]. split; [reflexivity|]. split; [reflexivity|].
  eexists. split; [|split].
  - eapply rtc_l; [eapply V_launch; reflexivity|].
    eapply rtc_l; [eapply V_launch; reflexivity|].
    eapply rtc_l; [eapply V_launched; reflexivity|].
    eapply rtc_l; [eapply (V_rest _ 0); reflexivity|].
    eapply rtc_l; [eapply (V_run _ 1); reflexivity|].
    eapply rtc_l; [eapply (V_eof _ 1); reflexivity|].
    eapply rtc_l; [eapply (V_fn_done _ 1); [reflexivity|reflexivity|constructor]|].
    eapply rtc_l; [eapply V_all_done; [reflexivity|reflexivity|]|].
    { constructor; [by exists false|]. constructor; [by exists true|constructor]. }
    eapply rtc_l; [eapply V_return; reflexivity|]. apply rtc_refl.
  - reflexivity.
  - reflexivity.
Qed.
