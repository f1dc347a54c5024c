(** C33, continued: with the texts of the errors. *)
From Coq Require Import Ascii String ZArith NArith Lia.
From stdpp Require Import prelude strings gmap.
From Verif.Model Require Import GoStrings Types Wire Handlers RedisRepl Details.
From Verif.Spec Require Import DetailsSpec.
From Verif.Proofs Require Import DetailsLemmas.
Local Open Scope string_scope.

(** With every store: if all texts are UTF-8, the call fails iff an update failed. *)
Theorem C33_told_partial : ∀ c ids rs,
  length rs = length (valid_ids ids) → Forall (λ id, utf8_valid id = true) ids →
  (∀ r, r ∈ rs → utf8_valid (tr_result r) = true ∧ ∀ e, tr_err r = Some e → utf8_valid e = true) →
  td_code (set_active_told c ids rs) ≠ OK ↔ SomeFailed rs.
Proof. exact told_if_texts. Qed.
Print Assumptions C33_told_partial.

(** This is what Model/Handlers.v says without texts. *)
Theorem C33_texts_agree : ∀ c ids ss rs,
  length ss = length (valid_ids ids) → Forall (λ id, utf8_valid id = true) ids → WithTexts ss rs →
  (∀ r, r ∈ rs → utf8_valid (tr_result r) = true ∧ ∀ e, tr_err r = Some e → utf8_valid e = true) →
  td_code (set_active_told c ids rs) = s_code (set_active_finish ids ss).
Proof. exact told_same. Qed.
Print Assumptions C33_texts_agree.

(** With Redis, exactly: the last failure decides. If its text is UTF-8, this is
    reported, with the id it belongs to and no other; if it is not, the client is told
    OK. *)
Theorem C33_told_exactly : ∀ c ids ttl now s po s' ss rs,
  c = CmdActivate ∨ c = CmdDeactivate → Forall (λ id, utf8_valid id = true) ids →
  redis_send ttl now s po (state_updates c (valid_ids ids)) = (s', ss) → WithTexts ss rs →
  (¬ SomeFailed rs → set_active_told c ids rs = ToldStatus OK []) ∧
  ∀ i e id, LastFailure rs i e → valid_ids ids !! i = Some id →
    set_active_told c ids rs =
      if utf8_valid e then ToldStatus InvalidArgument [("ticketId/", ErrorText c id e)] else ToldStatus OK [].
Proof. exact redis_told_text. Qed.
Print Assumptions C33_told_exactly.

Theorem C33_told_iff : ∀ c ids ttl now s po s' ss rs,
  c = CmdActivate ∨ c = CmdDeactivate → Forall (λ id, utf8_valid id = true) ids →
  redis_send ttl now s po (state_updates c (valid_ids ids)) = (s', ss) → WithTexts ss rs →
  td_code (set_active_told c ids rs) ≠ OK ↔ ∃ i e, LastFailure rs i e ∧ utf8_valid e = true.
Proof. exact redis_told_iff. Qed.
Print Assumptions C33_told_iff.

(** A Redis server that does not know XADD answers with the beginning of the
    arguments, cut after 128 bytes, here in the middle of a two-byte character. *)
Definition dx_cut : string :=
  "Redis output string conversion error: ERR unknown command 'XADD', with args beginning with: 'om-replication' '*' 'activate' '1-"
    +:+ String (ascii_of_nat 195) "' ".

Theorem C33_failures_reported_refuted : ¬ FailuresReported.
Proof.
  intros H.
  apply (H CmdActivate ["1-1"] 600%Z 0%Z empty_stream (PipeOk [XaddErr]) _ _ [TResp "" (Some dx_cut)] ltac:(by repeat constructor) eq_refl).
  - constructor; [|constructor]. by split; [|split].
  - exists (TResp "" (Some dx_cut)). split; [by left|done].
  - vm_compute. reflexivity.
Qed.
Print Assumptions C33_failures_reported_refuted.

Example C33_told_example :
  set_active_told CmdActivate ["1-1"; "x"; "1-2"] [TResp "" (Some "OOM"); TResp "" (Some "READONLY")] =
    ToldStatus InvalidArgument [("ticketId/", "Unable to update ticket 1-2 state to active : READONLY")] ∧
  set_active_told CmdDeactivate ["1-1"; "1-2"] [TResp "" (Some dx_cut); TResp "5-1" None] = ToldStatus OK [].
Proof. split; vm_compute; reflexivity. Qed.
