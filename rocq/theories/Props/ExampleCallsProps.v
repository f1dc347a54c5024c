(** C124: what the example matchmaker notices of calls that fail. *)
From Coq Require Import Ascii String ZArith NArith Lia.
From stdpp Require Import prelude strings gmap.
From Verif.Model Require Import GoStrings Types JsonMsg ExampleCalls Matchmaker.
From Verif.Spec Require Import ExampleCallsSpec MatchmakerSpec.
From Verif.Proofs Require Import ExampleCallsLemmas.
From Verif.Props Require Import MatchmakerProps.
Local Open Scope string_scope.
Local Open Scope list_scope.

(** The claim: a call of ActivateTickets that failed is logged as failed. *)
Definition C124_failed_activation_logged : Prop :=
  ∀ grpc ok ids p, CallFailed grpc ok p → LFailed ∈ activate_logs grpc ok ids p.

(** False, over HTTP: the error is assigned to another variable. *)
Theorem C124_failed_activation_logged_refuted : ¬ C124_failed_activation_logged.
Proof.
  intros H. specialize (H false false ["1-0"] PNoAnswer I). by apply activate_http_never in H.
Qed.
Print Assumptions C124_failed_activation_logged_refuted.

(** It never is, over HTTP; over gRPC exactly the failed calls are. *)
Theorem C124_failed_activation_logged_partial : ∀ ok ids p,
  (LFailed ∈ activate_logs true ok ids p ↔ CallFailed true ok p) ∧ LFailed ∉ activate_logs false ok ids p.
Proof.
  intros ok ids p. split; [|apply activate_http_never].
  destruct (activate_grpc ok ids p) as [[-> ->]|[-> ->]]; cbn; split; intros H; try done; [left|by apply elem_of_nil in H].
Qed.
Print Assumptions C124_failed_activation_logged_partial.

(** What is logged over HTTP, exactly: the status makes no difference. *)
Theorem C124_activation_http_exact : ∀ ok ids p l, l ∈ activate_logs false ok ids p ↔
  l = LMarshal ∧ j_ids false ids = None ∨ l = LExecute ∧ p = PNoAnswer ∨ l = LRead ∧ p = PUnreadable ∨
  l = LUnmarshal ∧ ∃ st b, p = PAnswer st b ∧ b ≠ Some activated_body.
Proof. exact activate_http_exact. Qed.
Print Assumptions C124_activation_http_exact.

(** The claim that a failed activation is logged somehow: false, for an answer with an
    error status that looks like a good one. *)
Definition C124_failed_activation_noticed : Prop :=
  ∀ ok ids p, j_ids false ids ≠ None → PostFailed p → activate_logs false ok ids p ≠ [].
Theorem C124_failed_activation_noticed_refuted : ¬ C124_failed_activation_noticed.
Proof. intros H. specialize (H true ["1-0"] (PAnswer 503 (Some activated_body)) ltac:(vm_compute; done) ltac:(cbn; done)). done. Qed.
Print Assumptions C124_failed_activation_noticed_refuted.

(** What holds: it is, if the answer is one of om-core, whose errors are no
    ActivateTicketsResponse; and nothing is logged for calls that om-core accepted. *)
Theorem C124_failed_activation_noticed_partial : ∀ ok ids a p, j_ids false ids ≠ None →
  OmCoreAnswers a p → (∀ j, a = Some j → j = activated_body) →
  (activate_logs false ok ids p ≠ [] ↔ a = None).
Proof. exact activate_http_omcore. Qed.
Print Assumptions C124_failed_activation_noticed_partial.

(** CreateTicket: over gRPC exactly the calls that failed are logged as failed, over
    HTTP exactly those without an answer or whose answer is no CreateTicketResponse. *)
Theorem C124_failed_creation_logged : ∀ grpc reply mar p, LFailed ∈ (create_result grpc reply mar p).2 ↔
  if grpc then reply = None else ∀ st b, p = PAnswer st b → (r_create_response b).2 = false.
Proof. exact create_exact. Qed.
Print Assumptions C124_failed_creation_logged.

(** If om-core answered, these are those that it refused, and then the id is empty;
    otherwise the id is the one in the answer. *)
Theorem C124_creation_omcore : ∀ reply mar a p, OmCoreAnswers a p → (∀ j, a = Some j → ∃ id, j = created_body id) →
  match a with
  | Some j => ∃ id, j = created_body id ∧ (create_result false reply mar p).1 = id ∧ LFailed ∉ (create_result false reply mar p).2
  | None => (create_result false reply mar p).1 = "" ∧ LFailed ∈ (create_result false reply mar p).2
  end.
Proof. exact create_omcore. Qed.
Print Assumptions C124_creation_omcore.

(** The claim: the ids of a call that failed are sent again. [ok n] tells whether the
    [n]-th call succeeded; some later call did. *)
Definition C124_failed_activation_repeated : Prop :=
  ∀ q0 s ok n b id, a_later (a_init q0) s → NoDup (a_arrived s) → a_ended s →
  batches s !! n = Some b → id ∈ b → ok n = false → (∃ n', n < n' ∧ n' < length (batches s) ∧ ok n' = true)%nat →
  ∃ n' b', (ok n' = true) ∧ batches s !! n' = Some b' ∧ id ∈ b'.

(** What holds: an id that was queued once is in one call only, whatever becomes of
    it. *)
Theorem C124_one_attempt : ∀ q0 s n n' b b' id, a_later (a_init q0) s → NoDup (a_arrived s) →
  batches s !! n = Some b → id ∈ b → batches s !! n' = Some b' → id ∈ b' → n = n'.
Proof. exact one_attempt. Qed.
Print Assumptions C124_one_attempt.

(** 501 ids are sent in two calls; the first fails. *)
Definition ec_ids : list string := map (λ i, format_Z (Z.of_nat i)) (seq 0 501).
Lemma ec_nodup : NoDup ec_ids.
Proof. refine (bool_decide_unpack _ _). vm_compute. exact I. Qed.
Theorem C124_failed_activation_repeated_refuted : ¬ C124_failed_activation_repeated.
Proof.
  intros H.
  destruct (C53_activation_returns ec_ids (a_init ec_ids) (rtc_refl _ _)) as (s & Hs & Hp & Ha).
  assert (He : a_ended s) by (by right).
  assert (Harr : a_arrived s = ec_ids) by (rewrite Ha; reflexivity).
  destruct (C53_activation_batches ec_ids s Hs) as (Hl & _ & _ & _ & Hq). destruct (Hq He Harr) as [Hc _].
  assert (Hnd : NoDup (a_arrived s)) by (rewrite Harr; exact ec_nodup).
  assert (Hlen : length (concat (batches s)) = 501%nat) by (rewrite Hc; vm_compute; reflexivity).
  destruct (batches s) as [|b [|b2 bs]] eqn:Eb.
  - discriminate.
  - cbn [concat] in Hlen. rewrite app_nil_r in Hlen. apply Forall_inv in Hl. unfold LegalBatch in Hl. lia.
  - assert (∃ id, id ∈ b) as [id Hid].
    { apply Forall_inv in Hl. unfold LegalBatch in Hl. destruct b as [|id b]; [cbn in Hl; lia|]. exists id. left. }
    assert (H0 : batches s !! 0%nat = Some b) by (by rewrite Eb).
    destruct (H ec_ids s (λ n, negb (n =? 0)%nat) 0%nat b id Hs Hnd He H0 Hid eq_refl) as (n' & b' & Hok & Hb' & Hin).
    { exists 1%nat. split; [lia|]. split; [rewrite Eb; cbn; lia|done]. }
    assert (0%nat = n') as <- by (exact (C124_one_attempt ec_ids s 0 n' b b' id Hs Hnd H0 Hid Hb' Hin)). done.
Qed.
Print Assumptions C124_failed_activation_repeated_refuted.

(** A batch is refused: what is logged in the two modes. A ticket is created over
    HTTP, refused, and answered with an unknown member. *)
Example C124_example :
  activate_logs true false ["1-0"] PNoAnswer = [LFailed] ∧
  OmCoreAnswers None (PAnswer 400 (Some (error_body "3" "too many ids" []))) ∧
  activate_logs false true ["1-0"] (PAnswer 400 (Some (error_body "3" "too many ids" []))) = [LUnmarshal] ∧
  activate_logs false true ["1-0"] (PAnswer 200 (Some activated_body)) = [] ∧
  create_result false None true (PAnswer 200 (Some (created_body "1-0"))) = ("1-0", []) ∧
  create_result false None true (PAnswer 400 (Some (error_body "3" "no ticket" []))) = ("", [LUnmarshal; LFailed]) ∧
  create_result false None true (PAnswer 200 (Some (JDict [("ticketId", JText "1-0"); ("x", JNull)]))) = ("1-0", [LUnmarshal; LFailed]).
Proof.
  split; [reflexivity|]. split; [apply OA_error; lia|]. repeat (split; [reflexivity|]). reflexivity.
Qed.
