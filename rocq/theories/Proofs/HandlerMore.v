(** More lemmas about the handlers, connecting them with the stores. *)
From Coq Require Import Ascii String ZArith NArith Lia ZifyBool ZifyN.
From stdpp Require Import prelude strings gmap.
From Verif.Model Require Import GoStrings Types Wire Proto Filter Cache Handlers RedisRepl.
From Verif.Spec Require Import StringSpec FilterSpec HandlerSpec.
From Verif.Proofs Require Import StringLemmas ProtoLemmas FilterLemmas HandlerLemmas.
Local Open Scope string_scope.
Local Open Scope Z_scope.

(** C05 for tickets that came through CreateTicket. *)
Lemma stored_no_panic ttl now o t id v p :
  SaneTTL ttl → SaneNow now → ClientTicketOk t → orders_ok (prepare_ticket ttl now t) o →
  create_ticket ttl now o (Some t) = Send [Update CmdTicket "" v] → (slen v < 2 ^ 64)%N →
  ∃ b, filter_in (Some p) (tk_attrs (stored_ticket id v)) = Done b.
Proof.
  intros H1 H2 H3 H4 Hc Hs.
  destruct (create_ticket_spec ttl now o t H1 H2 H3 H4) as (v' & Hc' & Hst).
  assert (v' = v) as -> by congruence.
  destruct (Hst Hs id) as (_ & _ & a & cr & ex & z & Ha & _).
  destruct (filter_in (Some p) (tk_attrs (stored_ticket id v))) as [b|] eqn:E; [by exists b|].
  apply filter_panics in E as [?|(q & _ & Hn & _)]; congruence.
Qed.

Lemma create_assignments_sends oe r a :
  ro_assignment r = Some a → oe ≡ₚ map_to_list (as_ext a) → utf8_assignment oe a = true →
  ∃ v, create_assignments_start oe (Some r) =
         Send (map (λ t, Update CmdAssign (tk_id t) v) (filter (λ t, tk_id t ≠ "") (ro_tickets r))) ∧
       ((slen v < 2 ^ 64)%N → unmarshal_assignment v = a).
Proof.
  intros Ha Ho Hu. unfold create_assignments_start. rewrite Ha.
  unfold marshal_assignment. rewrite Hu. eexists. split; [done|]. intros Hs.
  eapply (rt_assignment oe); [done| |done]. unfold marshal_assignment. by rewrite Hu.
Qed.

Lemma all_valid_filter ids :
  (∀ id, id ∈ ids → HasDash id) → valid_ids ids = ids.
Proof.
  intros H. unfold valid_ids. induction ids as [|x ids IH]; [done|].
  rewrite filter_cons_True.
  - f_equal. apply IH. intros id Hid. apply H. by right.
  - apply valid_ticket_id_spec, H. by left.
Qed.

(** C32: exactly when every requested id is sent. *)
Lemma set_active_all_sent cfg c ids us :
  set_active_start cfg c ids = Send us →
  (∀ id, id ∈ ids → Update c id "" ∈ us) ↔ (∀ id, id ∈ ids → HasDash id).
Proof.
  intros Hs. unfold set_active_start in Hs.
  destruct (_ =? 0); [done|]. destruct (cfg_max_updates cfg <? _); [done|].
  injection Hs as <-. split; intros H id Hid; specialize (H id Hid).
  - unfold state_updates in H. apply elem_of_list_fmap in H as (x & [= ->] & Hx).
    unfold valid_ids in Hx. apply elem_of_list_filter in Hx as [Hx _].
    by apply valid_ticket_id_spec.
  - unfold state_updates. apply elem_of_list_fmap. exists id. split; [done|].
    apply elem_of_list_filter. split; [by apply valid_ticket_id_spec|done].
Qed.

Lemma both_send cfg ids :
  ids ≠ [] → Z.of_nat (length ids) <= cfg_max_updates cfg →
  activate_start cfg ids =
    Send (map (λ id, Update CmdActivate id "") (filter (λ id, valid_ticket_id id = true) ids)) ∧
  deactivate_start cfg ids =
    Send (map (λ id, Update CmdDeactivate id "") (filter (λ id, valid_ticket_id id = true) ids)).
Proof.
  intros H1 H2. unfold activate_start, deactivate_start.
  rewrite !set_active_sends by done. done.
Qed.

Lemma dropped_ids :
  ¬ (∀ cfg c ids us rs,
  set_active_start cfg c ids = Send us → length rs = length us →
  s_code (set_active_finish ids rs) = OK →
  ∀ id, id ∈ ids → Update c id "" ∈ us).
Proof.
  intros H. specialize (H default_config CmdActivate ["7"] [] [] eq_refl eq_refl eq_refl "7").
  apply elem_of_nil in H; [done|]. apply elem_of_list_here.
Qed.

Lemma violations_collapse :
  ¬ (∀ ids c ttl now s po s' rs,
  redis_send ttl now s po (state_updates c (valid_ids ids)) = (s', rs) →
  ∀ i id r, valid_ids ids !! i = Some id → rs !! i = Some r → r_err r ≠ None →
  ∃ k e, s_violations (set_active_finish ids rs) !! k = Some (id, e)).
Proof.
  intros H.
  destruct (H ["1-1"; "1-2"] CmdActivate 600 0 empty_stream (PipeOk [XaddErr; XaddErr]) _ _ eq_refl
              0%nat "1-1" _ eq_refl eq_refl ltac:(done)) as (k & e & Hk).
  change (({["" := ("1-2", EReply)]} : gmap string (string * store_err)) !! k = Some ("1-1", e)) in Hk.
  apply lookup_singleton_Some in Hk as [_ Hk]. discriminate Hk.
Qed.

Lemma violation_reported ids rs i id r e :
  length rs = length (valid_ids ids) → valid_ids ids !! i = Some id → rs !! i = Some r → r_err r = Some e →
  (∀ j r', (i < j)%nat → rs !! j = Some r' → r_err r' ≠ None → r_result r' ≠ r_result r) →
  s_violations (set_active_finish ids rs) !! r_result r = Some (id, e).
Proof.
  intros H1 H2 H3 H4 H5. pose proof (collect_errs_lookup _ _ _ _ _ _ H1 H2 H3 H4 H5) as H.
  unfold set_active_finish, state_update_status. case_bool_decide as Hn; [|done].
  rewrite Hn, lookup_empty in H. done.
Qed.

Lemma create_assignments_rejects oe req :
  (req = None ∨ ∃ r, req = Some r ∧ ro_assignment r = None) →
  create_assignments_start oe req = Reject InvalidArgument.
Proof. intros [->|(r & -> & Hr)]; [done|]. unfold create_assignments_start. by rewrite Hr. Qed.

Lemma malformed_reported oe req :
  (req = None ∨ ∃ r, req = Some r ∧ ro_assignment r = None) →
  ∃ c, create_assignments_start oe req = Reject c ∧ c ≠ OK.
Proof. intros H. exists InvalidArgument. by rewrite create_assignments_rejects. Qed.

Lemma failures_swallowed :
  ¬ (∀ oe r us rs,
  create_assignments_start oe (Some r) = Send us → length rs = length us →
  ((∃ t, t ∈ ro_tickets r ∧ tk_id t = "") ∨ (∃ x, x ∈ rs ∧ r_err x ≠ None)) →
  s_code (create_assignments_finish rs) ≠ OK).
Proof.
  intros H.
  apply (H [] (Roster "r" (Some (Assignment "c" ∅)) [Ticket "" None None ∅] ∅) [] []); try done.
  left. exists (Ticket "" None None ∅). split; [apply elem_of_list_here|done].
Qed.

Lemma empty_assignment_lost r id ttl now s po :
  ro_assignment r = Some (Assignment "" ∅) → ro_tickets r = [Ticket id None None ∅] → id ≠ "" →
  ∃ us s' rs, create_assignments_start [] (Some r) = Send us ∧ redis_send ttl now s po us = (s', rs) ∧
    length rs = 1%nat ∧ (∀ x, x ∈ rs → r_err x ≠ None) ∧ s_code (create_assignments_finish rs) = OK.
Proof.
  intros Ha Ht Hid. unfold create_assignments_start. rewrite Ha, Ht.
  replace (marshal_assignment [] (Assignment "" ∅)) with (Some "") by done.
  destruct (redis_send ttl now s po [Update CmdAssign id ""]) as [s' rs] eqn:E.
  exists [Update CmdAssign id ""], s', rs.
  unfold assign_updates. rewrite filter_cons_True by done. rewrite filter_nil. simpl.
  assert (Hl : sent_cmds [Update CmdAssign id ""] = [] ∧
               local_errs [Update CmdAssign id ""] = [Some EMissingAssignment]).
  { unfold local_errs. simpl. unfold redis_encode. simpl.
    rewrite bool_decide_eq_false_2 by done. done. }
  destruct Hl as [Hl1 Hl2]. unfold redis_send in E. rewrite Hl1, Hl2 in E.
  assert (rs = [Response "" (Some EMissingAssignment)]) as -> by (destruct po; simpl in E; congruence).
  split; [done|]. split; [by rewrite <-E; unfold redis_send; rewrite Hl1, Hl2|].
  split; [done|]. split; [|done]. intros x ->%elem_of_list_singleton; done.
Qed.

Lemma create_ticket_none ttl now o : create_ticket ttl now o None = Reject InvalidArgument.
Proof. reflexivity. Qed.
