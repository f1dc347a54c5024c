(** Lemmas about Model/Handlers.v. *)
From Coq Require Import Ascii String ZArith NArith Lia ZifyBool ZifyN.
From stdpp Require Import prelude strings gmap.
From Verif.Model Require Import GoStrings Types Wire Proto Cache Handlers.
From Verif.Spec Require Import StringSpec FilterSpec HandlerSpec.
From Verif.Proofs Require Import StringLemmas FilterLemmas WireLemmas ProtoLemmas.
Local Open Scope Z_scope.
Local Arguments ts_is_valid : simpl never.
Local Arguments as_time : simpl never.

Lemma dur_secs_sane ttl : SaneTTL ttl → dur_secs ttl = ttl * giga.
Proof.
  unfold SaneTTL, dur_secs, wrap64, giga. intros H.
  change (2 ^ 63) with 9223372036854775808. change (2 ^ 64) with 18446744073709551616.
  rewrite Z.mod_small; lia.
Qed.

Lemma ts_new_denotes t : Denotes (ts_new t) t.
Proof. unfold Denotes, ts_new, giga. simpl. Z.div_mod_to_equations. lia. Qed.

Lemma ts_new_nanos t : 0 <= ts_nanos (ts_new t) < 1000000000.
Proof. simpl. unfold giga. apply Z.mod_pos_bound. lia. Qed.

Lemma as_time_denotes t : Denotes t (as_time (Some t)).
Proof. done. Qed.

Lemma prepare_spec ttl now t :
  SaneTTL ttl → StoredAs ttl now "" t (prepare_ticket ttl now t).
Proof.
  intros Httl. unfold StoredAs, prepare_ticket. cbv zeta. simpl.
  split; [done|]. split; [done|].
  set (cr := match tk_attrs t ≫= fd_ctime with
             | Some c => if ts_is_valid (Some c) then c else ts_new now
             | None => ts_new now end).
  exists (Filterable (client_tags t) (client_strings t) (client_doubles t) (Some cr)), cr.
  set (dx := _ + dur_secs ttl).
  eexists _, (as_time (Some cr)). split_and!; try done.
  - split.
    + unfold client_ctime, cr. intros c Hc Hv%ts_valid_spec.
      destruct (tk_attrs t) as [a|]; [|done]. simpl. by rewrite Hc, Hv.
    + intros H. assert (cr = ts_new now) as ->; [|split; [apply ts_new_denotes|apply ts_new_nanos]].
      unfold cr. unfold client_ctime in H. destruct (tk_attrs t) as [a|]; [|done]. simpl.
      destruct (fd_ctime a) as [c|]; [|done].
      destruct (ts_is_valid (Some c)) eqn:E; [|done].
      apply ts_valid_spec in E. by destruct (H c).
  - assert (Hdx : dx = as_time (Some cr) + ttl * 1000000000).
    { unfold dx. by rewrite dur_secs_sane. }
    split.
    + intros e z He Hv Hz Hle. rewrite He.
      apply ts_valid_spec in Hv as Hv'. rewrite Hv'.
      assert (as_time (Some e) = z) as Ez by done.
      replace (dx <? as_time (Some e)) with false by lia. done.
    + intros H. rewrite <-Hdx.
      destruct (tk_exp t) as [e|]; [|apply ts_new_denotes].
      destruct (ts_is_valid (Some e)) eqn:E; [|apply ts_new_denotes].
      apply ts_valid_spec in E. specialize (H e _ eq_refl E (as_time_denotes e)).
      replace (dx <? as_time (Some e)) with true by lia. apply ts_new_denotes.
Qed.

Lemma valid_ts_wf t : ValidTs t → ts_wf t.
Proof. unfold ValidTs, ts_wf. lia. Qed.

Lemma ts_new_wf z : - 2 ^ 63 * giga <= z < 2 ^ 63 * giga → ts_wf (ts_new z).
Proof.
  unfold ts_wf. intros H. split.
  - simpl. unfold giga in *. change (2 ^ 63) with 9223372036854775808 in *.
    Z.div_mod_to_equations. lia.
  - pose proof (ts_new_nanos z). lia.
Qed.

Lemma creation_bounds now t cr :
  SaneNow now → CreationTime now t cr →
  -62135596800 * 1000000000 <= as_time (Some cr) < 253402300800 * 1000000000.
Proof.
  intros Hnow [H1 H2]. unfold SaneNow in Hnow.
  destruct (client_ctime t) as [c|] eqn:Ec.
  - destruct (ts_is_valid (Some c)) eqn:Ev.
    + apply ts_valid_spec in Ev. rewrite (H1 c eq_refl Ev). unfold ValidTs in Ev.
      unfold as_time, giga. lia.
    + destruct H2 as [Hd _].
      { intros c' [= <-] Hv. apply ts_valid_spec in Hv. congruence. }
      change (as_time (Some cr)) with (ts_seconds cr * 1000000000 + ts_nanos cr).
      unfold Denotes in Hd. lia.
  - destruct H2 as [Hd _]; [done|].
    change (as_time (Some cr)) with (ts_seconds cr * 1000000000 + ts_nanos cr).
    unfold Denotes in Hd. lia.
Qed.

Lemma prepare_wf ttl now t :
  SaneTTL ttl → SaneNow now → ClientTicketOk t → ticket_wf (prepare_ticket ttl now t).
Proof.
  intros Httl Hnow (Hd & _). 
  assert (Hcr : ∀ c, fd_ctime <$> tk_attrs (prepare_ticket ttl now t) = Some (Some c) →
             ts_wf c ∧ -62135596800 * giga <= as_time (Some c) < 253402300800 * giga).
  { intros c. unfold prepare_ticket. simpl.
    assert (ts_wf (ts_new now) ∧ -62135596800 * giga <= as_time (Some (ts_new now)) < 253402300800 * giga) as Hn.
    { unfold SaneNow in Hnow. split.
      - apply ts_new_wf. unfold giga. change (2 ^ 63) with 9223372036854775808. lia.
      - pose proof (ts_new_denotes now) as Hd'. unfold Denotes in Hd'.
        unfold as_time, giga. lia. }
    destruct (tk_attrs t) as [a|]; simpl; [|by intros [= <-]].
    destruct (fd_ctime a) as [c'|]; simpl; [|by intros [= <-]].
    destruct (ts_is_valid _) eqn:E; [|by intros [= <-]].
    intros [= <-]. apply (ts_valid_spec c') in E.
    split; [by apply valid_ts_wf|]. unfold ValidTs in E. unfold as_time, giga. lia. }
  split.
  - unfold prepare_ticket. cbv zeta. cbn [tk_exp].
    specialize (Hcr _ eq_refl) as [_ Hb].
    set (cr := match tk_attrs t ≫= fd_ctime with
             | Some c => if ts_is_valid (Some c) then c else ts_new now
             | None => ts_new now end) in *.
    assert (Hdef : ts_wf (ts_new (as_time (Some cr) + dur_secs ttl))).
    { apply ts_new_wf. rewrite dur_secs_sane by done. unfold SaneTTL in Httl.
      unfold giga in *. change (2 ^ 63) with 9223372036854775808. lia. }
    destruct (tk_exp t) as [e|]; [|done].
    destruct (ts_is_valid (Some e)) eqn:Ev; [|done].
    destruct (_ <? _); [done|]. simpl. apply valid_ts_wf. by apply ts_valid_spec.
  - unfold prepare_ticket. cbv zeta. cbn [tk_attrs]. split.
    + unfold doubles_wf. apply Forall_forall. intros [k d] Hin. simpl in *.
      unfold client_doubles in Hd. apply elem_of_map_to_list in Hin. by apply (Hd k d) in Hin as [? _].
    + cbn [fd_ctime]. by apply (Hcr _ eq_refl).
Qed.

Lemma forallb_Forall {A} (f : A → bool) l : forallb f l = true ↔ ∀ x, x ∈ l → f x = true.
Proof.
  rewrite forallb_forall. split; intros H x Hx; apply H; by apply elem_of_list_In.
Qed.

Lemma prepare_utf8 ttl now t o :
  ClientTicketOk t → orders_ok (prepare_ticket ttl now t) o →
  utf8_ticket o (prepare_ticket ttl now t) = true.
Proof.
  intros (Hd & Hs & Ht & He) (Hos & Hod & Hoe). unfold utf8_ticket. simpl.
  unfold utf8_filterable, utf8_ext. simpl.
  rewrite !andb_true_iff, !forallb_Forall. split_and!.
  - intros x Hx. apply Ht. done.
  - intros [k v] Hx. rewrite Hos in Hx. unfold strings_of in Hx. simpl in Hx.
    apply elem_of_map_to_list in Hx. apply andb_true_iff. by apply (Hs k v).
  - intros [k v] Hx. rewrite Hod in Hx. unfold doubles_of in Hx. simpl in Hx.
    apply elem_of_map_to_list in Hx. by apply (Hd k v) in Hx as [_ ?].
  - intros [k v] Hx. rewrite Hoe in Hx. simpl in Hx.
    apply elem_of_map_to_list in Hx. apply andb_true_iff. by apply (He k v).
Qed.

(** C06. *)
Lemma create_ticket_spec ttl now o t :
  SaneTTL ttl → SaneNow now → ClientTicketOk t → orders_ok (prepare_ticket ttl now t) o →
  ∃ v, create_ticket ttl now o (Some t) = Send [Update CmdTicket "" v] ∧
       ((slen v < 2 ^ 64)%N → ∀ id, StoredAs ttl now id t (stored_ticket id v)).
Proof.
  intros Httl Hnow Hok Ho. unfold create_ticket, marshal_ticket.
  pose proof (prepare_utf8 ttl now t o Hok Ho) as Hu. rewrite Hu.
  eexists. split; [done|]. intros Hlen id.
  assert (Hm : marshal_ticket o (prepare_ticket ttl now t) =
               Some (enc_fields (fields_ticket o (prepare_ticket ttl now t)))).
  { unfold marshal_ticket. by rewrite Hu. }
  pose proof (rt_ticket o _ _ Ho (prepare_wf ttl now t Httl Hnow Hok) Hm Hlen) as Hrt.
  unfold stored_ticket. rewrite Hrt.
  destruct (prepare_spec ttl now t Httl) as (_ & He & Hrest).
  split; [done|]. split; [done|]. exact Hrest.
Qed.

(** ** Activation *)

Lemma valid_ids_spec ids :
  valid_ids ids = filter (λ id, valid_ticket_id id = true) ids.
Proof. done. Qed.

Lemma set_active_rejects cfg c ids :
  (ids = [] ∨ cfg_max_updates cfg < Z.of_nat (length ids)) →
  set_active_start cfg c ids = Reject InvalidArgument.
Proof.
  unfold set_active_start. intros [->|H]; [done|].
  destruct (Z.of_nat (length ids) =? 0); [done|].
  by replace (cfg_max_updates cfg <? Z.of_nat (length ids)) with true by lia.
Qed.

Lemma set_active_sends cfg c ids :
  ids ≠ [] → Z.of_nat (length ids) <= cfg_max_updates cfg →
  set_active_start cfg c ids = Send (state_updates c (valid_ids ids)).
Proof.
  unfold set_active_start. intros Hne Hle. cbv zeta.
  destruct ids as [|x ids]; [done|].
  replace (Z.of_nat (length (x :: ids)) =? 0) with false by (simpl; lia).
  by replace (cfg_max_updates cfg <? Z.of_nat (length (x :: ids))) with false by lia.
Qed.

(** ** Error details *)

Lemma collect_errs_empty ids rs :
  length rs = length ids →
  collect_errs ids rs = ∅ ↔ ∀ r, r ∈ rs → r_err r = None.
Proof.
  revert rs. induction ids as [|id ids IH]; intros [|r rs] Hl; simpl in *; try done.
  - split; [|done]. intros _ r Hr. by apply elem_of_nil in Hr.
  - injection Hl as Hl. destruct (r_err r) as [e|] eqn:Er.
    + split.
      * intros H. exfalso. apply (f_equal (lookup (r_result r))) in H.
        rewrite lookup_empty in H. apply lookup_union_None in H as [_ H].
        rewrite lookup_singleton in H. done.
      * intros H. specialize (H r (elem_of_list_here _ _)). congruence.
    + rewrite (right_id_L ∅ (∪)), IH by done. split.
      * intros H r' [->|Hr]%elem_of_cons; auto.
      * intros H r' Hr. apply H. by apply elem_of_list_further.
Qed.

Lemma finish_error_iff ids rs :
  length rs = length (valid_ids ids) →
  s_code (set_active_finish ids rs) ≠ OK ↔ ∃ r, r ∈ rs ∧ r_err r ≠ None.
Proof.
  intros Hl. unfold set_active_finish, state_update_status. case_bool_decide as E; simpl.
  - rewrite collect_errs_empty in E by done. split; [done|]. intros (r & Hr & Hn). by destruct Hn; apply E.
  - rewrite collect_errs_empty in E by done. split; [intros _|done].
    destruct (decide (Exists (λ r, r_err r ≠ None) rs)) as [He|He].
    + by apply Exists_exists in He.
    + exfalso. apply E. intros r Hr. destruct (r_err r) eqn:Er; [|done].
      exfalso. apply He, Exists_exists. exists r. split; [done|]. congruence.
Qed.

(** With distinct result keys every failure has its own violation. *)
Lemma collect_errs_lookup ids rs i id r e :
  length rs = length ids → ids !! i = Some id → rs !! i = Some r → r_err r = Some e →
  (∀ j r', (i < j)%nat → rs !! j = Some r' → r_err r' ≠ None → r_result r' ≠ r_result r) →
  collect_errs ids rs !! r_result r = Some (id, e).
Proof.
  revert rs i. induction ids as [|id' ids IH]; intros [|r' rs] i Hl Hid Hr He Hd; simpl in *; try done.
  injection Hl as Hl. destruct i as [|i]; simpl in *.
  - injection Hid as ->. injection Hr as ->. rewrite He.
    rewrite lookup_union_r.
    + by rewrite lookup_singleton.
    + assert (Hgen : ∀ ids rs k, (∀ j r', rs !! j = Some r' → r_err r' ≠ None → r_result r' ≠ k) →
                collect_errs ids rs !! k = None).
      { clear. induction ids as [|id ids IH]; intros [|r rs] k H; simpl; try done.
        apply lookup_union_None. split.
        - apply IH. intros j r'. apply (H (S j)).
        - specialize (H 0%nat r eq_refl). destruct (r_err r); [|done].
          apply lookup_singleton_ne. apply H. done. }
      apply Hgen. intros j r' Hj. apply (Hd (S j) r'); [lia|done].
  - apply lookup_union_Some_l. apply (IH rs i); try done.
    intros j r'' Hij. apply (Hd (S j)). lia.
Qed.

(** ** Assignments *)
Lemma assign_updates_spec v ts :
  assign_updates v ts =
    map (λ t, Update CmdAssign (tk_id t) v) (filter (λ t, tk_id t ≠ "") ts).
Proof. done. Qed.
