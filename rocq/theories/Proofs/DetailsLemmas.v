(** Failed updates and what the client is told. *)
From Coq Require Import Ascii String ZArith NArith Lia.
From stdpp Require Import prelude strings gmap.
From Verif.Model Require Import GoStrings Types Wire Handlers RedisRepl Details.
From Verif.Spec Require Import DetailsSpec.
From Verif.Proofs Require Import HandlerLemmas.
Local Open Scope string_scope.

(** ** Valid UTF-8 *)
Lemma utf8_app a b : utf8_valid a = true → utf8_valid (a +:+ b) = utf8_valid b.
Proof.
  remember (String.length a) as n eqn:En. revert a En. induction (lt_wf n) as [n _ IH]. intros a En.
  assert (IH' : ∀ a', (String.length a' < n)%nat → utf8_valid a' = true → utf8_valid (a' +:+ b) = utf8_valid b) by (intros; by eapply IH).
  clear IH. destruct a as [|c a1]; [done|]. change (String c a1 +:+ b) with (String c (a1 +:+ b)). cbn [utf8_valid String.length] in *.
  destruct (in_range 0 127 c).
  { apply IH'. lia. }
  destruct a1 as [|c1 a2]; [done|]. change (String c1 a2 +:+ b) with (String c1 (a2 +:+ b)). cbn [String.length] in *.
  destruct (in_range 194 223 c).
  { intros [-> H]%andb_true_iff. cbn [andb]. apply IH'; [lia|done]. }
  destruct a2 as [|c2 a3]; [done|]. change (String c2 a3 +:+ b) with (String c2 (a3 +:+ b)). cbn [String.length] in *.
  destruct (in_range 224 239 c).
  { intros [[-> ->]%andb_true_iff H]%andb_true_iff. cbn [andb]. apply IH'; [lia|done]. }
  destruct a3 as [|c3 a4]; [done|]. change (String c3 a4 +:+ b) with (String c3 (a4 +:+ b)). cbn [String.length] in *.
  destruct (in_range 240 244 c); [|done].
  intros [[[-> ->]%andb_true_iff ->]%andb_true_iff H]%andb_true_iff. cbn [andb]. apply IH'; [lia|done].
Qed.

Lemma description_utf8 c id e : utf8_valid id = true → utf8_valid (description c id e) = utf8_valid e.
Proof.
  intros Hid. unfold description. rewrite (utf8_app "Unable to update ticket ") by done. rewrite (utf8_app id) by done.
  rewrite (utf8_app " state to ") by done. rewrite (utf8_app (transition c)) by (by destruct c). by rewrite (utf8_app " : ").
Qed.

(** ** What is told *)
Lemma collect_texts_empty c ids rs : length rs = length ids →
  collect_texts c ids rs = ∅ ↔ ∀ r, r ∈ rs → tr_err r = None.
Proof.
  revert rs. induction ids as [|id ids IH]; intros [|r rs] Hl; simpl in *; try done.
  - split; [|done]. intros _ r Hr. by apply elem_of_nil in Hr.
  - injection Hl as Hl. destruct (tr_err r) as [e|] eqn:Er.
    + split.
      * intros H. exfalso. apply (f_equal (lookup (tr_result r))) in H.
        rewrite lookup_empty in H. apply lookup_union_None in H as [_ H].
        rewrite lookup_singleton in H. done.
      * intros H. specialize (H r (elem_of_list_here _ _)). congruence.
    + rewrite (right_id_L ∅ (∪)), IH by done. split.
      * intros H r' [->|Hr]%elem_of_cons; auto.
      * intros H r' Hr. apply H. by apply elem_of_list_further.
Qed.

Lemma some_failed_dec rs : SomeFailed rs ∨ ∀ r, r ∈ rs → tr_err r = None.
Proof.
  induction rs as [|r rs [(r' & Hr & He)|IH]].
  - right. intros r Hr. by apply elem_of_nil in Hr.
  - left. exists r'. split; [by right|done].
  - destruct (tr_err r) as [e|] eqn:Er.
    + left. exists r. split; [by left|congruence].
    + right. intros r' [->|Hr]%elem_of_cons; auto.
Qed.

(** Every violation is the failure of some id. *)
Lemma collect_texts_from c ids rs k d : collect_texts c ids rs !! k = Some d →
  ∃ i id r e, ids !! i = Some id ∧ rs !! i = Some r ∧ tr_result r = k ∧ tr_err r = Some e ∧ d = description c id e.
Proof.
  revert rs. induction ids as [|id ids IH]; intros [|r rs] H; simpl in H; try (by rewrite lookup_empty in H).
  apply lookup_union_Some_raw in H as [H|[_ H]].
  - destruct (IH rs H) as (i & id' & r' & e & H1 & H2 & H3). exists (S i), id', r', e. done.
  - destruct (tr_err r) as [e|] eqn:Er; [|by rewrite lookup_empty in H].
    apply lookup_singleton_Some in H as [<- <-]. exists 0%nat, id, r, e. done.
Qed.

Lemma marshal_iff errs : details_marshal (violations errs) = true ↔ ∀ k d, errs !! k = Some d → utf8_valid k = true ∧ utf8_valid d = true.
Proof.
  unfold details_marshal, violations. rewrite forallb_forall. split.
  - intros H k d Hk. specialize (H ("ticketId/" +:+ k, d)). rewrite andb_true_iff in H. cbn [fst snd] in H.
    rewrite (utf8_app "ticketId/") in H by done. apply H. apply elem_of_list_In. apply elem_of_list_fmap. exists (k, d).
    split; [done|]. by apply elem_of_map_to_list.
  - intros H [f d] Hin. apply elem_of_list_In, elem_of_list_fmap in Hin as ([k d'] & [= -> ->] & Hin). cbn [fst snd].
    apply elem_of_map_to_list in Hin. destruct (H _ _ Hin) as [H1 H2]. rewrite andb_true_iff. split; [|done].
    by change (utf8_valid ("ticketId/" +:+ k) = true).
Qed.

(** If all texts are UTF-8, the client is told about a failure iff there is one. *)
Lemma told_if_texts c ids rs : length rs = length (valid_ids ids) → Forall (λ id, utf8_valid id = true) ids →
  (∀ r, r ∈ rs → utf8_valid (tr_result r) = true ∧ ∀ e, tr_err r = Some e → utf8_valid e = true) →
  td_code (set_active_told c ids rs) ≠ OK ↔ SomeFailed rs.
Proof.
  intros Hl Hids Hrs. unfold set_active_told, error_details. case_bool_decide as E.
  - rewrite collect_texts_empty in E by done. cbn. split; [done|]. intros (r & Hr & He). by destruct He; apply E.
  - replace (details_marshal _) with true.
    + cbn. split; [intros _|done]. destruct (some_failed_dec rs) as [H|H]; [done|]. destruct E. by apply collect_texts_empty.
    + symmetry. apply marshal_iff. intros k d Hk. destruct (collect_texts_from _ _ _ _ _ Hk) as (i & id & r & e & H1 & H2 & <- & H4 & ->).
      apply elem_of_list_lookup_2 in H1, H2. destruct (Hrs r H2) as [Hr1 Hr2]. split; [done|].
      rewrite description_utf8; [by apply Hr2|]. unfold valid_ids in H1. apply elem_of_list_filter in H1 as [_ H1].
      rewrite Forall_forall in Hids. by apply Hids.
Qed.

(** ** The answers of the Redis store *)
Lemma merge_result us errs replies r : Forall (λ e, e = None) errs → r ∈ merge_replies us errs replies → r_err r ≠ None → r_result r = "".
Proof.
  intros He. revert us replies. induction He as [|e errs -> He IH]; intros [|u us] replies Hr Hf; cbn in Hr; try (by apply elem_of_nil in Hr).
  destruct replies as [|[s|] replies]; apply elem_of_cons in Hr as [->|Hr]; try done; by eapply IH.
Qed.

Lemma valid_nonempty id ids : id ∈ valid_ids ids → id ≠ "".
Proof. unfold valid_ids. intros [H _]%elem_of_list_filter ->. by vm_compute in H. Qed.

Lemma state_no_local c ids : c = CmdActivate ∨ c = CmdDeactivate →
  Forall (λ e, e = None) (local_errs (state_updates c (valid_ids ids))).
Proof.
  intros Hc. apply Forall_forall. intros e He. unfold local_errs, state_updates in He.
  apply elem_of_list_fmap in He as (u & -> & Hu). apply elem_of_list_fmap in Hu as (id & -> & Hid).
  apply valid_nonempty in Hid. unfold redis_encode. cbn [u_cmd u_key].
  destruct Hc as [-> | ->]; by rewrite bool_decide_eq_false_2.
Qed.

Lemma redis_failed_result c ids ttl now s po s' ss r : c = CmdActivate ∨ c = CmdDeactivate →
  redis_send ttl now s po (state_updates c (valid_ids ids)) = (s', ss) → r ∈ ss → r_err r ≠ None → r_result r = "".
Proof.
  intros Hc E. unfold redis_send in E. pose proof (state_no_local c ids Hc) as Hn. destruct po as [os|os].
  - destruct (run_xadds _ _ _) as [s1 rs]. injection E as _ <-. by apply merge_result.
  - destruct (run_xadds _ _ _) as [s1 rs]. injection E as _ <-. by apply merge_result.
Qed.

Lemma merge_len us errs replies : length errs = length us → length (merge_replies us errs replies) = length us.
Proof.
  revert errs replies. induction us as [|u us IH]; intros [|e errs] replies H; simpl in *; try done.
  injection H as H. destruct replies as [|r replies]; simpl; by rewrite IH.
Qed.
Lemma redis_len c ids ttl now s po s' ss :
  redis_send ttl now s po (state_updates c (valid_ids ids)) = (s', ss) → length ss = length (valid_ids ids).
Proof.
  intros E. unfold redis_send in E.
  assert (Hl : length (local_errs (state_updates c (valid_ids ids))) = length (state_updates c (valid_ids ids))) by apply map_length.
  assert (Hs : length (state_updates c (valid_ids ids)) = length (valid_ids ids)) by apply map_length.
  destruct po as [os|os]; destruct (run_xadds _ _ _) as [s1 rs]; injection E as _ <-; rewrite merge_len; done.
Qed.

(** All failures are filed under one key: the last one is reported. *)
Lemma collect_last c ids rs i id e : length rs = length ids →
  (∀ r, r ∈ rs → tr_err r ≠ None → tr_result r = "") → LastFailure rs i e → ids !! i = Some id →
  collect_texts c ids rs = {[ "" := description c id e ]}.
Proof.
  revert rs i. induction ids as [|id' ids IH]; intros [|r rs] i Hl Hk (r' & Hr & He & Hlast) Hid; simpl in *; try done.
  injection Hl as Hl. destruct i as [|i]; simpl in *.
  - injection Hr as ->. injection Hid as ->. rewrite He. rewrite (Hk r') by first [by left|by rewrite He].
    replace (collect_texts c ids rs) with (∅ : gmap string string); [by rewrite (left_id_L ∅ (∪))|].
    symmetry. apply collect_texts_empty; [done|]. intros r'' [j Hj]%elem_of_list_lookup. apply (Hlast (S j) r''); [lia|done].
  - rewrite (IH rs i); [|done|by intros; apply Hk; [right|]| |done].
    + destruct (tr_err r) as [e'|] eqn:Er; [|by rewrite (right_id_L ∅ (∪))].
      rewrite (Hk r) by first [by left|by rewrite Er]. apply map_eq. intros k. rewrite lookup_union.
      destruct (decide (k = "")) as [->|Hne]; [by rewrite !lookup_singleton|]. by rewrite !lookup_singleton_ne.
    + exists r'. split; [done|]. split; [done|]. intros j r'' Hj. apply (Hlast (S j)). lia.
Qed.

Lemma redis_told c ids ttl now s po s' ss rs :
  c = CmdActivate ∨ c = CmdDeactivate → Forall (λ id, utf8_valid id = true) ids →
  redis_send ttl now s po (state_updates c (valid_ids ids)) = (s', ss) → WithTexts ss rs →
  (¬ SomeFailed rs → set_active_told c ids rs = ToldStatus OK []) ∧
  ∀ i e id, LastFailure rs i e → valid_ids ids !! i = Some id →
    set_active_told c ids rs =
      if utf8_valid e then ToldStatus InvalidArgument [("ticketId/", description c id e)] else ToldStatus OK [].
Proof.
  intros Hc Hids E HW. pose proof (redis_len _ _ _ _ _ _ _ _ E) as Hls.
  assert (Hl : length rs = length (valid_ids ids)) by (by rewrite <-Hls; symmetry; eapply Forall2_length).
  assert (Hk : ∀ r, r ∈ rs → tr_err r ≠ None → tr_result r = "").
  { intros r Hr Hf. apply elem_of_list_lookup in Hr as [j Hj].
    destruct (Forall2_lookup_r _ _ _ _ _ HW Hj) as (q & Hq & Eq & Ef). rewrite <-Eq.
    eapply redis_failed_result; [done|exact E|by eapply elem_of_list_lookup_2|]. by rewrite Ef. }
  split.
  - intros Hn. unfold set_active_told, error_details. rewrite bool_decide_eq_true_2; [done|].
    apply collect_texts_empty; [done|]. intros r Hr. destruct (tr_err r) eqn:Er; [|done]. destruct Hn. exists r. split; [done|congruence].
  - intros i e id Hlast Hid. unfold set_active_told, error_details.
    rewrite (collect_last c _ rs i id e) by done. rewrite bool_decide_eq_false_2 by (by apply map_non_empty_singleton).
    unfold violations. rewrite map_to_list_singleton. cbn [map fst snd details_marshal forallb].
    rewrite description_utf8; [by rewrite andb_true_r|].
    apply elem_of_list_lookup_2 in Hid. unfold valid_ids in Hid. apply elem_of_list_filter in Hid as [_ Hid].
    rewrite Forall_forall in Hids. by apply Hids.
Qed.

Lemma last_failure_exists rs : SomeFailed rs → ∃ i e, LastFailure rs i e.
Proof.
  induction rs as [|r rs IH] using rev_ind; [intros (r & Hr & _); by apply elem_of_nil in Hr|].
  intros HS. destruct (tr_err r) as [e|] eqn:Er.
  - exists (length rs), e, r. split; [by rewrite lookup_app_r, Nat.sub_diag by lia|]. split; [done|].
    intros j r' Hj H. apply lookup_lt_Some in H. rewrite app_length in H. simpl in H. lia.
  - assert (SomeFailed rs) as (i & e & r' & H1 & H2 & H3)%IH.
    { destruct HS as (r' & Hr & Hf). exists r'. split; [|done]. apply elem_of_app in Hr as [Hr| ->%elem_of_list_singleton]; [done|by rewrite Er in Hf]. }
    exists i, e, r'. split; [by apply lookup_app_l_Some|]. split; [done|].
    intros j r'' Hj [H|[_ H]]%lookup_app_Some; [by eapply H3|].
    apply elem_of_list_lookup_2, elem_of_list_singleton in H. by subst.
Qed.

(** Exactly when the client is told. *)
Lemma redis_told_iff c ids ttl now s po s' ss rs :
  c = CmdActivate ∨ c = CmdDeactivate → Forall (λ id, utf8_valid id = true) ids →
  redis_send ttl now s po (state_updates c (valid_ids ids)) = (s', ss) → WithTexts ss rs →
  td_code (set_active_told c ids rs) ≠ OK ↔ ∃ i e, LastFailure rs i e ∧ utf8_valid e = true.
Proof.
  intros Hc Hids E HW. destruct (redis_told _ _ _ _ _ _ _ _ _ Hc Hids E HW) as [H1 H2].
  pose proof (redis_len _ _ _ _ _ _ _ _ E) as Hls. pose proof (Forall2_length _ _ _ HW) as Hlw.
  assert (Hid : ∀ i e, LastFailure rs i e → is_Some (valid_ids ids !! i)).
  { intros i e (r & Hr & _). apply lookup_lt_is_Some. apply lookup_lt_Some in Hr. lia. }
  split.
  - intros Hn. destruct (some_failed_dec rs) as [HS|HS].
    + destruct (last_failure_exists _ HS) as (i & e & Hlast). destruct (Hid _ _ Hlast) as [id Hi]. exists i, e. split; [done|].
      rewrite (H2 _ _ _ Hlast Hi) in Hn. by destruct (utf8_valid e).
    + rewrite H1 in Hn; [done|]. intros (r & Hr & Hf). by destruct Hf; apply HS.
  - intros (i & e & Hlast & Hu). destruct (Hid _ _ Hlast) as [id Hi]. rewrite (H2 _ _ _ Hlast Hi), Hu. done.
Qed.

(** With UTF-8 texts this is what Model/Handlers.v says. *)
Lemma told_same c ids ss rs : length ss = length (valid_ids ids) → Forall (λ id, utf8_valid id = true) ids → WithTexts ss rs →
  (∀ r, r ∈ rs → utf8_valid (tr_result r) = true ∧ ∀ e, tr_err r = Some e → utf8_valid e = true) →
  td_code (set_active_told c ids rs) = s_code (set_active_finish ids ss).
Proof.
  intros Hl Hids HW Hu. pose proof (Forall2_length _ _ _ HW) as Hlw.
  pose proof (told_if_texts c ids rs ltac:(lia) Hids Hu) as H1. pose proof (finish_error_iff ids ss Hl) as H2.
  assert (HSS : SomeFailed rs ↔ ∃ r, r ∈ ss ∧ r_err r ≠ None).
  { split.
    - intros (r & [j Hj]%elem_of_list_lookup & Hf). destruct (Forall2_lookup_r _ _ _ _ _ HW Hj) as (q & Hq & _ & Ef).
      exists q. split; [by eapply elem_of_list_lookup_2|]. by rewrite Ef.
    - intros (q & [j Hj]%elem_of_list_lookup & Hf). destruct (Forall2_lookup_l _ _ _ _ _ HW Hj) as (r & Hr & _ & Ef).
      exists r. split; [by eapply elem_of_list_lookup_2|]. by rewrite <-Ef. }
  assert (Hc1 : td_code (set_active_told c ids rs) = OK ∨ td_code (set_active_told c ids rs) = InvalidArgument).
  { unfold set_active_told, error_details. case_bool_decide; [by left|]. destruct (details_marshal _); [by right|by left]. }
  assert (Hc2 : s_code (set_active_finish ids ss) = OK ∨ s_code (set_active_finish ids ss) = InvalidArgument).
  { unfold set_active_finish, state_update_status. case_bool_decide; [by left|by right]. }
  destruct Hc1 as [E1|E1], Hc2 as [E2|E2]; rewrite E1, E2 in *; try done; exfalso.
  - assert (InvalidArgument ≠ OK) as Hn by done. apply H2, HSS, H1 in Hn. by destruct Hn.
  - assert (InvalidArgument ≠ OK) as Hn by done. apply H1, HSS, H2 in Hn. by destruct Hn.
Qed.

Lemma error_text c id e : c = CmdActivate ∨ c = CmdDeactivate → description c id e = ErrorText c id e.
Proof. intros [-> | ->]; reflexivity. Qed.
Lemma redis_told_text c ids ttl now s po s' ss rs :
  c = CmdActivate ∨ c = CmdDeactivate → Forall (λ id, utf8_valid id = true) ids →
  redis_send ttl now s po (state_updates c (valid_ids ids)) = (s', ss) → WithTexts ss rs →
  (¬ SomeFailed rs → set_active_told c ids rs = ToldStatus OK []) ∧
  ∀ i e id, LastFailure rs i e → valid_ids ids !! i = Some id →
    set_active_told c ids rs =
      if utf8_valid e then ToldStatus InvalidArgument [("ticketId/", ErrorText c id e)] else ToldStatus OK [].
Proof.
  intros Hc Hids E HW. destruct (redis_told _ _ _ _ _ _ _ _ _ Hc Hids E HW) as [H1 H2]. split; [done|].
  intros i e id Hl Hi. rewrite (H2 i e id Hl Hi), error_text; done.
Qed.
