(** The mock frontend: counts, times, ids. *)
From Coq Require Import Ascii String ZArith NArith Lia ZifyBool.
From stdpp Require Import prelude strings gmap.
From Verif.Model Require Import GoStrings Types Invoke Matchmaker MockFrontend MockRun.
From Verif.Spec Require Import MatchmakerSpec FairSpec MockRunSpec.
From Verif.Proofs Require Import WatchLemmas InvokeLemmas MatchmakerLemmas.
Local Open Scope Z_scope.

Section frontend.
Context (t0 : instant) (dur tps : Z).

(** ** The generator *)
Record gen_inv (s : frontend) : Prop := {
  gi_left : fe_left s ≤ Z.max 0 dur;
  gi_dur : dur ≤ 0 → fe_left s = dur ∧ fe_players s = [];
  gi_left0 : 0 < dur → 0 ≤ fe_left s;
  gi_made : 0 ≤ fe_made s ≤ Z.max 0 tps;
  gi_end : fe_left s ≤ 0 → fe_made s = 0 ∧ fe_sleeps s = None;
  gi_asleep : ∀ w, fe_sleeps s = Some w → Z.max 0 tps = fe_made s ∧ 0 < fe_left s;
  gi_count : 0 < dur → Z.of_nat (length (fe_players s)) = (dur - fe_left s) * Z.max 0 tps + fe_made s
}.

Lemma gen_reach s : fe_reach t0 dur tps s → gen_inv s.
Proof.
  revert s. apply (rtc_ind_r (λ s, gen_inv s)).
  { split; cbn; try done; try lia. }
  intros s s' _ Hs [H1 H2 H3 H4 H5 H6 H7].
  destruct Hs; split; cbn; try done; rewrite ?insert_length, ?app_length; cbn; try lia; try (intros; by destruct (H5 ltac:(lia)));
    try (intros Hd; destruct (H2 Hd) as [E1 E2]; rewrite E2; done).
  - destruct (H6 _ H). intros Hd. destruct (H2 Hd). lia.
  - destruct (H6 _ H). lia.
  - destruct (H6 _ H). lia.
Qed.

(** ** Times *)
Record time_inv (s : frontend) : Prop := {
  ti_now : Forall (λ x, x ≤ fe_now s) (starts s);
  ti_split : ∃ old new c, starts s = (old ++ new)%list ∧ Z.of_nat (length new) = fe_made s ∧
    Forall (λ x, x + giga ≤ c) old ∧ Forall (λ x, c ≤ x) new ∧ c ≤ fe_now s ∧
    (∀ t, Z.of_nat (Within t giga old) ≤ Z.max 0 tps) ∧ t0 + (dur - fe_left s) * giga ≤ c;
  ti_sleep : ∀ w, fe_sleeps s = Some w → Forall (λ x, x + giga ≤ w) (starts s) ∧ t0 + (dur - fe_left s + 1) * giga ≤ w;
  ti_pace : ∀ k x, starts s !! k = Some x → t0 + (Z.of_nat k `div` tps) * giga ≤ x
}.

Lemma within_app t l a b : Within t l (a ++ b) = (Within t l a + Within t l b)%nat.
Proof. unfold Within. by rewrite filter_app, app_length. Qed.
Lemma within_le t l a : (Within t l a ≤ length a)%nat.
Proof. unfold Within. apply filter_length. Qed.
Lemma within_none t l a : Forall (λ x, ¬ (t ≤ x < t + l)) a → Within t l a = 0%nat.
Proof. unfold Within. induction 1; [done|]. rewrite filter_cons_False; done. Qed.
Lemma starts_insert k p p' x : fe_players x !! k = Some p → p'.1 = p.1 → (<[k := p']> (fe_players x)).*1 = starts x.
Proof.
  intros H E. unfold starts. rewrite list_fmap_insert. apply list_insert_id. rewrite list_lookup_fmap, H. cbn. by rewrite E.
Qed.

Lemma time_reach s : fe_reach t0 dur tps s → time_inv s.
Proof.
  intros Hr. cut (gen_inv s ∧ time_inv s); [by intros [? ?]|]. split; [by apply gen_reach|]. revert s Hr.
  apply (rtc_ind_r (λ s, time_inv s)).
  { split; cbn; [constructor| |done|done]. exists [], [], t0. split_and!; try done; try constructor; try lia. cbn. lia. }
  intros s s' Hr Hs [H1 (old & new & c & E1 & E2 & E3 & E4 & E5 & E6 & E7) H3 H4].
  pose proof (gen_reach s Hr) as [G1 G2 G3 G4 G5 G6 G7].
  assert (W : ∀ t (n : list instant), Z.of_nat (length n) ≤ Z.max 0 tps → Forall (λ x, c ≤ x) n → Z.of_nat (Within t giga (old ++ n)) ≤ Z.max 0 tps).
  { intros t n Hn Hc. rewrite within_app. destruct (decide (c < t + giga)) as [Hlt|Hge].
    - rewrite (within_none t giga old). { pose proof (within_le t giga n) as Hwl. lia. }
      eapply Forall_impl; [exact E3|]. cbn. lia.
    - rewrite (within_none t giga n). { specialize (E6 t). lia. }
      eapply Forall_impl; [exact Hc|]. cbn. lia. }
  destruct Hs.
  - split; cbn; try done.
    + eapply Forall_impl; [exact H1|]. cbn. lia.
    + exists old, new, c. split_and!; try done. lia.
  - assert (starts (Frontend (fe_now s) (fe_left s) (fe_made s + 1) None (fe_players s ++ [(fe_now s, PNew)]) (fe_act s) (fe_rests s) (fe_old s))
      = starts s ++ [fe_now s])%list as ES by (unfold starts; cbn; by rewrite fmap_app).
    split; rewrite ?ES; cbn [fe_now fe_left fe_made fe_sleeps].
    + apply Forall_app. split; [done|]. by repeat constructor.
    + exists old, (new ++ [fe_now s])%list, c. rewrite E1, app_assoc, app_length. cbn. split_and!; try done; try lia.
      apply Forall_app. split; [done|]. by repeat constructor.
    + done.
    + intros k x Hx. apply lookup_snoc_inv in Hx as [Hx|[-> ->]]; [by apply H4|].
      assert (0 < tps) by lia.
      destruct (decide (0 < dur)) as [Hd|Hd]; [|destruct (G2 ltac:(lia)); lia].
      specialize (G7 Hd). unfold starts. rewrite fmap_length, G7, Z.max_r by lia.
      rewrite Z.div_add_l, (Z.div_small (fe_made s)) by lia. rewrite Z.add_0_r. lia.
  - split; cbn [fe_now fe_left fe_made fe_sleeps]; try done.
    + by exists old, new, c.
    + intros w [= <-]. split.
      * eapply Forall_impl; [exact H1|]. cbn. lia.
      * unfold giga in *. lia.
  - destruct (H3 _ H) as [Hw Hw2]. split; cbn [fe_now fe_left fe_made fe_sleeps]; try done.
    exists (starts s), [], (fe_now s). split_and!.
    + by rewrite app_nil_r.
    + done.
    + eapply Forall_impl; [exact Hw|]. cbn. lia.
    + constructor.
    + lia.
    + intros t. rewrite E1. apply W; [lia|done].
    + lia.
  - assert (ES := starts_insert k _ (t, PCreating (mock_ticket (fe_now s) d r)) s H eq_refl).
    split; unfold starts in *; cbn in *; rewrite ?ES; try done. by exists old, new, c.
  - assert (ES := starts_insert k _ (t, PQueueing (proxy_create reply)) s H eq_refl).
    split; unfold starts in *; cbn in *; rewrite ?ES; try done. by exists old, new, c.
  - assert (ES := starts_insert k _ (t, PQueued id) s H eq_refl).
    split; unfold starts in *; cbn in *; rewrite ?ES; try done. by exists old, new, c.
  - split; try done. by exists old, new, c.
  - split; try done. by exists old, new, c.
  - split; try done. by exists old, new, c.
  - split; try done. by exists old, new, c.
  - split; try done. by exists old, new, c.
Qed.

Lemma rate s t : fe_reach t0 dur tps s → Z.of_nat (Within t giga (starts s)) ≤ Z.max 0 tps.
Proof.
  intros Hr. pose proof (gen_reach s Hr) as [_ _ _ G4 _ _ _].
  destruct (time_reach s Hr) as [_ (old & new & c & -> & E2 & E3 & E4 & E5 & E6 & E7) _ _].
  rewrite within_app. destruct (decide (c < t + giga)) as [Hlt|Hge].
  - rewrite (within_none t giga old). { pose proof (within_le t giga new). lia. }
    eapply Forall_impl; [exact E3|]. cbn. lia.
  - rewrite (within_none t giga new). { specialize (E6 t). lia. }
    eapply Forall_impl; [exact E4|]. cbn. lia.
Qed.

(** ** Ids *)
Record id_inv (s : frontend) : Prop := {
  ii_all : a_arrived (fe_act s) = (activated_ids s ++ held (fe_act s) ++ a_queue (fe_act s))%list;
  ii_perm : a_arrived (fe_act s) ≡ₚ queued_ids s;
  ii_cur : a_phase_of (fe_act s) = ACollect → Z.of_nat (length (a_cur (fe_act s))) < 500;
  ii_cur' : a_phase_of (fe_act s) = ASend → Z.of_nat (length (a_cur (fe_act s))) ≤ 500;
  ii_legal : Forall LegalBatch (calls_made s).*1;
  ii_cap : Z.of_nat (length (a_queue (fe_act s))) ≤ queue_cap;
  ii_rest : ∀ w, fe_rests s = Some w → a_phase_of (fe_act s) = AReturned
}.

Lemma fst_insert (l : list (list string * call_state)) n b x y : l !! n = Some (b, x) → (<[n := (b, y)]> l).*1 = l.*1.
Proof. intros H. rewrite list_fmap_insert. apply list_insert_id. by rewrite list_lookup_fmap, H. Qed.

Lemma id_reach s : fe_reach t0 dur tps s → id_inv s.
Proof.
  revert s. apply (rtc_ind_r (λ s, id_inv s)).
  { split; cbn; try done. }
  intros s s' Hr Hs [H1 H2 H3 H4 H5 H6 H7].
  destruct Hs; try (split; cbn; try done; fail).
  - split; cbn; try done. rewrite H2. unfold queued_ids. cbn. rewrite omap_app. cbn. by rewrite app_nil_r.
  - split; cbn; try done. rewrite H2. unfold queued_ids. cbn.
    destruct (insert_split _ _ _ (t, PCreating (mock_ticket (fe_now s) d r)) H) as [E ->]. rewrite E at 1. by rewrite !omap_app.
  - split; cbn; try done. rewrite H2. unfold queued_ids. cbn.
    destruct (insert_split _ _ _ (t, PQueueing (proxy_create reply)) H) as [E ->]. rewrite E at 1. by rewrite !omap_app.
  - rewrite H0 in *. unfold activated_ids, calls_made in *. rewrite H0 in *. cbn in *. split; cbn; try done.
    + unfold activated_ids, calls_made. cbn. rewrite H1. unfold held. cbn. by rewrite !app_assoc.
    + rewrite H2. unfold queued_ids. cbn.
      destruct (insert_split _ _ _ (t, PQueued id) H) as [E ->]. rewrite E at 1. rewrite !omap_app. cbn.
      rewrite <-app_assoc. apply Permutation_app_head. rewrite (Permutation_app_comm _ [id]). done.
    + rewrite app_length. cbn. lia.
  - unfold activated_ids, calls_made in *.
    destruct (fe_act s) as [p0 q0 cur0 calls0 arr0] eqn:EA. 
    remember (AState p0 q0 cur0 calls0 arr0) as s0 eqn:Es0.
    destruct H as [id p q cur calls arr Hcap|id q cur calls arr|cur calls arr|q cur calls arr Hne|q calls arr
    |n b p q cur calls arr Hn|n b p q cur calls arr Hn|q cur calls arr Hall]; injection Es0 as <- <- <- <- <-; cbn in *.
    + exfalso. apply (f_equal length) in H0. rewrite app_length in H0. cbn in H0. lia.
    + split; unfold activated_ids, calls_made; cbn; try done.
      * rewrite H1. unfold held. cbn. destruct (is_full (cur ++ [id])); cbn; by rewrite <-app_assoc.
      * destruct (is_full (cur ++ [id])) eqn:Ef; [done|]. intros _. unfold is_full, max_activations in Ef.
        specialize (H3 eq_refl). rewrite app_length in *. cbn in *. lia.
      * intros _. specialize (H3 eq_refl). rewrite app_length. cbn. lia.
      * lia.
      * intros w Hw. by apply H7 in Hw.
    + split; unfold activated_ids, calls_made; cbn; try done.
      * intros _. specialize (H3 eq_refl). lia.
      * intros w Hw. by apply H7 in Hw.
    + specialize (H4 eq_refl).
      assert (LegalBatch cur) as Hl. { split; [|done]. destruct cur; [done|]. cbn. lia. }
      destruct (is_full cur) eqn:Ef; split; unfold activated_ids, calls_made; cbn; try done.
      * rewrite H1. unfold held. cbn. rewrite !fmap_app, !concat_app. cbn. by rewrite app_nil_r, <-!app_assoc.
      * rewrite app_assoc, fmap_app. apply Forall_app. split; [done|]. constructor; [exact Hl|constructor].
      * intros w Hw. by apply H7 in Hw.
      * rewrite H1. unfold held. cbn. rewrite !fmap_app, !concat_app. cbn. by rewrite app_nil_r, <-!app_assoc.
      * rewrite app_assoc, fmap_app. apply Forall_app. split; [done|]. constructor; [exact Hl|constructor].
      * intros w Hw. by apply H7 in Hw.
    + split; unfold activated_ids, calls_made; cbn; try done. intros w Hw. by apply H7 in Hw.
    + split; unfold activated_ids, calls_made; cbn; rewrite ?fmap_app, ?(fst_insert _ _ _ _ _ Hn), <-?fmap_app; try done.
    + split; unfold activated_ids, calls_made; cbn; rewrite ?fmap_app, ?(fst_insert _ _ _ _ _ Hn), <-?fmap_app; try done.
    + split; unfold activated_ids, calls_made; cbn; try done.
  - pose proof (H7 _ H) as Hp. unfold activated_ids, calls_made in *. rewrite H8 in *. cbn in *. subst p.
    split; unfold activated_ids, calls_made; cbn; try done; try lia.
    + rewrite app_nil_r. done.
    + by rewrite app_nil_r.
  - unfold activated_ids, calls_made in *.
    split; unfold activated_ids, calls_made; cbn; rewrite ?fmap_app, ?(fst_insert _ _ _ _ _ H), <-?fmap_app; try done.
  - unfold activated_ids, calls_made in *.
    split; unfold activated_ids, calls_made; cbn; rewrite ?fmap_app, ?(fst_insert _ _ _ _ _ H), <-?fmap_app; try done.
Qed.
End frontend.
