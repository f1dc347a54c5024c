(** The example matchmaker. *)
From Coq Require Import Ascii String ZArith NArith Lia ZifyBool.
From stdpp Require Import prelude strings gmap.
From Verif.Model Require Import GoStrings Types Invoke Matchmaker.
From Verif.Spec Require Import MatchmakerSpec.
From Verif.Proofs Require Import WatchLemmas InvokeLemmas.
Local Open Scope Z_scope.

(** ** activateTickets *)
Definition held (s : astate) : list string :=
  match a_phase_of s with ACollect | ASend => a_cur s | _ => [] end.
Definition collecting (s : astate) : Prop := a_phase_of s = ACollect ∨ (a_phase_of s = ASend ∧ is_full (a_cur s) = true).
Definition batch_full (b : list string) : Prop := Z.of_nat (length b) = 500.

Record a_inv (q0 : list string) (s : astate) : Prop := {
  ai_all : a_arrived s = (concat (batches s) ++ held s ++ a_queue s)%list;
  ai_cur : a_phase_of s = ACollect → Z.of_nat (length (a_cur s)) < 500;
  ai_cur' : a_phase_of s = ASend → Z.of_nat (length (a_cur s)) ≤ 500;
  ai_legal : Forall LegalBatch (batches s);
  ai_full : (a_phase_of s = ACollect ∨ a_phase_of s = ASend) → Forall batch_full (batches s);
  ai_last : ∀ n b, batches s !! n = Some b → (S n < length (batches s))%nat → batch_full b;
  ai_seen : ¬ collecting s → ∃ s1, a_later (a_init q0) s1 ∧ a_later s1 s ∧ a_queue s1 = [] ∧
    a_arrived s1 = (concat (batches s) ++ held s)%list
}.

Lemma full_iff l : is_full l = true ↔ batch_full l.
Proof. unfold is_full, batch_full, max_activations. lia. Qed.

Lemma a_inv_reach q0 s : a_later (a_init q0) s → a_inv q0 s.
Proof.
  revert s. apply (rtc_ind_r (λ s, a_inv q0 s)).
  { split; cbn; try done; try constructor. intros H. exfalso. apply H. by left. }
  intros s s' Hr Hs [H1 H2 H2' H3 H4 H5 H6].
  assert (a_later (a_init q0) s') as Hr' by (eapply rtc_r; done).
  assert (∀ s1, a_later s1 s → a_later s1 s') as Hmono by (intros s1 ?; by eapply rtc_r).
  destruct Hs as [id p q cur calls arr Hcap|id q cur calls arr|cur calls arr|q cur calls arr Hne|q calls arr
    |n b p q cur calls arr Hn|n b p q cur calls arr Hn|q cur calls arr Hall]; cbn in *.
  - split; cbn; try done.
    + rewrite H1. unfold held, batches. cbn. by rewrite !app_assoc.
    + intros Hc. destruct H6 as (s1 & ? & ? & ? & ?); [exact Hc|]. exists s1. auto.
  - specialize (H2 eq_refl). split; cbn.
    + rewrite H1. unfold held, batches. cbn. destruct (is_full (cur ++ [id])); cbn; by rewrite <-app_assoc.
    + destruct (is_full (cur ++ [id])) eqn:Ef; [done|]. intros _. unfold is_full, max_activations in Ef.
      rewrite app_length in *. cbn in *. lia.
    + intros _. rewrite app_length. cbn. lia.
    + done.
    + intros _. apply H4. by left.
    + done.
    + intros Hc. exfalso. apply Hc. unfold collecting. cbn. destruct (is_full (cur ++ [id])) eqn:Ef; [by right|by left].
  - specialize (H2 eq_refl). split; cbn; try done.
    + lia.
    + intros _. apply H4. by left.
    + intros _. eexists. split; [exact Hr|]. split; [apply Hmono; apply rtc_refl|]. cbn. split; [done|].
      rewrite H1. unfold held. cbn. by rewrite app_nil_r.
  - specialize (H2' eq_refl). specialize (H4 (or_intror eq_refl)).
    assert (LegalBatch cur) as Hl.
    { split; [|done]. destruct cur; [done|]. cbn. lia. }
    unfold batches, held in *; cbn in *.
    destruct (is_full cur) eqn:Ef.
    + split; unfold batches, held; cbn; rewrite ?fmap_app; cbn; try done.
      * rewrite H1, concat_app. cbn. by rewrite app_nil_r, <-!app_assoc.
      * apply Forall_app. split; [done|by constructor].
      * intros _. apply Forall_app. split; [done|]. constructor; [|constructor]. by apply full_iff.
      * intros n b Hn Hlen. rewrite Forall_lookup in H4. apply lookup_snoc_inv in Hn as [Hn|[-> ->]]; [by eapply H4|].
        rewrite app_length in Hlen. cbn in Hlen. lia.
      * intros Hc. exfalso. apply Hc. by left.
    + split; unfold batches, held; cbn; rewrite ?fmap_app; cbn; try done.
      * rewrite H1, concat_app. cbn. by rewrite app_nil_r, <-!app_assoc.
      * apply Forall_app. split; [done|by constructor].
      * by intros [?|?].
      * intros n b Hn Hlen. rewrite Forall_lookup in H4. apply lookup_snoc_inv in Hn as [Hn|[-> ->]]; [by eapply H4|].
        rewrite app_length in Hlen. cbn in Hlen. lia.
      * intros _. destruct H6 as (s1 & ? & ? & ? & He).
        { unfold collecting. cbn. rewrite Ef. by intros [?|[_ ?]]. }
        exists s1. split; [done|]. split; [by apply Hmono|]. split; [done|]. rewrite He, concat_app. cbn. by rewrite !app_nil_r.
  - split; cbn; try done.
    + by intros [?|?].
    + intros _. destruct H6 as (s1 & ? & ? & ? & He).
      { unfold collecting. cbn. by intros [?|[_ ?]]. }
      exists s1. auto.
  - assert (batches (AState p q cur (<[n:=(b, CallRunning)]> calls) arr) = batches (AState p q cur calls arr)) as Hb.
    { unfold batches. cbn. rewrite list_fmap_insert. apply list_insert_id. by rewrite list_lookup_fmap, Hn. }
    split; try rewrite Hb; try done. intros Hc. destruct H6 as (s1 & ? & ? & ? & He); [exact Hc|]. exists s1. auto.
  - assert (batches (AState p q cur (<[n:=(b, CallDone)]> calls) arr) = batches (AState p q cur calls arr)) as Hb.
    { unfold batches. cbn. rewrite list_fmap_insert. apply list_insert_id. by rewrite list_lookup_fmap, Hn. }
    split; try rewrite Hb; try done. intros Hc. destruct H6 as (s1 & ? & ? & ? & He); [exact Hc|]. exists s1. auto.
  - split; cbn; try done.
    + by intros [?|?].
    + intros _. destruct H6 as (s1 & ? & ? & ? & He).
      { unfold collecting. cbn. by intros [?|[? _]]. }
      exists s1. auto.
Qed.

Lemma activation_batches q0 s : a_later (a_init q0) s →
  Forall LegalBatch (batches s) ∧
  (∀ n b, batches s !! n = Some b → (S n < length (batches s))%nat → Z.of_nat (length b) = 500) ∧
  concat (batches s) `prefix_of` a_arrived s ∧
  (a_ended s → ∃ s1, a_later (a_init q0) s1 ∧ a_later s1 s ∧ a_queue s1 = [] ∧ concat (batches s) = a_arrived s1) ∧
  (a_ended s → a_arrived s = q0 → concat (batches s) = q0 ∧ a_queue s = []).
Proof.
  intros H. pose proof (a_inv_reach q0 s H) as [H1 H2 H2' H3 H4 H5 H6]. split; [done|]. split; [done|].
  split; [|split].
  - rewrite H1. by eexists.
  - intros He. destruct H6 as (s1 & ? & ? & ? & E).
    { destruct He as [He|He]; unfold collecting; rewrite He; by intros [?|[? _]]. }
    exists s1. split; [done|]. split; [done|]. split; [done|]. rewrite E. unfold held.
    destruct He as [He|He]; rewrite He; by rewrite app_nil_r.
  - intros He Ha.
    assert (held s = []) as Hh by (unfold held; destruct He as [He|He]; by rewrite He).
    destruct H6 as (s1 & Hr1 & Hl1 & Hq1 & E).
    { destruct He as [He|He]; unfold collecting; rewrite He; by intros [?|[? _]]. }
    rewrite Hh in *. rewrite app_nil_r in E.
    (* arrivals only grow *)
    assert (∀ x y, a_later x y → a_arrived x `prefix_of` a_arrived y) as Hgrow.
    { intros x y. induction 1 as [|x y z Hxy _ IH]; [done|]. etransitivity; [|exact IH].
      destruct Hxy; cbn; try done; try (by eexists). by destruct (is_full cur). }
    apply Hgrow in Hr1. cbn in Hr1. rewrite E in Hr1. rewrite Ha in H1. cbn in H1.
    assert (length (a_queue s) = 0)%nat as Hlen.
    { apply prefix_length in Hr1. rewrite H1 in Hr1. rewrite app_length in Hr1. lia. }
    apply length_zero_iff_nil in Hlen. rewrite Hlen in *. rewrite app_nil_r in H1. done.
Qed.

(** ** It can always return *)
Definition running (l : list (list string * call_state)) : nat :=
  length (filter (λ c : list string * call_state, c.2 = CallRunning) l).
Global Arguments running : simpl never.
Definition a_weight (s : astate) : nat :=
  3 * length (a_queue s) + running (a_calls s) +
  match a_phase_of s with ACollect => 3 | ASend => if is_full (a_cur s) then 5 else 2 | AWaiting => 1 | AReturned => 0 end.

Lemma running_insert l n b x : l !! n = Some (b, CallRunning) → x ≠ CallRunning →
  running l = S (running (<[n := (b, x)]> l)).
Proof.
  intros H Hx. destruct (insert_split l n _ (b, x) H) as [E ->]. rewrite E at 1. unfold running.
  rewrite !filter_app, !filter_cons, !app_length. rewrite decide_True by done. rewrite decide_False by done. cbn. lia.
Qed.
Lemma running_none l : running l = 0%nat → Forall (λ c : list string * call_state, c.2 ≠ CallRunning) l.
Proof.
  unfold running. intros H. apply length_zero_iff_nil in H. apply Forall_forall. intros x Hx Hc.
  assert (x ∈ filter (λ c : list string * call_state, c.2 = CallRunning) l) as Hin by by apply elem_of_list_filter.
  rewrite H in Hin. by apply elem_of_nil in Hin.
Qed.
Lemma running_some l : running l ≠ 0%nat → ∃ n b, l !! n = Some (b, CallRunning).
Proof.
  unfold running. intros H. destruct (filter _ l) as [|[b x] r] eqn:E; [done|].
  assert ((b, x) ∈ filter (λ c : list string * call_state, c.2 = CallRunning) l) as Hin by (rewrite E; by left).
  apply elem_of_list_filter in Hin as [Hc Hin]. cbn in Hc. subst x. apply elem_of_list_lookup in Hin as [n Hn]. eauto.
Qed.

Lemma a_progress q0 s : a_inv q0 s → a_phase_of s ≠ AReturned →
  ∃ s', a_step s s' ∧ (a_weight s' < a_weight s)%nat ∧ a_arrived s' = a_arrived s.
Proof.
  intros Hi. pose proof (ai_cur q0 s Hi) as Hcur. clear Hi.
  destruct s as [p q cur calls arr]. unfold a_weight. cbn in *. intros Hp. destruct p; [| | |done].
  - specialize (Hcur eq_refl). destruct q as [|id q].
    + eexists. split; [apply A_default|]. cbn. assert (is_full cur = false) as -> by (unfold is_full, max_activations; lia).
      split; [lia|done].
    + eexists. split; [apply A_recv|]. cbn. destruct (is_full (cur ++ [id])) eqn:Ef; (split; [lia|done]).
  - destruct (decide (cur = [])) as [->|Hne].
    + eexists. split; [apply A_nothing|]. cbn [a_phase_of a_queue a_cur a_calls a_arrived]. change (is_full []) with false. split; [|done]. lia.
    + eexists. split; [by apply A_send|].
      assert (running (calls ++ [(cur, CallNew)]) = running calls) as Hr.
      { unfold running. rewrite filter_app, app_length, filter_cons_False by done. cbn [filter list_filter length]. lia. }
      destruct (is_full cur); cbn; rewrite Hr; (split; [lia|done]).
  - destruct (decide (running calls = 0)%nat) as [Hz|Hz].
    + eexists. split; [apply A_return; by apply running_none|]. cbn. split; [lia|done].
    + destruct (running_some _ Hz) as (n & b & Hn). eexists. split; [by eapply A_finish|]. cbn.
      rewrite (running_insert _ _ _ CallDone Hn) by done. split; [lia|done].
Qed.

Lemma a_can_return q0 s : a_later (a_init q0) s →
  ∃ s', a_later s s' ∧ a_phase_of s' = AReturned ∧ a_arrived s' = a_arrived s.
Proof.
  remember (a_weight s) as w eqn:Hw. revert s Hw. induction (lt_wf w) as [w _ IH]. intros s -> H.
  assert (a_phase_of s = AReturned ∨ a_phase_of s ≠ AReturned) as [E|E] by (destruct (a_phase_of s); (by left) || (by right)); [exists s; split; [apply rtc_refl|done]|].
  destruct (a_progress q0 s (a_inv_reach _ _ H) E) as (s' & Hs & Hlt & Ha).
  destruct (IH _ Hlt s' eq_refl) as (s'' & H1 & H2 & H3); [by eapply rtc_r|].
  exists s''. split; [by eapply rtc_l|]. split; [done|congruence].
Qed.

(** ** The loop *)
Lemma mm_loop_le ig c k e r : (mm_loop ig c k e r ≤ c)%nat.
Proof.
  revert k e. induction c as [|c IH]; intros k e; cbn [mm_loop]; [lia|].
  pose proof (IH (S k) (S e)). pose proof (IH (S k) 0%nat).
  destruct (r k =? 0)%nat; [destruct (negb ig && (3 <=? e)%nat)|]; lia.
Qed.
Lemma mm_loop_ignore c k e r : mm_loop true c k e r = c.
Proof. revert k e. induction c as [|c IH]; intros k e; cbn [mm_loop]; [done|]. destruct (r k =? 0)%nat; by rewrite IH. Qed.

(** [e] counts the empty cycles just before [k] (at most 3 matter). *)
Lemma mm_loop_stop c k e r : (e ≤ k)%nat → EmptyRun r (k - e) e → (mm_loop false c k e r < c)%nat →
  ∃ j, (j + 4 = k + mm_loop false c k e r)%nat ∧ EmptyRun r j 4.
Proof.
  revert k e. induction c as [|c IH]; intros k e He Hr Hlt; cbn [mm_loop] in *; [lia|].
  destruct (Nat.eqb_spec (r k) 0) as [E|E].
  - destruct (Nat.leb_spec 3 e) as [H3|H3]; cbn [negb andb] in *.
    + exists (k - 3)%nat. split; [lia|]. intros i Hi. destruct (decide (i = k)) as [->|]; [done|]. apply Hr. lia.
    + destruct (IH (S k) (S e)) as (j & H1 & H2); [lia| |lia|].
      * intros i Hi. destruct (decide (i = k)) as [->|]; [done|]. apply Hr. lia.
      * exists j. split; [lia|done].
  - destruct (IH (S k) 0%nat) as (j & H1 & H2); [lia|intros i Hi; lia|lia|]. exists j. split; [lia|done].
Qed.
Lemma mm_loop_run c k e r j : (e ≤ k)%nat → (∀ i, (k ≤ i + e)%nat → (i < k)%nat → r i = 0%nat) →
  (k - e ≤ j)%nat → EmptyRun r j 4 → (k < j + 4)%nat → (mm_loop false c k e r + k ≤ j + 4)%nat ∨ (e > 3)%nat.
Proof.
  revert k e. induction c as [|c IH]; intros k e He Hr Hj Hrun Hk; cbn [mm_loop]; [left; lia|].
  destruct (Nat.eqb_spec (r k) 0) as [E|E].
  - destruct (Nat.leb_spec 3 e) as [H3|H3]; cbn [negb andb]; [left; lia|].
    destruct (decide (S k = j + 4)%nat) as [Hend|Hend].
    + (* the fourth of the run: the counter was 3 *) exfalso.
      assert (k - e ≤ j)%nat by lia. lia.
    + destruct (IH (S k) (S e)) as [Hl|Hl]; [lia| |lia|done|lia|left; lia|].
      * intros i H1 H2. destruct (decide (i = k)) as [->|]; [done|]. apply Hr; lia.
      * lia.
  - assert (k < j)%nat as Hlt.
    { destruct (decide (k < j)%nat); [done|]. exfalso. apply E. apply Hrun. lia. }
    destruct (IH (S k) 0%nat) as [Hl|Hl]; [lia|lia|lia|done|lia|left; lia|lia].
Qed.

Lemma loop_exact cycles r :
  (mm_loop true cycles 0 0 r = cycles) ∧
  (mm_loop false cycles 0 0 r ≤ cycles)%nat ∧
  ((mm_loop false cycles 0 0 r < cycles)%nat → ∃ j, (j + 4 = mm_loop false cycles 0 0 r)%nat ∧ EmptyRun r j 4) ∧
  (∀ j, EmptyRun r j 4 → (mm_loop false cycles 0 0 r ≤ j + 4)%nat).
Proof.
  split; [apply mm_loop_ignore|]. split; [apply mm_loop_le|]. split.
  - intros H. apply (mm_loop_stop cycles 0 0 r); [lia|intros i Hi; lia|done].
  - intros j Hj. destruct (mm_loop_run cycles 0 0 r j) as [H|H]; [lia|lia|lia|done|lia|lia|lia].
Qed.

(** ** Re-queueing *)
Lemma requeue_spec ids q : Z.of_nat (length q) ≤ queue_cap →
  requeue q ids = if Z.of_nat (length q + length ids) <=? queue_cap then Some (q ++ ids)%list else None.
Proof.
  revert q. induction ids as [|id ids IH]; intros q Hq; cbn [requeue].
  - cbn. rewrite app_nil_r, Nat.add_0_r. destruct (Z.leb_spec (Z.of_nat (length q)) queue_cap); [done|lia].
  - destruct (Z.ltb_spec (Z.of_nat (length q)) queue_cap).
    + rewrite IH by (rewrite app_length; cbn; lia). rewrite app_length, <-app_assoc. cbn.
      replace (length q + 1 + length ids)%nat with (length q + S (length ids))%nat by lia. done.
    + cbn. destruct (Z.leb_spec (Z.of_nat (length q + S (length ids))) queue_cap); [lia|done].
Qed.
Lemma requeue_exact ids : (requeue [] ids = Some ids ↔ Z.of_nat (length ids) ≤ 10000) ∧
  (requeue [] ids = None ↔ 10000 < Z.of_nat (length ids)).
Proof.
  rewrite requeue_spec by (cbn; unfold queue_cap; lia). cbn. unfold queue_cap.
  destruct (Z.leb_spec (Z.of_nat (length ids)) 10000); split; split; intros; done || lia.
Qed.

(** ** HTTP responses *)
Lemma trim_result x : trim_msg ("{""result"":" +:+ x +:+ "}") = Some x.
Proof.
  unfold trim_msg.
  assert (∀ a b, String.length (a +:+ b) = (String.length a + String.length b)%nat) as Hl.
  { intros a b. induction a as [|c a IH]; [done|]. change (S (String.length (a +:+ b)) = S (String.length a + String.length b))%nat. by rewrite IH. }
  rewrite !Hl. change (String.length "{""result"":") with 10%nat. change (String.length "}") with 1%nat.
  replace (10 + (String.length x + 1) <? 11)%nat with false by (symmetry; apply Nat.ltb_ge; lia).
  replace (10 + (String.length x + 1) - 11)%nat with (String.length x) by lia. f_equal.
  change (String.substring 0 (String.length x) (x +:+ "}") = x).
  clear Hl. induction x as [|c x IH]; [done|]. change (String c (String.substring 0 (String.length x) (x +:+ "}")) = String c x). by rewrite IH.
Qed.
Lemma trim_panics msg : trim_msg msg = None ↔ (String.length msg < 11)%nat.
Proof. unfold trim_msg. destruct (Nat.ltb_spec (String.length msg) 11); split; done || lia. Qed.

Lemma http_counts parse lines ms : http_matches parse lines = Some ms → length ms = length lines.
Proof.
  revert ms. induction lines as [|l lines IH]; intros ms; cbn; [by intros [= <-]|].
  destruct (trim_msg l); [|done]. destruct (http_matches parse lines); [|done]. intros [= <-]. cbn. by rewrite (IH _ eq_refl).
Qed.

Lemma http_facts :
  (∀ parse lines ms, http_matches parse lines = Some ms → length ms = length lines) ∧
  (∀ parse xs, (∀ x, x ∈ xs → is_Some (parse x)) →
     ∃ ms, http_matches parse (map (λ x, "{""result"":" +:+ x +:+ "}") xs) = Some ms ∧ map Some ms = map parse xs) ∧
  (∀ parse lines, http_matches parse lines = None ↔ ∃ l, l ∈ lines ∧ (String.length l < 11)%nat).
Proof.
  split; [exact http_counts|]. split.
  - intros parse xs. induction xs as [|x xs IH]; intros Hp; [by exists []|].
    destruct IH as (ms & H1 & H2); [intros y Hy; apply Hp; by right|].
    destruct (Hp x) as [m Hm]; [by left|]. exists (m :: ms). cbn [map http_matches]. rewrite trim_result, H1, Hm. cbn. by rewrite H2.
  - intros parse lines. induction lines as [|l lines IH]; cbn.
    + split; [done|]. intros (l & Hl & _). by apply elem_of_nil in Hl.
    + destruct (trim_msg l) as [t|] eqn:E.
      * destruct (http_matches parse lines) as [ms|]; split.
        -- done.
        -- intros (l' & Hl & Hlt). apply elem_of_cons in Hl as [->|Hl]; [apply trim_panics in Hlt; congruence|].
           destruct IH as [_ IH]. discriminate IH. by exists l'.
        -- intros _. destruct IH as [IH _]. destruct (IH eq_refl) as (l' & H1 & H2). exists l'. split; [by right|done].
        -- done.
      * split; [|done]. intros _. exists l. split; [by left|]. by apply trim_panics.
Qed.
