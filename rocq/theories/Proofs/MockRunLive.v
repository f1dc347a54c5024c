(** The mock frontend can always finish. *)
From Coq Require Import Ascii String ZArith NArith Lia ZifyBool.
From stdpp Require Import prelude strings gmap.
From Verif.Model Require Import GoStrings Types Invoke Matchmaker MockFrontend MockRun.
From Verif.Spec Require Import MatchmakerSpec FairSpec MockRunSpec.
From Verif.Proofs Require Import WatchLemmas InvokeLemmas MatchmakerLemmas MockRunLemmas.
Local Open Scope Z_scope.

Definition stage (p : instant * player) : nat :=
  match p.2 with PNew => 3 | PCreating _ => 2 | PQueueing _ => 1 | PQueued _ => 0 end.
Definition call_weight (c : list string * call_state) : nat :=
  match c.2 with CallNew => 2 | CallRunning => 1 | CallDone => 0 end.
Definition phase_weight (a : astate) : nat :=
  match a_phase_of a with
  | ACollect => 12 | ASend => if is_full (a_cur a) then 16 else 9 | AWaiting => 5 | AReturned => 0
  end.
Definition gen_weight (tps : Z) (s : frontend) : nat :=
  if fe_left s <=? 0 then 0
  else Z.to_nat (fe_left s) * (Z.to_nat tps + 2) + match fe_sleeps s with Some _ => 0 | None => 1 + Z.to_nat (tps - fe_made s) end.
Definition fe_weight (tps : Z) (s : frontend) : nat :=
  200 * gen_weight tps s + 50 * sum_list_with stage (fe_players s) + 20 * length (a_queue (fe_act s)) +
  phase_weight (fe_act s) + sum_list_with call_weight (fe_old s) + sum_list_with call_weight (a_calls (fe_act s)).

Lemma sum_insert {A} (g : A → nat) (l : list A) k x y : l !! k = Some x →
  (sum_list_with g (<[k := y]> l) + g x = sum_list_with g l + g y)%nat.
Proof.
  intros H. destruct (insert_split l k x y H) as [E ->]. rewrite E at 3.
  rewrite !sum_list_with_app. cbn. lia.
Qed.
Lemma sum_zero {A} (g : A → nat) (l : list A) : sum_list_with g l = 0%nat → Forall (λ x, g x = 0%nat) l.
Proof. induction l as [|x l IH]; [constructor|]. cbn. intros H. constructor; [lia|]. apply IH. lia. Qed.
Lemma sum_pos {A} (g : A → nat) (l : list A) : sum_list_with g l ≠ 0%nat → ∃ k x, l !! k = Some x ∧ g x ≠ 0%nat.
Proof.
  induction l as [|x l IH]; [done|]. cbn. intros H. destruct (decide (g x = 0)%nat) as [E|E].
  - destruct IH as (k & y & Hk & Hy); [lia|]. by exists (S k), y.
  - by exists 0%nat, x.
Qed.

Section live.
Context (t0 : instant) (dur tps : Z).
Local Notation step := (fe_step tps).
Local Notation W := (fe_weight tps).

Lemma one s s' : step s s' → rtc step s s'.
Proof. apply rtc_once. Qed.

(** The activator makes progress. *)
Lemma act_progress s : fe_reach t0 dur tps s → (a_queue (fe_act s) ≠ [] ∨ a_phase_of (fe_act s) ≠ AReturned) →
  sum_list_with call_weight (a_calls (fe_act s)) = 0%nat →
  ∃ s', rtc step s s' ∧ (W s' < W s)%nat.
Proof.
  intros Hr Hq Hc. pose proof (id_reach t0 dur tps s Hr) as [H1 H2 H3 H4 H5 H6 H7].
  assert (∀ a, a_step (fe_act s) a → a_arrived a = a_arrived (fe_act s) →
    (20 * length (a_queue a) + phase_weight a + sum_list_with call_weight (a_calls a) <
     20 * length (a_queue (fe_act s)) + phase_weight (fe_act s) + sum_list_with call_weight (a_calls (fe_act s)))%nat →
    ∃ s', rtc step s s' ∧ (W s' < W s)%nat) as Hone.
  { intros a Ha Hb Hlt. eexists. split; [apply one; by apply F_activate|]. unfold fe_weight, gen_weight in *. cbn. lia. }
  destruct (fe_act s) as [p q cur calls arr] eqn:EA. cbn in *. destruct p.
  - specialize (H3 eq_refl). destruct q as [|id q].
    + eapply Hone; [apply A_default|done|]. unfold phase_weight. cbn.
      assert (is_full cur = false) as -> by (unfold is_full, max_activations; lia). lia.
    + eapply Hone; [apply A_recv|done|]. unfold phase_weight. cbn. destruct (is_full (cur ++ [id])) eqn:Ef; rewrite ?Ef; lia.
  - destruct (decide (cur = [])) as [->|Hne].
    + eapply Hone; [apply A_nothing|done|]. unfold phase_weight. cbn [a_phase_of a_cur a_queue a_calls]. assert (is_full [] = false) as -> by done. lia.
    + eapply Hone; [by apply A_send|by destruct (is_full cur)|]. unfold phase_weight. cbn.
      destruct (is_full cur) eqn:Ef; cbn; rewrite sum_list_with_app; cbn; lia.
  - eapply Hone; [apply A_return|done|].
    + apply sum_zero in Hc. eapply Forall_impl; [exact Hc|]. intros [b c] E. cbn in *. destruct c; done.
    + unfold phase_weight. cbn. lia.
  - destruct q as [|id q]; [by destruct Hq|].
    assert (∃ s1 w, rtc step s s1 ∧ fe_rests s1 = Some w ∧ fe_act s1 = fe_act s ∧ fe_players s1 = fe_players s ∧ fe_old s1 = fe_old s ∧
      gen_weight tps s1 = gen_weight tps s ∧ fe_left s1 = fe_left s ∧ fe_sleeps s1 = fe_sleeps s ∧ fe_made s1 = fe_made s)
      as (s1 & w & Hs1 & Hw & Ea & Ep & Eo & Eg & El & Es & Em).
    { destruct (fe_rests s) as [w|] eqn:Er; [exists s, w; split_and!; try done; constructor|].
      eexists _, _. split; [apply one; apply F_rest; [by rewrite EA|done]|]. split_and!; done. }
    eexists. split.
    { etrans; [exact Hs1|]. etrans; [apply one; apply (F_time _ (Z.max 0 (w - fe_now s1))); lia|].
      eapply rtc_l; [eapply F_again; cbn; [exact Hw|lia|by rewrite Ea, EA]|].
      apply one. eapply F_activate; cbn; [apply A_recv|done]. }
    unfold fe_weight, gen_weight, phase_weight. cbn [fe_left fe_sleeps fe_made fe_players fe_act fe_old a_phase_of a_cur a_queue a_calls app].
    assert (is_full [id] = false) as -> by done.
    rewrite EA, Ep, Eo, El, Es, Em. cbn. rewrite sum_list_with_app. lia.
Qed.

Lemma fe_progress s : fe_reach t0 dur tps s → W s ≠ 0%nat → ∃ s', rtc step s s' ∧ (W s' < W s)%nat.
Proof.
  intros Hr Hw. pose proof (gen_reach t0 dur tps s Hr) as [G1 G2 G3 G4 G5 G6 G7].
  destruct (decide (0 < fe_left s)) as [Hl|Hl].
  { assert (fe_left s <=? 0 = false) as El by lia.
    destruct (fe_sleeps s) as [w|] eqn:Es.
    - eexists. split.
      { eapply rtc_l; [apply (F_time _ (Z.max 0 (w - fe_now s))); lia|]. apply one. eapply F_wake; cbn; [exact Es|lia]. }
      unfold fe_weight, gen_weight. cbn. rewrite Es, El. destruct (fe_left s - 1 <=? 0) eqn:E2; [|]; nia.
    - destruct (decide (fe_made s < tps)) as [Hm|Hm].
      + eexists. split; [apply one; by apply F_start|]. unfold fe_weight, gen_weight. cbn. rewrite Es, El.
        rewrite sum_list_with_app. cbn. lia.
      + eexists. split; [apply one; apply F_sleep; [done|done|lia]|]. unfold fe_weight, gen_weight. cbn. rewrite Es, El. lia. }
  destruct (decide (sum_list_with call_weight (fe_old s) = 0)%nat) as [Zo|Zo].
  2:{ destruct (sum_pos _ _ Zo) as (k & [b c] & Hk & Hc). destruct c; [| |done].
      - eexists. split; [apply one; by eapply F_old_start|]. unfold fe_weight, gen_weight. cbn.
        pose proof (sum_insert call_weight _ k _ (b, CallRunning) Hk). cbn in *. lia.
      - eexists. split; [apply one; by eapply F_old_finish|]. unfold fe_weight, gen_weight. cbn.
        pose proof (sum_insert call_weight _ k _ (b, CallDone) Hk). cbn in *. lia. }
  destruct (decide (sum_list_with call_weight (a_calls (fe_act s)) = 0)%nat) as [Zc|Zc].
  2:{ destruct (sum_pos _ _ Zc) as (k & [b c] & Hk & Hc). destruct (fe_act s) as [p q cur calls arr] eqn:EA. cbn in *. destruct c; [| |done].
      - eexists. split; [apply one; eapply F_activate; rewrite EA; [by eapply A_start|done]|]. unfold fe_weight, gen_weight, phase_weight. cbn.
        rewrite EA. pose proof (sum_insert call_weight _ k _ (b, CallRunning) Hk). cbn in *. lia.
      - eexists. split; [apply one; eapply F_activate; rewrite EA; [by eapply A_finish|done]|]. unfold fe_weight, gen_weight, phase_weight. cbn.
        rewrite EA. pose proof (sum_insert call_weight _ k _ (b, CallDone) Hk). cbn in *. lia. }
  destruct (decide (sum_list_with stage (fe_players s) = 0)%nat) as [Zp|Zp].
  2:{ destruct (sum_pos _ _ Zp) as (k & [t x] & Hk & Hc). destruct x; [| | |done].
      - eexists. split; [apply one; apply (F_create _ s k t 0%N 0 Hk); lia|]. unfold fe_weight, gen_weight. cbn -[mock_ticket].
        pose proof (sum_insert stage _ k _ (t, PCreating (mock_ticket (fe_now s) 0%N 0)) Hk). cbn -[mock_ticket] in *. lia.
      - eexists. split; [apply one; apply (F_answer _ s k t _ None Hk)|]. unfold fe_weight, gen_weight. cbn.
        pose proof (sum_insert stage _ k _ (t, PQueueing (proxy_create None)) Hk). cbn in *. lia.
      - destruct (decide (Z.of_nat (length (a_queue (fe_act s))) < queue_cap)) as [Hq|Hq].
        + destruct (fe_act s) as [p q cur calls arr] eqn:EA. eexists. split; [apply one; by eapply F_queue|].
          unfold fe_weight, gen_weight, phase_weight. cbn. rewrite EA. cbn. rewrite app_length. cbn.
          pose proof (sum_insert stage _ k _ (t, PQueued id) Hk). cbn in *. lia.
        + apply act_progress; [done| |done]. left. intros E. rewrite E in Hq. cbn in Hq. unfold queue_cap in Hq. lia. }
  apply act_progress; [done| |done].
  destruct (decide (a_queue (fe_act s) = [])) as [Eq|Eq]; [|by left]. right. intros Hp. apply Hw.
  unfold fe_weight, gen_weight, phase_weight. rewrite Hp, Eq, Zo, Zc, Zp. assert (fe_left s <=? 0 = true) as -> by lia. done.
Qed.

Lemma weight_zero s : fe_reach t0 dur tps s → W s = 0%nat →
  AllDone dur tps s ∧ fe_left s ≤ 0 ∧ a_phase_of (fe_act s) = AReturned ∧ a_queue (fe_act s) = [].
Proof.
  intros Hr. unfold fe_weight. intros Hw.
  pose proof (gen_reach t0 dur tps s Hr) as [G1 G2 G3 G4 G5 G6 G7].
  pose proof (id_reach t0 dur tps s Hr) as [H1 H2 H3 H4 H5 H6 H7].
  assert (fe_left s ≤ 0) as Hl.
  { unfold gen_weight in Hw. destruct (fe_left s <=? 0) eqn:E; [lia|]. exfalso. nia. }
  assert (a_phase_of (fe_act s) = AReturned) as Hp.
  { unfold phase_weight in Hw. destruct (a_phase_of (fe_act s)); [lia| |lia|done]. destruct (is_full _); lia. }
  assert (a_queue (fe_act s) = []) as Hq by (apply length_zero_iff_nil; lia).
  split; [|done]. split_and!.
  - destruct (G5 Hl) as [Em _]. unfold Wanted. destruct (decide (0 < dur)) as [Hd|Hd].
    + rewrite (G7 Hd), Em. specialize (G3 Hd). rewrite (Z.max_r 0 dur) by lia. replace (fe_left s) with 0 by lia. lia.
    + destruct (G2 ltac:(lia)) as [_ ->]. cbn. lia.
  - assert (sum_list_with stage (fe_players s) = 0%nat) as E%sum_zero by lia. eapply Forall_impl; [exact E|].
    intros [t x]. destruct x; cbn; try done. eauto.
  - rewrite <-H2, H1, Hq. unfold held. rewrite Hp. by rewrite !app_nil_r.
  - unfold calls_made. apply Forall_app. split.
    + assert (sum_list_with call_weight (fe_old s) = 0%nat) as E%sum_zero by lia. eapply Forall_impl; [exact E|].
      intros [b c]. by destruct c.
    + assert (sum_list_with call_weight (a_calls (fe_act s)) = 0%nat) as E%sum_zero by lia. eapply Forall_impl; [exact E|].
      intros [b c]. by destruct c.
Qed.

Lemma fe_can_finish s : fe_reach t0 dur tps s →
  ∃ s', rtc step s s' ∧ AllDone dur tps s' ∧ fe_left s' ≤ 0 ∧ a_phase_of (fe_act s') = AReturned ∧ a_queue (fe_act s') = [].
Proof.
  remember (W s) as w eqn:Hw. revert s Hw. induction (lt_wf w) as [w _ IH]. intros s -> Hr.
  destruct (decide (W s = 0)%nat) as [E|E].
  - exists s. split; [constructor|]. by apply weight_zero.
  - destruct (fe_progress s Hr E) as (s1 & Hs1 & Hlt).
    destruct (IH _ Hlt s1 eq_refl) as (s2 & Hs2 & H2); [unfold fe_reach in *; by etrans|]. exists s2. split; [by etrans|done].
Qed.
End live.
