(** Under fair scheduling the mock frontend does all its work. *)
From Coq Require Import Ascii String ZArith NArith Lia ZifyBool.
From stdpp Require Import prelude strings gmap.
From Verif.Model Require Import GoStrings Types Invoke Matchmaker MockFrontend MockRun.
From Verif.Spec Require Import MatchmakerSpec FairSpec MockRunSpec.
From Verif.Proofs Require Import WatchLemmas InvokeLemmas MatchmakerLemmas MockRunLemmas MockRunLive FairLemmas MockRunFair.
Local Open Scope Z_scope.

Section fairness.
Context (t0 : instant) (dur tps : Z) (f : nat → frontend).
Context (HE : Execution (fe_step tps) f) (HF : FairFrontend tps f) (H0 : fe_reach t0 dur tps (f 0%nat)).
Local Notation step := (fe_step tps).
Local Open Scope nat_scope.
Local Notation reach := (reach t0 dur tps f HE H0).
Local Notation Leads := (Leads f).
Local Notation leads_once := (leads_once tps f).

Lemma taken_once n m : n <= m → (taken (f n) < taken (f m))%Z → ∃ j, n <= j ∧ j < m ∧ (taken (f j) < taken (f (S j)))%Z.
Proof.
  induction 1 as [|m Hle IH]; [lia|]. intros Hlt. destruct (decide (taken (f n) < taken (f m))%Z) as [E|E].
  - destruct (IH E) as (j & H1 & H2 & H3). exists j. split_and!; [lia|lia|done].
  - exists m. split_and!; [lia|lia|]. lia.
Qed.
Lemma room n : ∃ m, n <= m ∧ (Z.of_nat (length (a_queue (fe_act (f m)))) < queue_cap)%Z.
Proof.
  destruct (decide (Z.of_nat (length (a_queue (fe_act (f n)))) < queue_cap)%Z) as [E|E]; [by exists n|].
  destruct (channel_moves t0 dur tps f HE HF H0 n) as (m & Hm & Ht).
  { intros Eq. rewrite Eq in E. cbn in E. unfold queue_cap in E. lia. }
  destruct (taken_once n m Hm Ht) as (j & H1 & H2 & H3). exists (S j). split; [lia|].
  pose proof (ii_cap _ (id_reach t0 dur tps _ (reach j))) as Hc.
  destruct (step_act _ _ _ (HE j)) as [E1 E2 E3 E4 E5|id E1 E2 E3 E4|E1 E2 E3 E4 E5|E1 E2 E3 E4|E1 E2 E3 E4 E5|w' E1 E2 E3 E4 E5 E6|w' E1 E2 E3 E4 E5 E6]; try lia.
  rewrite E2 in Hc. cbn in Hc. lia.
Qed.

Lemma player_next k t p : (∀ id, p ≠ PQueued id) →
  Leads (λ s, fe_players s !! k = Some (t, p)) (λ s, ∃ t' p', fe_players s !! k = Some (t', p') ∧ next_player p p').
Proof.
  intros Hp.
  assert (K : ∀ n, fe_players (f n) !! k = Some (t, p) → fe_players (f (S n)) !! k = Some (t, p) ∨
    ∃ t' p', fe_players (f (S n)) !! k = Some (t', p') ∧ next_player p p').
  { intros n Hk. destruct (step_player _ _ _ k _ (HE n) Hk) as ([t' p'] & Hk' & [E|Hn]); [left; congruence|right; eauto]. }
  apply (leads_once (FeMoves (PlayerMoves k))); [apply HF|exact K| |].
  - intros n Hk (x & x' & Hx & Hx' & Hne). destruct (K n Hk) as [E|E]; [|done]. congruence.
  - intros n Hk. destruct p as [|x|id|id]; [| | |by destruct (Hp id)].
    + exists n. split; [done|]. right. eexists. split; [apply (F_create _ _ k t 0%N 0%Z Hk); lia|]. eexists _, _. split; [exact Hk|]. cbn -[mock_ticket].
      split; [apply list_lookup_insert; by eapply lookup_lt_Some|]. done.
    + exists n. split; [done|]. right. eexists. split; [apply (F_answer _ _ k t _ None Hk)|]. eexists _, _. split; [exact Hk|]. cbn.
      split; [apply list_lookup_insert; by eapply lookup_lt_Some|]. done.
    + destruct (room n) as (m & Hm & Hroom).
      destruct (kept f (λ s, fe_players s !! k = Some (t, PQueueing id)) (λ s, ∃ t' p', fe_players s !! k = Some (t', p') ∧ next_player (PQueueing id) p') K n m Hm Hk) as [Hkm|(j & Hj1 & Hj2 & Hj)]; [|exists j; split; [done|by left]].
      exists m. split; [done|]. right. destruct (fe_act (f m)) as [ph q cur calls arr] eqn:EA.
      eexists. split; [by eapply F_queue|]. eexists _, _. split; [exact Hkm|]. cbn.
      split; [apply list_lookup_insert; by eapply lookup_lt_Some|]. done.
Qed.
Definition Gone (k : nat) (s : frontend) : Prop := ∃ t id, fe_players s !! k = Some (t, PQueued id).
Lemma gone_stays k n m : n <= m → Gone k (f n) → Gone k (f m).
Proof.
  apply (stay f). intros j (t & id & Hk). destruct (step_player _ _ _ k _ (HE j) Hk) as ([t' p'] & Hk' & [E|Hn]); [exists t, id; congruence|by destruct p'].
Qed.
Lemma player_ends k n : k < length (fe_players (f n)) → ∃ m, n <= m ∧ Gone k (f m).
Proof.
  intros Hk. apply lookup_lt_is_Some in Hk as [[t p] Hk].
  assert (∀ t n id, fe_players (f n) !! k = Some (t, PQueueing id) → ∃ m, n <= m ∧ Gone k (f m)) as H3.
  { intros t1 n1 id H. destruct (player_next k t1 (PQueueing id) ltac:(done) n1 H) as (m & Hm & t' & p' & Hp & Hn). destruct p'; try done.
    exists m. split; [done|]. by eexists _, _. }
  assert (∀ t n x, fe_players (f n) !! k = Some (t, PCreating x) → ∃ m, n <= m ∧ Gone k (f m)) as H2.
  { intros t1 n1 x H. destruct (player_next k t1 (PCreating x) ltac:(done) n1 H) as (m & Hm & t' & p' & Hp & Hn). destruct p'; try done.
    destruct (H3 _ _ _ Hp) as (m' & Hm' & Hg). exists m'. split; [lia|done]. }
  destruct p; [|by eapply H2|by eapply H3|exists n; split; [done|by eexists _, _]].
  destruct (player_next k t PNew ltac:(done) n Hk) as (m & Hm & t' & p' & Hp & Hn). destruct p'; try done.
  destruct (H2 _ _ _ Hp) as (m' & Hm' & Hg). exists m'. split; [lia|done].
Qed.
Lemma players_end n : (fe_left (f n) ≤ 0)%Z → ∃ m, n <= m ∧ ∀ m', m <= m' → Forall (λ p : instant * player, ∃ id, p.2 = PQueued id) (fe_players (f m')).
Proof.
  intros Hl.
  assert (∀ j, j <= length (fe_players (f n)) → ∃ m, n <= m ∧ ∀ k, k < j → Gone k (f m)) as H.
  { induction j as [|j IH]; intros Hj; [exists n; split; [done|lia]|]. destruct IH as (m & Hm & Hk); [lia|].
    destruct (player_ends j n ltac:(lia)) as (m1 & Hm1 & Hg). exists (m `max` m1). split; [lia|]. intros k Hkj.
    destruct (decide (k = j)) as [->|Hne]; [eapply gone_stays; [|exact Hg]; lia|eapply gone_stays; [|apply Hk; lia]; lia]. }
  destruct (H (length (fe_players (f n))) ltac:(lia)) as (m & Hm & Hk). exists m. split; [done|]. intros m' Hm'.
  apply Forall_lookup. intros k [t p] Hp.
  destruct (left_stays t0 dur tps f HE H0 n m' ltac:(lia) Hl) as [_ Elen].
  destruct (gone_stays k m m' Hm' (Hk k ltac:(apply lookup_lt_Some in Hp; lia))) as (t' & id & Hp'). rewrite Hp in Hp'. injection Hp' as -> ->. by exists id.
Qed.

(** Nothing new comes. *)
Definition Quiet (n : nat) : Prop := ∀ m, n <= m → Forall (λ p : instant * player, ∃ id, p.2 = PQueued id) (fe_players (f m)).
Lemma quiet_arrived n m : Quiet n → n <= m → a_arrived (fe_act (f m)) = a_arrived (fe_act (f n)).
Proof.
  intros HQ. induction 1 as [|m Hle IH]; [done|]. rewrite <-IH. pose proof (HQ m Hle) as Hall. pose proof (HE m) as Hs.
  destruct (f (S m)) as [] eqn:Ef. clear Ef. inversion Hs; subst; cbn; try done.
  - rewrite Forall_lookup in Hall. match goal with H : fe_players _ !! _ = _ |- _ => by apply Hall in H as [id0 ?] end.
  - match goal with H : fe_act _ = _ |- _ => by rewrite H end.
Qed.
Lemma quiet_taken n m : Quiet n → n <= m → taken (f m) = (Z.of_nat (length (a_arrived (fe_act (f n)))) - Z.of_nat (length (a_queue (fe_act (f m)))))%Z.
Proof. intros HQ Hle. unfold taken. by rewrite (quiet_arrived n m HQ Hle). Qed.
Lemma queue_empties n : Quiet n → ∃ m, n <= m ∧ a_queue (fe_act (f m)) = [].
Proof.
  intros HQ.
  assert (∀ w m, n <= m → length (a_queue (fe_act (f m))) = w → ∃ m', m <= m' ∧ a_queue (fe_act (f m')) = []) as H.
  { intros w. induction (lt_wf w) as [w _ IH]. intros m Hm <-.
    destruct (decide (a_queue (fe_act (f m)) = [])) as [E|E]; [by exists m|].
    destruct (channel_moves t0 dur tps f HE HF H0 m E) as (m1 & Hm1 & Ht).
    rewrite (quiet_taken n m HQ Hm), (quiet_taken n m1 HQ) in Ht by lia.
    destruct (IH (length (a_queue (fe_act (f m1)))) ltac:(lia) m1 ltac:(lia) eq_refl) as (m2 & Hm2 & E2). exists m2. split; [lia|done]. }
  destruct (H _ n ltac:(lia) eq_refl) as (m & Hm & E). by exists m.
Qed.
Definition Empty (s : frontend) : Prop := a_queue (fe_act s) = [] ∧ held (fe_act s) = [].

(** With nothing in the channel and no more to come. *)
Lemma queue_stays_empty n m : Quiet n → n <= m → a_queue (fe_act (f m)) = [] → a_queue (fe_act (f (S m))) = [].
Proof.
  intros HQ Hle Hq. pose proof (quiet_taken n m HQ Hle) as T1. pose proof (quiet_taken n (S m) HQ ltac:(lia)) as T2. rewrite Hq in T1. cbn in T1.
  destruct (step_act _ _ _ (HE m)) as [E1 E2 E3 E4 E5|id E1 E2 E3 E4|E1 E2 E3 E4 E5|E1 E2 E3 E4|E1 E2 E3 E4 E5|w' E1 E2 E3 E4 E5 E6|w' E1 E2 E3 E4 E5 E6];
    try congruence.
  apply length_zero_iff_nil. lia.
Qed.
Lemma empty_stays n m : Quiet n → n <= m → Empty (f m) → Empty (f (S m)) ∧ length (calls_made (f (S m))) = length (calls_made (f m)).
Proof.
  intros HQ Hle [Hq Hh]. pose proof (queue_stays_empty n m HQ Hle Hq) as Hq'. split.
  - split; [done|]. unfold held in *.
    destruct (step_act _ _ _ (HE m)) as [E1 E2 E3 E4 E5|id E1 E2 E3 E4|E1 E2 E3 E4 E5|E1 E2 E3 E4|E1 E2 E3 E4 E5|w' E1 E2 E3 E4 E5 E6|w' E1 E2 E3 E4 E5 E6].
    + by rewrite E1, E2.
    + congruence.
    + rewrite E3, E5. by rewrite E1 in Hh.
    + destruct E2 as [[-> ->]| ->]; done.
    + by rewrite E2.
    + by rewrite E3.
    + by rewrite E2, E3.
  - pose proof (HE m) as Hs. pose proof (HQ m Hle) as Hall. destruct (f (S m)) as [] eqn:Ef. clear Ef. inversion Hs; subst; unfold calls_made; cbn; try done.
    + rewrite Forall_lookup in Hall. match goal with H : fe_players _ !! _ = _ |- _ => by apply Hall in H as [id0 ?] end.
    + match goal with H : a_step _ _ |- _ => destruct H; cbn in *; try done end; rewrite ?app_length, ?insert_length; done.
    + match goal with H : fe_act _ = _ |- _ => rewrite H end. cbn. by rewrite app_nil_r.
    + by rewrite !app_length, insert_length.
    + by rewrite !app_length, insert_length.
Qed.

Definition Calm (s : frontend) : Prop := (fe_left s ≤ 0)%Z ∧ Forall (λ p : instant * player, ∃ id, p.2 = PQueued id) (fe_players s).
Lemma calm_stays n m : n <= m → Calm (f n) → Calm (f m).
Proof.
  intros Hle [Hl Hall]. destruct (left_stays t0 dur tps f HE H0 n m Hle Hl) as [Hl' Elen]. split; [done|].
  rewrite Forall_lookup in Hall. apply Forall_lookup. intros k [t p] Hp.
  destruct (lookup_lt_is_Some_2 (fe_players (f n)) k) as [[t1 p1] Hk]. { rewrite <-Elen. by eapply lookup_lt_Some. }
  destruct (Hall _ _ Hk) as [id E]. cbn in E. subst p1.
  destruct (gone_stays k n m Hle) as (t2 & id2 & Hk2); [by exists t1, id|]. rewrite Hp in Hk2. injection Hk2 as -> ->. by exists id2.
Qed.
Lemma calm_quiet n : Calm (f n) → Quiet n.
Proof. intros Hc m Hle. exact (proj2 (calm_stays n m Hle Hc)). Qed.

Lemma send_goes : Leads (λ s, Calm s ∧ a_queue (fe_act s) = [] ∧ a_phase_of (fe_act s) = ASend) Empty.
Proof.
  assert (K : ∀ k, Calm (f k) ∧ a_queue (fe_act (f k)) = [] ∧ a_phase_of (fe_act (f k)) = ASend →
    Calm (f (S k)) ∧ a_queue (fe_act (f (S k))) = [] ∧ a_phase_of (fe_act (f (S k))) = ASend ∧ a_cur (fe_act (f (S k))) = a_cur (fe_act (f k)) ∧ fe_rests (f (S k)) = fe_rests (f k)
    ∨ Empty (f (S k))).
  { intros k (Hc & Hq & Hp). pose proof (queue_stays_empty k k (calm_quiet k Hc) ltac:(lia) Hq) as Hq'.
    pose proof (calm_stays k (S k) ltac:(lia) Hc) as Hc'. pose proof (not_resting t0 dur tps f HE H0 k ltac:(congruence)) as Hw.
    destruct (step_act _ _ _ (HE k)) as [E1 E2 E3 E4 E5|id E1 E2 E3 E4|E1 E2 E3 E4 E5|E1 E2 E3 E4|E1 E2 E3 E4 E5|w' E1 E2 E3 E4 E5 E6|w' E1 E2 E3 E4 E5 E6]; try congruence.
    - left. split_and!; congruence || done.
    - right. split; [done|]. unfold held. destruct E2 as [[-> ->]| ->]; done. }
  apply (leads_once (FeMoves ActivatorMoves)); [apply HF| | |].
  - intros k H. destruct (K k H) as [(? & ? & ? & _)|?]; [left; by split|by right].
  - intros k H Ha. destruct (K k H) as [(_ & _ & E1 & E2 & E3)|?]; [|done]. destruct Ha. destruct H as (_ & _ & H). congruence.
  - intros k (_ & _ & H). exists k. split; [done|]. right. destruct (fe_act (f k)) as [p q cur calls arr] eqn:EA. cbn in *. subst p.
    destruct (decide (cur = [])) as [->|Hne].
    + eexists. split; [eapply F_activate; rewrite EA; [apply A_nothing|done]|]. cbn. rewrite EA. by intros [=].
    + eexists. split; [eapply F_activate; rewrite EA; [by apply A_send|by destruct (is_full cur)]|]. cbn. rewrite EA. by destruct (is_full cur); intros [=].
Qed.
Lemma collect_goes : Leads (λ s, Calm s ∧ a_queue (fe_act s) = [] ∧ a_phase_of (fe_act s) = ACollect) Empty.
Proof.
  apply (leads_trans f _ (λ s, Calm s ∧ a_queue (fe_act s) = [] ∧ a_phase_of (fe_act s) = ASend)); [|apply send_goes].
  assert (K : ∀ k, Calm (f k) ∧ a_queue (fe_act (f k)) = [] ∧ a_phase_of (fe_act (f k)) = ACollect →
    Calm (f (S k)) ∧ a_queue (fe_act (f (S k))) = [] ∧ a_phase_of (fe_act (f (S k))) = ACollect ∧ a_cur (fe_act (f (S k))) = a_cur (fe_act (f k)) ∧ fe_rests (f (S k)) = fe_rests (f k)
    ∨ Calm (f (S k)) ∧ a_queue (fe_act (f (S k))) = [] ∧ a_phase_of (fe_act (f (S k))) = ASend).
  { intros k (Hc & Hq & Hp). pose proof (queue_stays_empty k k (calm_quiet k Hc) ltac:(lia) Hq) as Hq'.
    pose proof (calm_stays k (S k) ltac:(lia) Hc) as Hc'. pose proof (not_resting t0 dur tps f HE H0 k ltac:(congruence)) as Hw.
    destruct (step_act _ _ _ (HE k)) as [E1 E2 E3 E4 E5|id E1 E2 E3 E4|E1 E2 E3 E4 E5|E1 E2 E3 E4|E1 E2 E3 E4 E5|w' E1 E2 E3 E4 E5 E6|w' E1 E2 E3 E4 E5 E6]; try congruence.
    - left. split_and!; congruence || done.
    - right. done. }
  apply (leads_once (FeMoves ActivatorMoves)); [apply HF| | |].
  - intros k H. destruct (K k H) as [(? & ? & ? & _)|?]; [left; by split|by right].
  - intros k H Ha. destruct (K k H) as [(_ & _ & E1 & E2 & E3)|?]; [|done]. destruct Ha. destruct H as (_ & _ & H). congruence.
  - intros k (_ & Hq & H). exists k. split; [done|]. right. destruct (fe_act (f k)) as [p q cur calls arr] eqn:EA. cbn in *. subst p q.
    eexists. split; [eapply F_activate; rewrite EA; [apply A_default|done]|]. cbn. rewrite EA. by intros [=].
Qed.

Lemma all_done_at_last : ∃ n, ∀ m, n <= m → AllDone dur tps (f m).
Proof.
  destruct (gen_ends t0 dur tps f HE HF H0 0 I) as (n1 & _ & Hl).
  destruct (players_end n1 Hl) as (n2 & Hn2 & Hall).
  assert (Calm (f n2)) as Hc. { split; [apply (left_stays t0 dur tps f HE H0 n1 n2 Hn2 Hl)|by apply Hall]. }
  destruct (queue_empties n2 (calm_quiet n2 Hc)) as (n3 & Hn3 & Hq). pose proof (calm_stays n2 n3 Hn3 Hc) as Hc3.
  assert (∃ n4, n3 <= n4 ∧ Empty (f n4)) as (n4 & Hn4 & He).
  { destruct (a_phase_of (fe_act (f n3))) eqn:Ep; [by apply collect_goes|by apply send_goes| |];
      exists n3; (split; [done|]); (split; [done|]); unfold held; by rewrite Ep. }
  pose proof (calm_stays n3 n4 Hn4 Hc3) as Hc4.
  destruct (calls_end tps f HE HF n4) as (n5 & Hn5 & Hdone). exists n5. intros m Hm.
  assert (∀ m, n4 <= m → Empty (f m) ∧ length (calls_made (f m)) = length (calls_made (f n4))) as Hst.
  { intros m1. induction 1 as [|m1 Hle [IH1 IH2]]; [done|].
    destruct (empty_stays n4 m1 (calm_quiet n4 Hc4) Hle IH1) as [? E]. split; [done|]. by rewrite E. }
  destruct (Hst m ltac:(lia)) as [[Eq Eh] Elen]. pose proof (calm_stays n4 m ltac:(lia) Hc4) as [Hl5 Hp5].
  pose proof (gen_reach t0 dur tps _ (reach m)) as [G1 G2 G3 G4 G5 G6 G7].
  pose proof (id_reach t0 dur tps _ (reach m)) as [J1 J2 _ _ _ _ _].
  split_and!.
  - destruct (G5 Hl5) as [Em _]. unfold Wanted. destruct (decide (0 < dur)%Z) as [Hd|Hd].
    + rewrite (G7 Hd), Em. specialize (G3 Hd). rewrite (Z.max_r 0 dur) by lia. replace (fe_left (f m)) with 0%Z by lia. lia.
    + destruct (G2 ltac:(lia)) as [_ ->]. cbn. lia.
  - done.
  - rewrite <-J2, J1, Eq, Eh. by rewrite !app_nil_r.
  - apply Forall_lookup. intros i [b c] Hi. destruct (lookup_lt_is_Some_2 (calls_made (f n4)) i) as [[b' c'] Hi'].
    { rewrite <-Elen. by eapply lookup_lt_Some. }
    rewrite (Hdone m i b' c' Hm Hi') in Hi. by injection Hi as <- <-.
Qed.
End fairness.

(** ** Fair executions exist *)
Definition idle (s : frontend) : frontend :=
  let '(AState p q cur calls arr) := fe_act s in
  let go a := Frontend (fe_now s) (fe_left s) (fe_made s) (fe_sleeps s) (fe_players s) a (fe_rests s) (fe_old s) in
  match p with
  | ACollect => go (AState ASend q cur calls arr)
  | ASend => go (AState AWaiting q cur calls arr)
  | AWaiting => go (AState AReturned q cur calls arr)
  | AReturned =>
      match fe_rests s with
      | None => Frontend (fe_now s) (fe_left s) (fe_made s) (fe_sleeps s) (fe_players s) (fe_act s) (Some (fe_now s + giga)) (fe_old s)
      | Some w =>
          if w <=? fe_now s
          then Frontend (fe_now s) (fe_left s) (fe_made s) (fe_sleeps s) (fe_players s) (AState ACollect q [] [] arr) None (fe_old s ++ calls)
          else Frontend (fe_now s + giga) (fe_left s) (fe_made s) (fe_sleeps s) (fe_players s) (fe_act s) (fe_rests s) (fe_old s)
      end
  end.
Record idling (s : frontend) : Prop := {
  id_left : fe_left s ≤ 0;
  id_sleep : fe_sleeps s = None;
  id_players : Forall (λ p : instant * player, ∃ id, p.2 = PQueued id) (fe_players s);
  id_queue : a_queue (fe_act s) = [];
  id_cur : a_phase_of (fe_act s) = ACollect ∨ a_phase_of (fe_act s) = ASend → a_cur (fe_act s) = [];
  id_calls : Forall (λ c : list string * call_state, c.2 = CallDone) (calls_made s);
  id_rest : ∀ w, fe_rests s = Some w → a_phase_of (fe_act s) = AReturned
}.
Lemma idle_step tps s : idling s → fe_step tps s (idle s).
Proof.
  intros [H1 H2 H3 H4 H5 H6 H7]. unfold idle. unfold calls_made in H6. apply Forall_app in H6 as [_ H6].
  destruct (fe_act s) as [p q cur calls arr] eqn:EA. cbn in *. subst q. destruct p.
  - apply F_activate; rewrite EA; [apply A_default|done].
  - rewrite (H5 ltac:(by right)). apply F_activate; rewrite EA; [rewrite (H5 ltac:(by right)); apply A_nothing|done].
  - apply F_activate; rewrite EA; [apply A_return|done]. eapply Forall_impl; [exact H6|]. intros [b c]. cbn. by intros ->.
  - destruct (fe_rests s) as [w|] eqn:Er.
    + destruct (w <=? fe_now s) eqn:Ew.
      * eapply F_again; [exact Er|lia|exact EA].
      * rewrite <-EA, <-Er. apply F_time. unfold giga. lia.
    + rewrite <-EA. apply F_rest; [by rewrite EA|done].
Qed.
Lemma idle_idling s : idling s → idling (idle s).
Proof.
  intros [H1 H2 H3 H4 H5 H6 H7]. unfold idle, calls_made in *.
  destruct (fe_act s) as [p q cur calls arr] eqn:EA. cbn in *. subst q. destruct p.
  - split; cbn; try done; [intros _; apply H5; by left|]. intros w Hw. by apply H7 in Hw.
  - split; cbn; try done; [by intros [?|?]|]. intros w Hw. by apply H7 in Hw.
  - split; cbn; try done. by intros [?|?].
  - destruct (fe_rests s) as [w|] eqn:Er; [destruct (w <=? fe_now s)|]; split; cbn; unfold calls_made; cbn; rewrite ?EA, ?app_nil_r; done.
Qed.
Lemma iter_idling s n : idling s → idling (Nat.iter n idle s).
Proof. intros H. induction n; [done|]. by apply idle_idling. Qed.
Lemma iter_idle_plus s n j : Nat.iter (j + n) idle s = Nat.iter j idle (Nat.iter n idle s).
Proof. induction j as [|j IH]; [done|]. change (Nat.iter (S j + n) idle s) with (idle (Nat.iter (j + n) idle s)). by rewrite IH. Qed.

Lemma idling_still tps s s' : idling s → fe_step tps s s' →
  (fe_left s', fe_made s', fe_sleeps s') = (fe_left s, fe_made s, fe_sleeps s).
Proof. intros [H1 H2 _ _ _ _ _] Hs. destruct Hs; cbn; try done; try lia. congruence. Qed.

(** Until something happens again. *)
Lemma clock_soon s : idling s → ∃ j, FeMoves ClockMoves (Nat.iter j idle s) (Nat.iter (S j) idle s).
Proof.
  assert (∀ s, a_phase_of (fe_act s) = AReturned → (∀ w, fe_rests s = Some w → fe_now s < w) → fe_rests s ≠ None →
    FeMoves ClockMoves s (idle s)) as C1.
  { intros s1 Hp Hw Hn. unfold idle. destruct (fe_act s1) as [p q cur calls arr] eqn:EA. cbn in Hp. subst p.
    destruct (fe_rests s1) as [w|] eqn:Er; [|done]. specialize (Hw w eq_refl). assert (w <=? fe_now s1 = false) as -> by lia. cbn. lia. }
  assert (∀ s, a_phase_of (fe_act s) = AReturned → fe_rests s = None → ∃ j, FeMoves ClockMoves (Nat.iter j idle s) (Nat.iter (S j) idle s)) as C2.
  { intros s1 Hp Hn. exists 1%nat. change (FeMoves ClockMoves (idle s1) (idle (idle s1))).
    assert (idle s1 = Frontend (fe_now s1) (fe_left s1) (fe_made s1) (fe_sleeps s1) (fe_players s1) (fe_act s1) (Some (fe_now s1 + giga)) (fe_old s1)) as ->.
    { unfold idle. destruct (fe_act s1) as [p q cur calls arr]. cbn in Hp. subst p. by rewrite Hn. }
    apply C1; cbn; [done| |done]. intros w [= <-]. unfold giga. lia. }
  assert (∀ s j, (∃ i, FeMoves ClockMoves (Nat.iter i idle (Nat.iter j idle s)) (Nat.iter (S i) idle (Nat.iter j idle s))) →
    ∃ i, FeMoves ClockMoves (Nat.iter i idle s) (Nat.iter (S i) idle s)) as Later.
  { intros s1 j [i Hi]. exists (i + j)%nat. change (S (i + j)) with (S i + j)%nat. by rewrite !iter_idle_plus. }
  assert (∀ s, a_phase_of (fe_act s) ≠ AReturned → fe_rests s = None → ∃ j, FeMoves ClockMoves (Nat.iter j idle s) (Nat.iter (S j) idle s)) as C3.
  { intros s1 Hp Hn. destruct (fe_act s1) as [p q cur calls arr] eqn:EA. destruct p; [apply (Later s1 3%nat)|apply (Later s1 2%nat)|apply (Later s1 1%nat)|done];
      apply C2; cbn; unfold idle; rewrite EA; done. }
  intros Hi. destruct (fe_rests s) as [w|] eqn:Er.
  - pose proof (id_rest s Hi w Er) as Hp. destruct (decide (fe_now s < w)) as [Hlt|Hge].
    + exists 0%nat. change (FeMoves ClockMoves s (idle s)). apply C1; [done| |congruence]. intros w' Hw'. rewrite Er in Hw'. by injection Hw' as <-.
    + apply (Later s 1%nat). change (Nat.iter 1 idle s) with (idle s).
      assert (fe_rests (idle s) = None ∧ a_phase_of (fe_act (idle s)) = ACollect) as [E1 E2].
      { unfold idle. destruct (fe_act s) as [p q cur calls arr]. cbn in Hp. subst p. rewrite Er. by assert (w <=? fe_now s = true) as -> by lia. }
      apply C3; [congruence|done].
  - destruct (a_phase_of (fe_act s)) eqn:Ep; [| | |by apply C2]; apply C3; congruence.
Qed.
Lemma act_soon s : idling s → ∃ j, FeMoves ActivatorMoves (Nat.iter j idle s) (Nat.iter (S j) idle s).
Proof.
  intros Hi. destruct (fe_rests s) as [w|] eqn:Er.
  - remember (Z.to_nat (w - fe_now s)) as d eqn:Ed. revert s Hi Er Ed. induction (lt_wf d) as [d _ IH]. intros s Hi Er ->.
    pose proof (id_rest s Hi w Er) as Hp. destruct (fe_act s) as [p q cur calls arr] eqn:EA. cbn in Hp. subst p.
    destruct (w <=? fe_now s) eqn:Ew.
    + exists 0%nat. change (FeMoves ActivatorMoves s (idle s)). unfold idle. rewrite EA, Er, Ew. cbn. rewrite Er. by intros [=].
    + assert (idle s = Frontend (fe_now s + giga) (fe_left s) (fe_made s) (fe_sleeps s) (fe_players s) (fe_act s) (fe_rests s) (fe_old s)) as Ei
        by (unfold idle; by rewrite EA, Er, Ew).
      destruct (IH (Z.to_nat (w - fe_now (idle s)))) with (s := idle s) as [j Hj]; [|by apply idle_idling|by rewrite Ei|done|].
      { rewrite Ei. cbn. unfold giga. lia. }
      exists (j + 1)%nat. change (S (j + 1)) with (S j + 1)%nat. by rewrite !iter_idle_plus.
  - exists 0%nat. change (FeMoves ActivatorMoves s (idle s)). unfold idle. destruct (fe_act s) as [p q cur calls arr] eqn:EA. destruct p; rewrite ?Er; cbn; rewrite ?EA, ?Er; by intros [=].
Qed.

Lemma idle_fair tps s x : idling s → FairTo (fe_step tps) (λ n, Nat.iter n idle s) (FeMoves x).
Proof.
  intros Hi n. destruct x as [| |k| |k].
  - left. destruct (clock_soon (Nat.iter n idle s)) as [j Hj]; [by apply iter_idling|]. exists (j + n)%nat. split; [lia|].
    change (S (j + n)) with (S j + n)%nat. by rewrite !iter_idle_plus.
  - right. exists 0%nat. intros m s' _ Hs Ha. apply Ha. eapply idling_still; [by apply iter_idling|exact Hs].
  - right. exists 0%nat. intros m s' _ Hs ([t p] & p' & Hp & Hp' & Hne). destruct (iter_idling s m Hi) as [_ _ Hall _ _ _ _].
    rewrite Forall_lookup in Hall. destruct (Hall _ _ Hp) as [id E]. cbn in E. subst p.
    destruct (step_player _ _ _ k _ Hs Hp) as ([t1 p1] & Hk & [E|E]); [congruence|]. by destruct p1.
  - left. destruct (act_soon (Nat.iter n idle s)) as [j Hj]; [by apply iter_idling|]. exists (j + n)%nat. split; [lia|].
    change (S (j + n)) with (S j + n)%nat. by rewrite !iter_idle_plus.
  - right. exists 0%nat. intros m s' _ Hs ([b c] & c' & Hc & Hc' & Hne). destruct (iter_idling s m Hi) as [_ _ _ _ _ Hall _].
    rewrite Forall_lookup in Hall. pose proof (Hall _ _ Hc) as E. cbn in E. subst c.
    destruct (call_lookup _ _ k b _ (step_calls _ _ _ Hs) Hc) as (c1 & Hk & [E|E]); [congruence|done].
Qed.

Lemma fair_frontend_exists t0 dur tps s : fe_reach t0 dur tps s →
  ∃ f, f 0%nat = s ∧ Execution (fe_step tps) f ∧ FairFrontend tps f.
Proof.
  intros Hr. destruct (fe_can_finish t0 dur tps s Hr) as (s' & Hs & (_ & D2 & _ & D4) & Hl & Hp & Hq).
  assert (fe_reach t0 dur tps s') as Hr' by (unfold fe_reach in *; by etrans).
  assert (idling s') as Hi.
  { split; try done.
    - by apply (gi_end _ _ _ (gen_reach _ _ _ _ Hr')).
    - rewrite Hp. by intros [?|?]. }
  apply (fair_prepend (fe_step tps) FeMoves s s' Hs).
  exists (λ n, Nat.iter n idle s'). split; [done|]. split.
  - intros n. cbn. apply idle_step. by apply iter_idling.
  - intros k. by apply idle_fair.
Qed.
