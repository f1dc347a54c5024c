(** Fair executions of the mock frontend. *)
From Coq Require Import Ascii String ZArith NArith Lia ZifyBool.
From stdpp Require Import prelude strings gmap.
From Verif.Model Require Import GoStrings Types Invoke Matchmaker MockFrontend MockRun.
From Verif.Spec Require Import MatchmakerSpec FairSpec MockRunSpec.
From Verif.Proofs Require Import WatchLemmas InvokeLemmas MatchmakerLemmas MockRunLemmas MockRunLive FairLemmas.
Local Open Scope Z_scope.

(** ** What a step changes *)
Definition next_player (p p' : player) : Prop :=
  match p, p' with
  | PNew, PCreating _ | PCreating _, PQueueing _ => True
  | PQueueing a, PQueued b => a = b
  | _, _ => False
  end.
Lemma step_player tps s s' k p : fe_step tps s s' → fe_players s !! k = Some p →
  ∃ p', fe_players s' !! k = Some p' ∧ (p' = p ∨ next_player p.2 p'.2).
Proof.
  intros Hs Hp. destruct Hs; cbn; try (exists p; by split; [|left]).
  - exists p. split; [by apply lookup_app_l_Some|by left].
  - destruct (decide (k0 = k)) as [->|Hne].
    + rewrite H in Hp. injection Hp as <-. eexists. split; [apply list_lookup_insert; by eapply lookup_lt_Some|]. by right.
    + exists p. rewrite list_lookup_insert_ne by done. split; [done|by left].
  - destruct (decide (k0 = k)) as [->|Hne].
    + rewrite H in Hp. injection Hp as <-. eexists. split; [apply list_lookup_insert; by eapply lookup_lt_Some|]. by right.
    + exists p. rewrite list_lookup_insert_ne by done. split; [done|by left].
  - destruct (decide (k0 = k)) as [->|Hne].
    + rewrite H in Hp. injection Hp as <-. eexists. split; [apply list_lookup_insert; by eapply lookup_lt_Some|]. by right.
    + exists p. rewrite list_lookup_insert_ne by done. split; [done|by left].
Qed.

Definition next_call (c c' : call_state) : Prop :=
  match c, c' with CallNew, CallRunning | CallRunning, CallDone => True | _, _ => False end.
Inductive calls_change (l : list (list string * call_state)) : list (list string * call_state) → Prop :=
| CC_same : calls_change l l
| CC_more b : calls_change l (l ++ [(b, CallNew)])%list
| CC_next n b c c' : l !! n = Some (b, c) → next_call c c' → calls_change l (<[n := (b, c')]> l).

Lemma calls_change_app l1 l2 l2' : calls_change l2 l2' → calls_change (l1 ++ l2) (l1 ++ l2').
Proof.
  destruct 1 as [|b|n b c c' Hn Hc]; [constructor|rewrite app_assoc; constructor|].
  rewrite <-(Nat.add_0_r (length l1)) || idtac.
  rewrite <-insert_app_r. eapply CC_next; [|exact Hc]. rewrite lookup_app_r by lia. by replace (length l1 + n - length l1)%nat with n by lia.
Qed.

Lemma step_calls tps s s' : fe_step tps s s' → calls_change (calls_made s) (calls_made s').
Proof.
  unfold calls_made. destruct 1; cbn; try constructor.
  - rewrite H0. constructor.
  - apply calls_change_app. destruct H; cbn; try constructor.
    + destruct (is_full cur); constructor.
    + by eapply CC_next.
    + by eapply CC_next.
  - rewrite H1. cbn. rewrite app_nil_r. constructor.
  - rewrite <-insert_app_l by (by eapply lookup_lt_Some). eapply CC_next; [by apply lookup_app_l_Some|done].
  - rewrite <-insert_app_l by (by eapply lookup_lt_Some). eapply CC_next; [by apply lookup_app_l_Some|done].
Qed.

Lemma call_lookup l l' k b c : calls_change l l' → l !! k = Some (b, c) →
  ∃ c', l' !! k = Some (b, c') ∧ (c' = c ∨ next_call c c').
Proof.
  intros H Hk. destruct H as [|b1|n b1 c1 c1' Hn Hc].
  - exists c. by split; [|left].
  - exists c. split; [by apply lookup_app_l_Some|by left].
  - destruct (decide (n = k)) as [->|Hne].
    + rewrite Hn in Hk. injection Hk as -> ->. exists c1'. split; [|by right]. apply list_lookup_insert. by eapply lookup_lt_Some.
    + exists c. rewrite list_lookup_insert_ne by done. split; [done|by left].
Qed.

(** The activator. *)
Definition taken (s : frontend) : Z := Z.of_nat (length (a_arrived (fe_act s))) - Z.of_nat (length (a_queue (fe_act s))).
Inductive act_change (s s' : frontend) : Prop :=
| AC_none : a_phase_of (fe_act s') = a_phase_of (fe_act s) → a_cur (fe_act s') = a_cur (fe_act s) → fe_rests s' = fe_rests s →
    taken s' = taken s → (a_queue (fe_act s') = a_queue (fe_act s) ∨ ∃ id, a_queue (fe_act s') = (a_queue (fe_act s) ++ [id])%list) → act_change s s'
| AC_recv id : a_phase_of (fe_act s) = ACollect → a_queue (fe_act s) = id :: a_queue (fe_act s') → taken s' = taken s + 1 →
    a_cur (fe_act s') = (a_cur (fe_act s) ++ [id])%list → act_change s s'
| AC_default : a_phase_of (fe_act s) = ACollect → a_queue (fe_act s) = [] → a_phase_of (fe_act s') = ASend → a_queue (fe_act s') = [] →
    a_cur (fe_act s') = a_cur (fe_act s) → taken s' = taken s → act_change s s'
| AC_send : a_phase_of (fe_act s) = ASend → (a_phase_of (fe_act s') = ACollect ∧ a_cur (fe_act s') = [] ∨ a_phase_of (fe_act s') = AWaiting) →
    a_queue (fe_act s') = a_queue (fe_act s) → taken s' = taken s → act_change s s'
| AC_return : a_phase_of (fe_act s) = AWaiting → a_phase_of (fe_act s') = AReturned → fe_rests s' = fe_rests s →
    a_queue (fe_act s') = a_queue (fe_act s) → taken s' = taken s → act_change s s'
| AC_rest w : a_phase_of (fe_act s) = AReturned → fe_rests s = None → a_phase_of (fe_act s') = AReturned → fe_rests s' = Some w →
    a_queue (fe_act s') = a_queue (fe_act s) → taken s' = taken s → act_change s s'
| AC_again w : fe_rests s = Some w → a_phase_of (fe_act s') = ACollect → a_cur (fe_act s') = [] → fe_rests s' = None →
    a_queue (fe_act s') = a_queue (fe_act s) → taken s' = taken s → act_change s s'.

Lemma step_act tps s s' : fe_step tps s s' → act_change s s'.
Proof.
  destruct 1; try (apply AC_none; cbn; try done; by left).
  - apply AC_none; cbn; try (by rewrite H0); try done.
    + unfold taken. cbn. rewrite H0. cbn. rewrite !app_length. cbn. lia.
    + right. exists id. by rewrite H0.
  - destruct (fe_act s) as [p0 q0 cur0 calls0 arr0] eqn:EA.
    remember (AState p0 q0 cur0 calls0 arr0) as s0 eqn:Es0.
    destruct H as [id p q cur calls arr Hcap|id q cur calls arr|cur calls arr|q cur calls arr Hne|q calls arr
    |n b p q cur calls arr Hn|n b p q cur calls arr Hn|q cur calls arr Hall]; injection Es0 as <- <- <- <- <-; cbn in *.
    + exfalso. apply (f_equal length) in H0. rewrite app_length in H0. cbn in H0. lia.
    + eapply AC_recv; cbn; rewrite ?EA; try done. unfold taken. cbn. rewrite EA. cbn. lia.
    + apply AC_default; cbn; rewrite ?EA; try done. unfold taken. cbn. by rewrite EA.
    + destruct (is_full cur); apply AC_send; cbn; rewrite ?EA; try done; try (by left); try (by right); unfold taken; cbn; by rewrite EA.
    + apply AC_send; cbn; rewrite ?EA; try done; try (by right); unfold taken; cbn; by rewrite EA.
    + apply AC_none; cbn; rewrite ?EA; try done; [|by left]. unfold taken; cbn; by rewrite EA.
    + apply AC_none; cbn; rewrite ?EA; try done; [|by left]. unfold taken; cbn; by rewrite EA.
    + apply AC_return; cbn; rewrite ?EA; try done. unfold taken; cbn; by rewrite EA.
  - eapply AC_rest; cbn; try done.
  - eapply AC_again; cbn; rewrite ?H1; try done. unfold taken; cbn; by rewrite H1.
Qed.

Lemma step_now tps s s' : fe_step tps s s' → fe_now s ≤ fe_now s'.
Proof. destruct 1; cbn; lia. Qed.

Section fairness.
Context (t0 : instant) (dur tps : Z) (f : nat → frontend).
Context (HE : Execution (fe_step tps) f) (HF : FairFrontend tps f) (H0 : fe_reach t0 dur tps (f 0%nat)).
Local Notation step := (fe_step tps).
Local Open Scope nat_scope.

Definition Leads (P Q : frontend → Prop) : Prop := ∀ n, P (f n) → ∃ m, n <= m ∧ Q (f m).

Lemma leads_once (A : frontend → frontend → Prop) (P Q : frontend → Prop) :
  FairTo step f A →
  (∀ n, P (f n) → P (f (S n)) ∨ Q (f (S n))) →
  (∀ n, P (f n) → A (f n) (f (S n)) → Q (f (S n))) →
  (∀ n, P (f n) → ∃ m, n <= m ∧ (Q (f m) ∨ ∃ s, step (f m) s ∧ A (f m) s)) → Leads P Q.
Proof. exact (leads_at_once step f A P Q). Qed.

Lemma reach n : fe_reach t0 dur tps (f n).
Proof.
  unfold fe_reach in *. etrans; [exact H0|]. apply (pausing_later step f); [by apply execution_pausing|lia].
Qed.
Lemma stay (P : frontend → Prop) : (∀ n, P (f n) → P (f (S n))) → ∀ n m, n <= m → P (f n) → P (f m).
Proof. intros H n m. induction 1; auto. Qed.

(** Time passes. *)
Lemma later_now n m : n <= m → (fe_now (f n) ≤ fe_now (f m))%Z.
Proof. induction 1; [done|]. pose proof (step_now tps _ _ (HE m)). lia. Qed.
Lemma second_passes n : ∃ m, n <= m ∧ (fe_now (f n) + giga ≤ fe_now (f m))%Z.
Proof.
  destruct (HF ClockMoves n) as [(m & Hm & Ha)|(k & Hk)].
  - exists (S m). split; [lia|]. cbn in Ha. pose proof (later_now n m Hm). lia.
  - exfalso. eapply (Hk k); [done|apply (F_time _ giga); unfold giga; lia|]. cbn. lia.
Qed.
Lemma time_comes n T : ∃ m, n <= m ∧ (T ≤ fe_now (f m))%Z.
Proof.
  assert (∀ j, ∃ m, n <= m ∧ (fe_now (f n) + Z.of_nat j ≤ fe_now (f m))%Z) as H.
  { induction j as [|j (m & Hm & Hj)]; [exists n; split; [done|lia]|].
    destruct (second_passes m) as (m' & Hm' & Hj'). exists m'. split; [lia|]. unfold giga in Hj'. lia. }
  destruct (H (Z.to_nat (T - fe_now (f n)))) as (m & Hm & Hj). exists m. split; [done|]. lia.
Qed.

(** The generator comes to its end. *)
Lemma left_stays n m : n <= m → (fe_left (f n) ≤ 0)%Z → (fe_left (f m) ≤ 0)%Z ∧ length (fe_players (f m)) = length (fe_players (f n)).
Proof.
  intros Hle Hl. induction Hle as [|m Hle [IH1 IH2]]; [done|].
  pose proof (gen_reach t0 dur tps _ (reach m)) as [_ _ _ _ G5 G6 _].
  pose proof (HE m) as Hs. destruct (f (S m)) as [] eqn:E'. clear E'.
  inversion Hs; subst; cbn; try done; try lia; try (by rewrite insert_length).
Qed.
Lemma gen_step s s' : gen_inv dur tps s → (0 < fe_left s)%Z → step s s' →
  ((fe_left s', fe_made s', fe_sleeps s') = (fe_left s, fe_made s, fe_sleeps s)) ∨
  (gen_weight tps s' < gen_weight tps s ∧ (fe_sleeps s ≠ None → fe_sleeps s' = None)).
Proof.
  intros G Hl Hs. pose proof (gi_asleep _ _ _ G) as G6. pose proof (gi_made _ _ _ G) as G4.
  destruct Hs; cbn; try (by left); right; unfold gen_weight; cbn; assert ((fe_left s <=? 0)%Z = false) as -> by lia.
  - rewrite H1. split; [lia|done].
  - rewrite H1. split; [lia|done].
  - rewrite H. split; [|done]. destruct (fe_left s - 1 <=? 0)%Z eqn:E2; nia.
Qed.
Lemma gen_ends : Leads (λ _, True) (λ s, (fe_left s ≤ 0)%Z).
Proof.
  intros n _. destruct (decide (fe_left (f n) ≤ 0)%Z) as [E|E]; [by exists n|].
  apply (leads_to step f (FeMoves GeneratorMoves) (λ s, 0 < fe_left s)%Z (λ s, fe_left s ≤ 0)%Z (gen_weight tps)); [apply HF| | | |lia].
  - intros k Hk. destruct (decide (fe_left (f (S k)) ≤ 0)%Z) as [Hq|Hq]; [by right|]. left. split; [lia|].
    destruct (gen_step _ _ (gen_reach t0 dur tps _ (reach k)) Hk (HE k)) as [Ex|[? _]]; [|lia]. injection Ex as E1 E2 E3. unfold gen_weight. by rewrite E1, E2, E3.
  - intros k Hk Ha. left. destruct (gen_step _ _ (gen_reach t0 dur tps _ (reach k)) Hk (HE k)) as [Ex|[? _]]; [|lia]. by destruct Ha.
  - intros k Hk.
    assert (∀ m, (0 < fe_left (f m))%Z → fe_sleeps (f m) = None → ∃ s, step (f m) s ∧ FeMoves GeneratorMoves (f m) s) as Hen.
    { intros m Hm Es. destruct (decide (fe_made (f m) < tps)%Z) as [Hl|Hl].
      - eexists. split; [by apply F_start|]. cbn. intros [=]. lia.
      - eexists. split; [apply F_sleep; [done|done|lia]|]. cbn. rewrite Es. by intros [=]. }
    destruct (fe_sleeps (f k)) as [w|] eqn:Es; [|exists k; split; [done|right; by apply Hen]].
    destruct (time_comes k w) as (m & Hm & Hw).
    destruct (kept f (λ s, 0 < fe_left s ∧ fe_sleeps s = Some w)%Z (λ s, fe_left s ≤ 0 ∨ 0 < fe_left s ∧ fe_sleeps s = None)%Z) with (n := k) (m := m)
      as [[Hl Hsl]|(j & Hj1 & Hj2 & Hj)]; [|done|done| |].
    + intros j [Hl Hsl]. destruct (decide (fe_left (f (S j)) ≤ 0)%Z) as [Hq|Hq]; [by right; left|].
      destruct (gen_step _ _ (gen_reach t0 dur tps _ (reach j)) Hl (HE j)) as [Ex|[_ Ex]].
      * injection Ex as E1 E2 E3. left. rewrite E3. split; [lia|done].
      * right. right. split; [lia|]. apply Ex. by rewrite Hsl.
    + exists m. split; [done|]. right. eexists. split; [by eapply F_wake|]. cbn. rewrite Hsl. by intros [=].
    + exists j. split; [done|]. destruct Hj as [Hj|[Hj1' Hj2']]; [by left|right; by apply Hen].
Qed.

(** Calls come to their end. *)
Lemma call_enabled s k b c : calls_made s !! k = Some (b, c) → c ≠ CallDone →
  ∃ s', step s s' ∧ FeMoves (CallMoves k) s s'.
Proof.
  intros Hk Hc.
  assert (∃ c', next_call c c' ∧ c' ≠ c) as (c' & Hn & Hne) by (destruct c; [by exists CallRunning|by exists CallDone|done]).
  cut (∃ s', step s s' ∧ calls_made s' = <[k := (b, c')]> (calls_made s)).
  { intros (s' & Hs & E). exists s'. split; [done|]. exists (b, c), (b, c'). split; [done|]. rewrite E.
    split; [apply list_lookup_insert; by eapply lookup_lt_Some|]. congruence. }
  unfold calls_made in *. apply lookup_app_Some in Hk as [Hk|[Hle Hk]].
  - rewrite insert_app_l by (by eapply lookup_lt_Some). destruct c, c'; try done; eexists;
      (split; [first [by eapply F_old_start | by eapply F_old_finish]|done]).
  - rewrite insert_app_r_alt by lia. destruct (fe_act s) as [p q cur calls arr] eqn:EA. cbn in *.
    destruct c, c'; try done; eexists;
      (split; [eapply F_activate; rewrite EA; [first [by eapply A_start | by eapply A_finish]|done]|done]).
Qed.
Lemma call_next k b c : c ≠ CallDone →
  Leads (λ s, calls_made s !! k = Some (b, c)) (λ s, ∃ c', calls_made s !! k = Some (b, c') ∧ next_call c c').
Proof.
  intros Hc. apply (leads_once (FeMoves (CallMoves k))); [apply HF| | |].
  - intros n Hk. destruct (call_lookup _ _ k b c (step_calls _ _ _ (HE n)) Hk) as (c' & Hk' & [->|Hn]); [by left|right; eauto].
  - intros n Hk (x & x' & Hx & Hx' & Hne). rewrite Hk in Hx. injection Hx as <-.
    destruct (call_lookup _ _ k b c (step_calls _ _ _ (HE n)) Hk) as (c' & Hk' & [->|Hn]); [|by exists c'].
    rewrite Hk' in Hx'. by injection Hx' as <-.
  - intros n Hk. exists n. split; [done|]. right. by eapply call_enabled.
Qed.
Lemma done_stays n m k b : n <= m → calls_made (f n) !! k = Some (b, CallDone) → calls_made (f m) !! k = Some (b, CallDone).
Proof.
  apply (stay (λ s, calls_made s !! k = Some (b, CallDone))). intros j Hk.
  by destruct (call_lookup _ _ k b _ (step_calls _ _ _ (HE j)) Hk) as (c' & Hk' & [->|Hn]).
Qed.
Lemma call_ends n k b c : calls_made (f n) !! k = Some (b, c) → ∃ m, n <= m ∧ calls_made (f m) !! k = Some (b, CallDone).
Proof.
  assert (∀ n, calls_made (f n) !! k = Some (b, CallRunning) → ∃ m, n <= m ∧ calls_made (f m) !! k = Some (b, CallDone)) as HR.
  { intros n1 H. destruct (call_next k b CallRunning ltac:(done) n1 H) as (m & Hm & c' & Hk & Hn). destruct c'; try done. by exists m. }
  intros H. destruct c; [|by apply HR|by exists n].
  destruct (call_next k b CallNew ltac:(done) n H) as (m & Hm & c' & Hk & Hn). destruct c'; try done.
  destruct (HR m Hk) as (m' & Hm' & E). exists m'. split; [lia|done].
Qed.
Lemma calls_end n : ∃ m, n <= m ∧ ∀ m' k b c, m <= m' → calls_made (f n) !! k = Some (b, c) → calls_made (f m') !! k = Some (b, CallDone).
Proof.
  cut (∀ j, ∃ m, n <= m ∧ ∀ m' k b c, m <= m' → k < j → calls_made (f n) !! k = Some (b, c) → calls_made (f m') !! k = Some (b, CallDone)).
  { intros H. destruct (H (length (calls_made (f n)))) as (m & Hm & Hk). exists m. split; [done|]. intros m' k b c Hm' H1.
    eapply Hk; [done|by eapply lookup_lt_Some|done]. }
  induction j as [|j (m & Hm & IH)]; [exists n; split; [done|lia]|].
  destruct (calls_made (f n) !! j) as [[b0 c0]|] eqn:Ej.
  - destruct (call_ends n j b0 c0 Ej) as (m1 & Hm1 & E1). exists (m `max` m1). split; [lia|]. intros m' k b c Hm' Hk H1.
    destruct (decide (k = j)) as [->|Hne]; [|eapply IH; [lia|lia|done]].
    rewrite Ej in H1. injection H1 as <- <-. eapply done_stays; [|exact E1]. lia.
  - exists m. split; [done|]. intros m' k b c Hm' Hk H1. destruct (decide (k = j)) as [->|Hne]; [congruence|]. eapply IH; [done|lia|done].
Qed.

(** The activator takes what is in the channel. *)
Definition Held_up (c0 : Z) (s : frontend) : Prop := a_queue (fe_act s) ≠ [] ∧ taken s = c0.

Lemma held_up_step c0 n : Held_up c0 (f n) → Held_up c0 (f (S n)) ∧ a_phase_of (fe_act (f n)) ≠ ACollect ∨ 
   Held_up c0 (f (S n)) ∧ a_phase_of (fe_act (f n)) = ACollect ∧ a_phase_of (fe_act (f (S n))) = ACollect ∧ a_cur (fe_act (f (S n))) = a_cur (fe_act (f n)) ∧ fe_rests (f (S n)) = fe_rests (f n) ∨ (c0 < taken (f (S n)))%Z.
Proof.
  intros [Hq Ht].
  destruct (step_act _ _ _ (HE n)) as [E1 E2 E3 E4 E5|id E1 E2 E3 E4|E1 E2 E3 E4 E5|E1 E2 E3 E4|E1 E2 E3 E4 E5|w E1 E2 E3 E4 E5 E6|w E1 E2 E3 E4 E5 E6].
  - assert (Held_up c0 (f (S n))) as Hh.
    { split; [|congruence]. destruct E5 as [->|[id ->]]; [done|]. by destruct (a_queue (fe_act (f n))). }
    destruct (a_phase_of (fe_act (f n))) eqn:Ep; [|by left..]. right. left. split_and!; congruence.
  - right. right. lia.
  - by rewrite E2 in Hq.
  - left. split; [split; congruence|congruence].
  - left. split; [split; congruence|congruence].
  - left. split; [split; congruence|congruence].
  - left. split; [split; congruence|]. pose proof (ii_rest _ (id_reach t0 dur tps _ (reach n)) _ E1). congruence.
Qed.

Definition Went (c0 : Z) (s : frontend) : Prop := (c0 < taken s)%Z.
Definition At (c0 : Z) (p : a_phase) (r : bool) (s : frontend) : Prop :=
  Held_up c0 s ∧ a_phase_of (fe_act s) = p ∧ match fe_rests s with Some _ => r = true | None => r = false end.

Lemma leads_trans P Q R : Leads P Q → Leads Q R → Leads P R.
Proof. intros H1 H2 n Hp. destruct (H1 n Hp) as (m & Hm & Hq). destruct (H2 m Hq) as (m' & Hm' & Hr). exists m'. split; [lia|done]. Qed.
Lemma leads_or P Q R : Leads P R → Leads Q R → Leads (λ s, P s ∨ Q s) R.
Proof. intros H1 H2 n [Hp|Hp]; eauto. Qed.
Lemma leads_refl P : Leads P P.
Proof. intros n Hp. by exists n. Qed.

Lemma not_resting n : a_phase_of (fe_act (f n)) ≠ AReturned → fe_rests (f n) = None.
Proof.
  intros Hp. destruct (fe_rests (f n)) as [w|] eqn:E; [|done].
  by pose proof (ii_rest _ (id_reach t0 dur tps _ (reach n)) _ E).
Qed.

Lemma from_collect c0 : Leads (λ s, Held_up c0 s ∧ a_phase_of (fe_act s) = ACollect) (Went c0).
Proof.
  apply (leads_once (FeMoves ActivatorMoves)); [apply HF| | |].
  - intros n [Hh Hp]. destruct (held_up_step c0 n Hh) as [[_ E]|[(E1 & E2 & E3 & E4 & E5)|E]]; [done|by left|by right].
  - intros n [Hh Hp] Ha. destruct (held_up_step c0 n Hh) as [[_ E]|[(E1 & E2 & E3 & E4 & E5)|E]]; [done| |done].
    destruct Ha. congruence.
  - intros n [[Hq Ht] Hp]. exists n. split; [done|]. right. destruct (fe_act (f n)) as [p q cur calls arr] eqn:EA. cbn in *. subst p.
    destruct q as [|id q]; [done|]. eexists. split; [eapply F_activate; rewrite EA; [apply A_recv|done]|].
    cbn. rewrite EA. cbn. intros [= _ E]. apply (f_equal length) in E. rewrite app_length in E. cbn in E. lia.
Qed.

Lemma from_rest c0 : Leads (λ s, Held_up c0 s ∧ fe_rests s ≠ None) (Went c0).
Proof.
  intros n [Hh Hr]. destruct (fe_rests (f n)) as [w|] eqn:Er; [|done].
  apply (leads_trans (λ s, Held_up c0 s ∧ fe_rests s = Some w) (λ s, Held_up c0 s ∧ a_phase_of (fe_act s) = ACollect)); [|apply from_collect|done].
  assert (K : ∀ k, Held_up c0 (f k) ∧ fe_rests (f k) = Some w →
    (Held_up c0 (f (S k)) ∧ fe_rests (f (S k)) = Some w ∧ a_phase_of (fe_act (f (S k))) = a_phase_of (fe_act (f k)) ∧ a_cur (fe_act (f (S k))) = a_cur (fe_act (f k)))
    ∨ Held_up c0 (f (S k)) ∧ a_phase_of (fe_act (f (S k))) = ACollect).
  { intros k [[Hq Ht] Hw]. pose proof (ii_rest _ (id_reach t0 dur tps _ (reach k)) _ Hw) as Hp.
    destruct (step_act _ _ _ (HE k)) as [E1 E2 E3 E4 E5|id E1 E2 E3 E4|E1 E2 E3 E4 E5|E1 E2 E3 E4|E1 E2 E3 E4 E5|w' E1 E2 E3 E4 E5 E6|w' E1 E2 E3 E4 E5 E6]; try congruence.
    - left. split_and!; try congruence. split; [|congruence]. destruct E5 as [->|[id ->]]; [done|]. by destruct (a_queue (fe_act (f k))).
    - right. split; [|done]. split; congruence. }
  apply (leads_once (FeMoves ActivatorMoves)); [apply HF| | |].
  - intros k H. destruct (K k H) as [(? & ? & _)|?]; [left; by split|by right].
  - intros k H Ha. destruct (K k H) as [(? & E1 & E2 & E3)|?]; [|done]. destruct Ha. destruct H as [_ H]. congruence.
  - intros k H. destruct (time_comes k w) as (m & Hm & Hw).
    destruct (kept f (λ s, Held_up c0 s ∧ fe_rests s = Some w) (λ s, Held_up c0 s ∧ a_phase_of (fe_act s) = ACollect)) with (n := k) (m := m)
      as [Hk|(j & Hj1 & Hj2 & Hj)]; [|done|done| |].
    + intros j Hj. destruct (K j Hj) as [(? & ? & _)|?]; [left; by split|by right].
    + exists m. split; [done|]. right. destruct (fe_act (f m)) as [p q cur calls arr] eqn:EA.
      eexists. split; [eapply F_again; [apply Hk|done|done]|]. cbn. destruct Hk as [_ ->]. by intros [=].
    + exists j. split; [done|]. by left.
Qed.

Lemma from_returned c0 : Leads (λ s, Held_up c0 s ∧ a_phase_of (fe_act s) = AReturned) (Went c0).
Proof.
  intros n [Hh Hp]. destruct (fe_rests (f n)) as [w|] eqn:Er; [apply from_rest; split; [done|congruence]|].
  apply (leads_trans (λ s, Held_up c0 s ∧ a_phase_of (fe_act s) = AReturned ∧ fe_rests s = None) (λ s, Held_up c0 s ∧ fe_rests s ≠ None)); [|apply from_rest|done].
  assert (K : ∀ k, Held_up c0 (f k) ∧ a_phase_of (fe_act (f k)) = AReturned ∧ fe_rests (f k) = None →
    (Held_up c0 (f (S k)) ∧ a_phase_of (fe_act (f (S k))) = AReturned ∧ fe_rests (f (S k)) = None ∧ a_cur (fe_act (f (S k))) = a_cur (fe_act (f k)))
    ∨ Held_up c0 (f (S k)) ∧ fe_rests (f (S k)) ≠ None).
  { intros k ([Hq Ht] & Hw1 & Hw2).
    destruct (step_act _ _ _ (HE k)) as [E1 E2 E3 E4 E5|id E1 E2 E3 E4|E1 E2 E3 E4 E5|E1 E2 E3 E4|E1 E2 E3 E4 E5|w' E1 E2 E3 E4 E5 E6|w' E1 E2 E3 E4 E5 E6]; try congruence.
    - left. split_and!; try congruence. split; [|congruence]. destruct E5 as [->|[id ->]]; [done|]. by destruct (a_queue (fe_act (f k))).
    - right. split; [|congruence]. split; congruence. }
  apply (leads_once (FeMoves ActivatorMoves)); [apply HF| | |].
  - intros k H. destruct (K k H) as [(? & ? & ? & _)|?]; [left; by split|by right].
  - intros k H Ha. destruct (K k H) as [(? & E1 & E2 & E3)|?]; [|done]. destruct Ha. destruct H as (_ & H & H'). congruence.
  - intros k (H1 & H2 & H3). exists k. split; [done|]. right. eexists. split; [by apply F_rest|]. cbn. rewrite H3. by intros [=].
Qed.

Lemma from_waiting c0 : Leads (λ s, Held_up c0 s ∧ a_phase_of (fe_act s) = AWaiting) (Went c0).
Proof.
  apply (leads_trans _ (λ s, Held_up c0 s ∧ a_phase_of (fe_act s) = AReturned)); [|apply from_returned].
  assert (K : ∀ k, Held_up c0 (f k) ∧ a_phase_of (fe_act (f k)) = AWaiting →
    (Held_up c0 (f (S k)) ∧ a_phase_of (fe_act (f (S k))) = AWaiting ∧ fe_rests (f (S k)) = fe_rests (f k) ∧ a_cur (fe_act (f (S k))) = a_cur (fe_act (f k))
      ∧ length (calls_made (f (S k))) = length (calls_made (f k)))
    ∨ Held_up c0 (f (S k)) ∧ a_phase_of (fe_act (f (S k))) = AReturned).
  { intros k ([Hq Ht] & Hw1). pose proof (not_resting k ltac:(congruence)) as Hw2.
    assert (a_phase_of (fe_act (f (S k))) = AReturned ∨ length (calls_made (f (S k))) = length (calls_made (f k))) as Hlen.
    { pose proof (HE k) as Hs. destruct (f (S k)) as [] eqn:Ef. clear Ef. inversion Hs; subst; unfold calls_made; cbn; try (by right).
      - right. match goal with H : fe_act _ = _ |- _ => rewrite H end. done.
      - match goal with H : a_step _ _ |- _ => destruct H; cbn in *; try done end; try (by right); try (by left).
        + right. by rewrite !app_length, insert_length.
        + right. by rewrite !app_length, insert_length.
      - right. match goal with H : fe_act _ = _ |- _ => rewrite H end. cbn. by rewrite app_nil_r.
      - right. by rewrite !app_length, insert_length.
      - right. by rewrite !app_length, insert_length. }
    destruct (step_act _ _ _ (HE k)) as [E1 E2 E3 E4 E5|id E1 E2 E3 E4|E1 E2 E3 E4 E5|E1 E2 E3 E4|E1 E2 E3 E4 E5|w' E1 E2 E3 E4 E5 E6|w' E1 E2 E3 E4 E5 E6]; try congruence.
    - left. destruct Hlen as [Hx|Hlen]; [congruence|]. split_and!; try congruence. split; [|congruence]. destruct E5 as [->|[id ->]]; [done|]. by destruct (a_queue (fe_act (f k))).
    - right. split; [|congruence]. split; congruence. }
  apply (leads_once (FeMoves ActivatorMoves)); [apply HF| | |].
  - intros k H. destruct (K k H) as [(? & ? & _)|?]; [left; by split|by right].
  - intros k H Ha. destruct (K k H) as [(? & E1 & E2 & E3 & _)|?]; [|done]. destruct Ha. destruct H as (_ & H). congruence.
  - intros k H. destruct (calls_end k) as (m & Hm & Hdone).
    destruct (kept f (λ s, Held_up c0 s ∧ a_phase_of (fe_act s) = AWaiting ∧ length (calls_made s) = length (calls_made (f k)))
      (λ s, Held_up c0 s ∧ a_phase_of (fe_act s) = AReturned)) with (n := k) (m := m)
      as [(Hk1 & Hk2 & Hk3)|(j & Hj1 & Hj2 & Hj)]; [|done|by destruct H| |].
    + intros j (Hj1 & Hj2 & Hj3). destruct (K j (conj Hj1 Hj2)) as [(? & ? & _ & _ & ?)|?]; [left; split_and!; congruence|by right].
    + exists m. split; [done|]. right.
      assert (Forall (λ c, c.2 = CallDone) (calls_made (f m))) as Hall.
      { apply Forall_lookup. intros i [b c] Hi. destruct (lookup_lt_is_Some_2 (calls_made (f k)) i) as [[b' c'] Hi'].
        { rewrite <-Hk3. by eapply lookup_lt_Some. }
        rewrite (Hdone m i b' c' ltac:(done) Hi') in Hi. by injection Hi as <- <-. }
      unfold calls_made in Hall. apply Forall_app in Hall as [_ Hall].
      destruct (fe_act (f m)) as [p q cur calls arr] eqn:EA. cbn in *. subst p.
      eexists. split; [eapply F_activate; rewrite EA; [apply A_return|done]|].
      * eapply Forall_impl; [exact Hall|]. cbn. intros [b c]. cbn. by intros ->.
      * cbn. rewrite EA. by intros [=].
    + exists j. split; [done|]. by left.
Qed.

Lemma from_send c0 : Leads (λ s, Held_up c0 s ∧ a_phase_of (fe_act s) = ASend) (Went c0).
Proof.
  apply (leads_trans _ (λ s, (Held_up c0 s ∧ a_phase_of (fe_act s) = ACollect) ∨ (Held_up c0 s ∧ a_phase_of (fe_act s) = AWaiting)));
    [|apply leads_or; [apply from_collect|apply from_waiting]].
  assert (K : ∀ k, Held_up c0 (f k) ∧ a_phase_of (fe_act (f k)) = ASend →
    (Held_up c0 (f (S k)) ∧ a_phase_of (fe_act (f (S k))) = ASend ∧ fe_rests (f (S k)) = fe_rests (f k) ∧ a_cur (fe_act (f (S k))) = a_cur (fe_act (f k)))
    ∨ (Held_up c0 (f (S k)) ∧ a_phase_of (fe_act (f (S k))) = ACollect ∨ Held_up c0 (f (S k)) ∧ a_phase_of (fe_act (f (S k))) = AWaiting)).
  { intros k ([Hq Ht] & Hw1). pose proof (not_resting k ltac:(congruence)) as Hw2.
    destruct (step_act _ _ _ (HE k)) as [E1 E2 E3 E4 E5|id E1 E2 E3 E4|E1 E2 E3 E4 E5|E1 E2 E3 E4|E1 E2 E3 E4 E5|w' E1 E2 E3 E4 E5 E6|w' E1 E2 E3 E4 E5 E6]; try congruence.
    - left. split_and!; try congruence. split; [|congruence]. destruct E5 as [->|[id ->]]; [done|]. by destruct (a_queue (fe_act (f k))).
    - right. destruct E2 as [[E2 _]|E2]; [left|right]; (split; [split; congruence|done]). }
  apply (leads_once (FeMoves ActivatorMoves)); [apply HF| | |].
  - intros k H. destruct (K k H) as [(? & ? & _)|?]; [left; by split|by right].
  - intros k H Ha. destruct (K k H) as [(? & E1 & E2 & E3)|?]; [|done]. destruct Ha. destruct H as (_ & H). congruence.
  - intros k [_ H]. exists k. split; [done|]. right. destruct (fe_act (f k)) as [p q cur calls arr] eqn:EA. cbn in *. subst p.
    destruct (decide (cur = [])) as [->|Hne].
    + eexists. split; [eapply F_activate; rewrite EA; [apply A_nothing|done]|]. cbn. rewrite EA. by intros [=].
    + eexists. split; [eapply F_activate; rewrite EA; [by apply A_send|by destruct (is_full cur)]|]. cbn. rewrite EA. by destruct (is_full cur); intros [=].
Qed.

Lemma channel_moves n : a_queue (fe_act (f n)) ≠ [] → ∃ m, n <= m ∧ (taken (f n) < taken (f m))%Z.
Proof.
  intros Hq. assert (Held_up (taken (f n)) (f n)) as Hh by done.
  destruct (a_phase_of (fe_act (f n))) eqn:Ep.
  - by apply (from_collect (taken (f n)) n).
  - by apply (from_send (taken (f n)) n).
  - by apply (from_waiting (taken (f n)) n).
  - by apply (from_returned (taken (f n)) n).
Qed.
End fairness.
