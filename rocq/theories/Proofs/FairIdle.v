(** From every reachable state of an instance with the in-memory store there is a
    fair execution. *)
From Coq Require Import Ascii String ZArith NArith Lia ZifyBool ZifyN.
From stdpp Require Import prelude strings gmap relations.
From Verif.Model Require Import GoStrings Types Proto Cache Replica Handlers MemRepl Queues System.
From Verif.Spec Require Import IdSpec CacheSpec SystemSpec FairSpec.
From Verif.Proofs Require Import HistoryLemmas HistoryMore InstLemmas MemSystemLemmas MemSystemMore MemSystemLive FairLemmas.
Local Open Scope nat_scope.

(** An order in which a cycle can visit the cache. *)
Definition calm_orders (cfg : config) (c : cache) : cycle_orders :=
  let vi := (λ k : string, (k, 0%Z)) <$> elements (c_inactive c) in
  let c1 := apply_ops c (mbind (inactive_visit_ops (cfg_ticket_ttl cfg)) vi) in
  CycleOrders vi ((λ k : string, (k, 0%Z)) <$> (map_to_list (c_tickets c1)).*1)
                 ((λ k : string, (k, 0%Z)) <$> (map_to_list (c_assign c)).*1).

Lemma calm_orders_fit cfg c : orders_fit cfg (calm_orders cfg c) c.
Proof.
  assert (Hf : ∀ l : list string, ((λ k : string, (k, 0%Z)) <$> l).*1 = l).
  { intros l. rewrite <-list_fmap_compose. apply list_fmap_id. }
  unfold orders_fit, calm_orders. cbv zeta. cbn [v_inactive v_tickets v_assign]. rewrite !Hf. done.
Qed.

(** The goroutines that always run take their turns. *)
Definition idle {S} (cfg : config) (x : inst S) : inst S :=
  match x with
  | Inst cs o (PGet l) st false c ev => Inst cs o (PPush l) st false c ev
  | Inst cs o p st false c ev => Inst cs o p st true c ev
  | Inst cs o (PPush l) st true c ev => Inst cs o (PGet []) st true c ev
  | Inst cs o p st true c ev =>
      Inst cs o p st false (cycle cfg (calm_orders cfg c) c) (ev ++ [HCycle (calm_orders cfg c)])
  end.

Lemma idle_resting {S} cfg (x : inst S) : resting x → resting (idle cfg x).
Proof.
  intros (R1 & R2 & R3 & R4). destruct x as [cs o p st [] c ev]; cbn [in_calls in_out in_poll in_stream] in *;
    destruct R4 as [-> | ->]; cbn; split_and!; auto.
Qed.

(** It does not need calls to have returned. *)
Definition calm {S} (x : inst S) : Prop := in_stream x = [] ∧ (in_poll x = PGet [] ∨ in_poll x = PPush []).
Lemma idle_calm {S} cfg (x : inst S) : calm x → calm (idle cfg x).
Proof.
  intros (R3 & R4). destruct x as [cs o p st [] c ev]; cbn [in_calls in_out in_poll in_stream] in *;
    destruct R4 as [-> | ->]; cbn; split; auto.
Qed.
Lemma idle_calls {S} cfg (x : inst S) : in_calls (idle cfg x) = in_calls x.
Proof. destruct x as [cs o p st [] c ev]; cbn [idle in_calls]; try done; by destruct p. Qed.
Lemma idle_turn cfg x m t h : calm x → mstep cfg (MSys x m t h) (MSys (idle cfg x) m t h).
Proof.
  destruct x as [cs o p st x c ev]. intros (R3 & R4). cbn [in_poll in_stream] in *.
  destruct x; destruct R4 as [-> | ->]; cbn [idle].
  - apply M_local, L_expire, calm_orders_fit.
  - apply M_local, L_pushed.
  - apply M_poll_timeout.
  - apply M_local, L_leave_loop.
Qed.

Definition idle_sys (cfg : config) (s : msys) : msys := MSys (idle cfg (ms_inst s)) (ms_store s) (ms_clock s) (ms_hist s).

Lemma idle_step cfg s : resting (ms_inst s) → mstep cfg s (idle_sys cfg s).
Proof. destruct s as [x m t h]. intros (_ & _ & R3 & R4). apply idle_turn. by split. Qed.

Definition idle_run (cfg : config) (s : msys) (n : nat) : msys := Nat.iter n (idle_sys cfg) s.

Lemma idle_run_resting cfg s n : resting (ms_inst s) → resting (ms_inst (idle_run cfg s n)).
Proof. intros H. induction n as [|n IH]; [done|]. cbn. by apply idle_resting. Qed.

(** Within four steps each of them has moved. *)
Lemma idle_four {S} cfg (x : inst S) : resting x →
  ∀ k, k = PollerMoves ∨ k = PollEnds ∨ k = CycleEnds → ∃ j, j < 4 ∧ Moves k (Nat.iter j (idle cfg) x) (Nat.iter (Datatypes.S j) (idle cfg) x).
Proof.
  intros (R1 & R2 & R3 & R4) k Hk. destruct x as [cs o p st x c ev]. cbn [in_calls in_out in_poll in_stream] in *.
  assert (H0 : 0 < 4) by lia. assert (H1 : 1 < 4) by lia. assert (H2 : 2 < 4) by lia. assert (H3 : 3 < 4) by lia.
  destruct x; destruct R4 as [-> | ->]; destruct Hk as [-> | [-> | ->]].
  - exists 1. split; [done|]. cbn. done.
  - exists 1. split; [done|]. cbn. split; by eexists.
  - exists 0. by split.
  - exists 0. by split.
  - exists 2. split; [done|]. cbn. split; by eexists.
  - exists 1. by split.
  - exists 0. by split.
  - exists 0. split; [done|]. cbn. split; by eexists.
  - exists 3. by split.
  - exists 1. by split.
  - exists 3. split; [done|]. cbn. split; by eexists.
  - exists 2. by split.
Qed.

Lemma idle_run_inst cfg s n j : ms_inst (idle_run cfg s (j + n)) = Nat.iter j (idle cfg) (ms_inst (idle_run cfg s n)).
Proof.
  induction j as [|j IH]; [done|].
  change (idle cfg (ms_inst (idle_run cfg s (j + n))) = idle cfg (Nat.iter j (idle cfg) (ms_inst (idle_run cfg s n)))).
  by rewrite IH.
Qed.

Lemma mstep_resting cfg s s' : mstep cfg s s' → resting (ms_inst s) →
  in_out (ms_inst s') = in_out (ms_inst s) ∧ applied (ms_inst s') = applied (ms_inst s) ∧
  (∀ i c, in_calls (ms_inst s) !! i = Some c → in_calls (ms_inst s') !! i = Some c).
Proof.
  destruct 1; cbn [ms_inst]; intros R; try (by destruct R as (_ & R & _)).
  by eapply resting_still.
Qed.

Lemma idle_fair cfg s k : resting (ms_inst s) →
  FairTo (mstep cfg) (idle_run cfg s) (λ s s', Moves k (ms_inst s) (ms_inst s')).
Proof.
  intros R n. destruct k as [| | | | |i].
  - right. exists 0. intros m s' _ Hs H. apply H. eapply mstep_resting; [exact Hs|by apply idle_run_resting].
  - left. destruct (idle_four cfg (ms_inst (idle_run cfg s n)) ltac:(by apply idle_run_resting) PollerMoves ltac:(auto)) as (j & _ & Hj).
    exists (j + n). split; [lia|]. change (S (j + n)) with (S j + n). by rewrite !idle_run_inst.
  - left. destruct (idle_four cfg (ms_inst (idle_run cfg s n)) ltac:(by apply idle_run_resting) PollEnds ltac:(auto)) as (j & _ & Hj).
    exists (j + n). split; [lia|]. change (S (j + n)) with (S j + n). by rewrite !idle_run_inst.
  - right. exists 0. intros m s' _ Hs H. apply H. eapply mstep_resting; [exact Hs|by apply idle_run_resting].
  - left. destruct (idle_four cfg (ms_inst (idle_run cfg s n)) ltac:(by apply idle_run_resting) CycleEnds ltac:(auto)) as (j & _ & Hj).
    exists (j + n). split; [lia|]. change (S (j + n)) with (S j + n). by rewrite !idle_run_inst.
  - right. exists 0. intros m s' _ Hs (c & c' & H1 & H2 & H).
    destruct (mstep_resting _ _ _ Hs ltac:(by apply idle_run_resting)) as (_ & _ & Hc).
    rewrite (lookup_still _ _ _ _ _ Hc H1 H2) in H. by destruct H.
Qed.

Lemma mem_fair_exists cfg t0 s : (0 <= t0)%Z → mreach cfg t0 s →
  ∃ f, f 0 = s ∧ Execution (mstep cfg) f ∧ FairMem cfg f.
Proof.
  intros H0 Hr. destruct (mem_can_finish cfg t0 s H0 Hr) as (s' & Hs & Hq & _).
  assert (R : resting (ms_inst s')).
  { apply quiescent_resting; [done|]. refine (mi_poll cfg s' _). eapply mreach_inv; [exact H0|]. by eapply rtc_transitive. }
  apply (fair_prepend (mstep cfg) (λ k s s', Moves k (ms_inst s) (ms_inst s')) s s' Hs).
  exists (idle_run cfg s'). split; [done|]. split.
  - intros n. cbn. apply idle_step. by apply idle_run_resting.
  - intros k. by apply idle_fair.
Qed.
