(** Fair executions of several instances on one Redis stream. *)
From Coq Require Import Ascii String ZArith NArith Lia ZifyBool ZifyN Sorting.
From stdpp Require Import prelude strings gmap relations.
From Verif.Model Require Import GoStrings Types Filter Proto Cache Replica Handlers MemRepl Queues RedisRepl RedisReader System RedisSystem.
From Verif.Spec Require Import IdSpec RedisSpec CacheSpec SystemSpec FairSpec.
From Verif.Proofs Require Import StringLemmas MemLemmas RedisLemmas RedisSendLemmas RedisReadLemmas HistoryLemmas HistoryMore InstLemmas
  MemSystemLemmas MemSystemMore MemSystemLive RedisSystemLemmas RedisSystemRead RedisSystemMore RedisSystemOrder RedisSystemLive FairLemmas FairMem.
Local Open Scope nat_scope.

(** ** What a step does to one instance *)
Inductive ymove (cfg : config) (s : stream) (x x' : rinst) : Prop :=
| Ym_same : x' = x → ymove cfg s x x'
| Ym_local i' : lstep cfg redis_begin (rx_inst x) i' → x' = RInst i' (rx_cursor x) (rx_hist x) → ymove cfg s x x'
| Ym_store c o' : in_out (rx_inst x) = OStore c → rx_inst x' = set_out o' (rx_inst x) → rx_cursor x' = rx_cursor x →
    ¬ collecting o' → rout_w 1 o' < rout_w 1 (OStore c) → ymove cfg s x x'
| Ym_poll ok : in_poll (rx_inst x) = PGet [] → x' = poll_redis cfg s ok x → ymove cfg s x x'.

Lemma finish_w b rs x : ¬ collecting (in_out (rx_inst (finish_send b rs x))) ∧
  rout_w 1 (in_out (rx_inst (finish_send b rs x))) = 1 + 2 * length b.
Proof.
  unfold finish_send, set_out, to_deliver. cbn [rx_inst in_out]. pose proof (redis_results_length b rs) as Hl.
  rewrite distribute_zip by lia. split; [by intros []|]. cbn [rout_w]. rewrite zip_with_length, map_length. lia.
Qed.

Lemma ystep_inst cfg s s' n x : ystep cfg s s' → ry_insts s !! n = Some x →
  ∃ x', ry_insts s' !! n = Some x' ∧ ymove cfg (ry_stream s) x x'.
Proof.
  assert (Hset : ∀ (xs : list rinst) m y y', xs !! m = Some y → xs !! n = Some x →
    (m = n ∧ y = x ∧ <[m := y']> xs !! n = Some y') ∨ <[m := y']> xs !! n = Some x).
  { intros xs m y y' Hm Hn. destruct (decide (m = n)) as [->|Hne].
    - left. split; [done|]. split; [congruence|]. apply list_lookup_insert. by eapply lookup_lt_Some.
    - right. by rewrite list_lookup_insert_ne by done. }
  destruct 1 as [xs s os lg ts|xs s os lg ts m y i' Hy Hl|xs s os lg ts m y b q c cmds rs ms Hy Ho|xs s os lg ts m y b q c cmds rs Hy Ho
    |xs s os lg ts m y b rs now Hy Ho|xs s os lg ts m y b cmds rs Hy Ho|xs s os lg ts k m q c cmds ms Hk|xs s os lg ts k m now Hk
    |xs s os lg ts k o Hk|xs s os lg ts m y ok Hy Hp]; cbn [ry_insts ry_stream]; intros Hn;
    try (exists x; split; [done|by apply Ym_same]).
  - exists x. split; [by apply lookup_app_l_Some|by apply Ym_same].
  - destruct (Hset xs m y (RInst i' (rx_cursor y) (rx_hist y)) Hy Hn) as [(-> & -> & E)|E]; rewrite E.
    + eexists. split; [done|]. by eapply Ym_local.
    + exists x. split; [done|by apply Ym_same].
  - match goal with |- context [<[m := ?z]> xs] => destruct (Hset xs m y z Hy Hn) as [(-> & -> & E)|E]; rewrite E end.
    + eexists. split; [done|]. eapply Ym_store; [exact Ho|done|done|by intros []|]. cbn. lia.
    + exists x. split; [done|by apply Ym_same].
  - match goal with |- context [<[m := ?z]> xs] => destruct (Hset xs m y z Hy Hn) as [(-> & -> & E)|E]; rewrite E end.
    + eexists. split; [done|]. eapply Ym_store; [exact Ho|done|done|by intros []|]. cbn. lia.
    + exists x. split; [done|by apply Ym_same].
  - match goal with |- context [<[m := ?z]> xs] => destruct (Hset xs m y z Hy Hn) as [(-> & -> & E)|E]; rewrite E end.
    + eexists. split; [done|]. destruct (finish_w b rs x) as [H1 H2]. eapply Ym_store; [exact Ho|done|done|exact H1|].
      cbn [rx_inst finish_send set_out in_out] in H2. rewrite H2. cbn. lia.
    + exists x. split; [done|by apply Ym_same].
  - match goal with |- context [<[m := ?z]> xs] => destruct (Hset xs m y z Hy Hn) as [(-> & -> & E)|E]; rewrite E end.
    + eexists. split; [done|]. destruct (finish_w b [] x) as [H1 H2]. eapply Ym_store; [exact Ho|done|done|exact H1|].
      cbn [rx_inst finish_send set_out in_out] in H2. rewrite H2. cbn. lia.
    + exists x. split; [done|by apply Ym_same].
  - match goal with |- context [<[m := ?z]> xs] => destruct (Hset xs m y z Hy Hn) as [(-> & -> & E)|E]; rewrite E end.
    + eexists. split; [done|]. by eapply Ym_poll.
    + exists x. split; [done|by apply Ym_same].
Qed.

Lemma poll_redis_inst cfg s ok x : ∃ p, rx_inst (poll_redis cfg s ok x) = set_poll p (rx_inst x) ∧ (p = PCrash ∨ ∃ l, p = PPush l).
Proof. unfold poll_redis. destruct (redis_get _ _ _ _) as [[us|] c]; eexists; split; eauto. Qed.

(** The incoming side. *)
Inductive red_incoming (cfg : config) (x x' : inst redis_call) : Prop :=
| RI_local : incoming cfg x x' → red_incoming cfg x x'
| RI_poll l : in_poll x = PGet [] → in_poll x' = PPush l → in_stream x' = in_stream x →
    applied x' = applied x → red_incoming cfg x x'
| RI_crash : in_poll x' = PCrash → red_incoming cfg x x'.

Lemma ymove_incoming cfg s x x' : ymove cfg s x x' → red_incoming cfg (rx_inst x) (rx_inst x').
Proof.
  intros [->|i' Hl ->|c o' _ E _ _ _|ok Hp ->].
  - apply RI_local, In_same; reflexivity.
  - apply RI_local. by eapply lstep_incoming.
  - apply RI_local, In_same; rewrite E; reflexivity.
  - destruct (poll_redis_inst cfg s ok x) as (p & E & [-> | [l ->]]); [by apply RI_crash; rewrite E|].
    eapply (RI_poll _ _ _ l); rewrite ?E; done.
Qed.

Lemma ymove_call cfg s x x' i c : ymove cfg s x x' → in_calls (rx_inst x) !! i = Some c →
  ∃ c', in_calls (rx_inst x') !! i = Some c' ∧ cl_ups c' = cl_ups c ∧
    ((cl_sent c' = cl_sent c ∧ cl_got c' = cl_got c) ∨
     (cl_sent c' = S (cl_sent c) ∧ cl_sent c < length (cl_ups c) ∧ cl_got c' = cl_got c) ∨
     (cl_sent c' = cl_sent c ∧ waiting c ∧ length (cl_got c') = S (length (cl_got c)))).
Proof.
  intros [->|i' Hl ->|c0 o' _ E _ _ _|ok Hp ->] Hc.
  - exists c. split; [done|]. split; [done|]. by left.
  - by eapply lstep_call.
  - rewrite E. exists c. split; [done|]. split; [done|]. by left.
  - destruct (poll_redis_inst cfg s ok x) as (p & E & _). rewrite E. exists c. split; [done|]. split; [done|]. by left.
Qed.

Lemma ymove_outgoing cfg s x x' : ymove cfg s x x' →
  outgoing cfg redis_begin (rx_inst x) (rx_inst x') ∨
  (¬ collecting (in_out (rx_inst x)) ∧ ¬ collecting (in_out (rx_inst x')) ∧
   rout_w 1 (in_out (rx_inst x')) < rout_w 1 (in_out (rx_inst x))).
Proof.
  intros [->|i' Hl ->|c0 o' E0 E _ H1 H2|ok Hp ->].
  - left. by apply Out_same.
  - left. by eapply lstep_outgoing.
  - right. rewrite E0, E. split; [by intros []|]. by split.
  - left. apply Out_same. destruct (poll_redis_inst cfg s ok x) as (p & -> & _). done.
Qed.

Section run.
Context (cfg : config) (n : nat) (f : nat → rsys).
Hypothesis starts : yreach cfg (f 0).
Hypothesis there : is_Some (ry_insts (f 0) !! n).
Hypothesis runs : Pausing (ystep cfg) f.
Hypothesis fair : FairInst cfg n f.

Definition r_ (s : rsys) : rinst := default rinst0 (ry_insts s !! n).
Notation i_ s := (rx_inst (r_ s)).
Notation x_ m := (rx_inst (r_ (f m))).

Lemma red_later m k : m <= k → rtc (ystep cfg) (f m) (f k).
Proof using runs. apply pausing_later, runs. Qed.
Lemma red_reach m : yreach cfg (f m).
Proof using runs starts. eapply rtc_transitive; [exact starts|]. apply red_later. lia. Qed.
Lemma red_at m : ry_insts (f m) !! n = Some (r_ (f m)).
Proof using runs there.
  induction m as [|m IH]; unfold r_.
  - by destruct there as [x ->].
  - destruct (runs m) as [->|Hs]; [exact IH|]. destruct (ystep_inst _ _ _ _ _ Hs IH) as (x' & -> & _). done.
Qed.
Lemma red_move m : ymove cfg (ry_stream (f m)) (r_ (f m)) (r_ (f (S m))).
Proof using runs there.
  destruct (runs m) as [->|Hs]; [by apply Ym_same|].
  destruct (ystep_inst _ _ _ _ _ Hs (red_at m)) as (x' & E & H). unfold r_ at 2. by rewrite E.
Qed.
Lemma red_ok m : inst_ok rc_batch no_undel cfg (rx_hist (r_ (f m))) (x_ m).
Proof using runs there starts. apply (rx_in _ _ _ _ _ (yi_inst _ _ (yreach_inv _ _ (red_reach m)) n _ (red_at m))). Qed.
Lemma red_poll_fine m : poll_fine (in_poll (x_ m)).
Proof using runs there starts.
  destruct (yreach_read _ _ (red_reach m)) as [slog HR]. apply (yr_inst _ _ _ HR n _ (red_at m)).
Qed.

Lemma red_in m : red_incoming cfg (x_ m) (x_ (S m)).
Proof using runs there. eapply ymove_incoming, red_move. Qed.

(** A step inside instance [n]. *)
Lemma local_step m i' : lstep cfg redis_begin (x_ m) i' → ∃ s, ystep cfg (f m) s ∧ i_ s = i' ∧
  ry_insts s !! n = Some (r_ s).
Proof using runs there.
  intros Hl. pose proof (red_at m) as Hx. destruct (f m) as [xs s os lg ts] eqn:Ef. cbn [ry_insts] in Hx.
  eexists. split; [eapply Y_local; [exact Hx|exact Hl]|]. cbn [ry_insts]. unfold r_. cbn [ry_insts].
  rewrite list_lookup_insert by (by eapply lookup_lt_Some). done.
Qed.
Lemma moves_at k m s : ry_insts s !! n = Some (r_ s) → Moves k (x_ m) (i_ s) → InstMoves n k (f m) s.
Proof using runs there. intros Hs H. exists (r_ (f m)), (r_ s). split; [apply red_at|]. by split. Qed.
Lemma moved k m : InstMoves n k (f m) (f (S m)) → Moves k (x_ m) (x_ (S m)).
Proof using runs there.
  intros (x & x' & H1 & H2 & H). rewrite red_at in H1. rewrite red_at in H2. by injection H1 as <-; injection H2 as <-.
Qed.
Lemma local_moves k m i' : lstep cfg redis_begin (x_ m) i' → Moves k (x_ m) i' → ∃ s, ystep cfg (f m) s ∧ InstMoves n k (f m) s.
Proof using runs there.
  intros Hl Hm. destruct (local_step m i' Hl) as (s & Hs & E & Ha). exists s. split; [done|]. apply moves_at; [done|]. by rewrite E.
Qed.

Lemma red_stream_cap m : length (in_stream (x_ m)) <= cfg_in_max cfg.
Proof using runs there starts.
  assert (H : ∀ s, yreach cfg s → ∀ k x, ry_insts s !! k = Some x → length (in_stream (rx_inst x)) <= cfg_in_max cfg).
  { apply (rtc_ind_r (λ s, ∀ k x, ry_insts s !! k = Some x → length (in_stream (rx_inst x)) <= cfg_in_max cfg)); [done|].
    intros s s' Hr Hs IH k x' Hx'.
    destruct (ry_insts s !! k) as [x|] eqn:Ex.
    - specialize (IH k x Ex). destruct (ystep_inst _ _ _ _ _ Hs Ex) as (x2 & E2 & Hm). rewrite Hx' in E2. injection E2 as <-.
      destruct Hm as [->|i' Hl ->|c0 o' _ E _ _ _|ok Hp ->]; [done| |by rewrite E|by destruct (poll_redis_inst cfg (ry_stream s) ok x) as (p & -> & _)].
      cbn [rx_inst]. destruct (lstep_incoming _ _ _ _ Hl) as [_ E _|u l _ _ E _ Hlt|_ _ E _|u E _ _ _|u l _ E _ _ _ _];
        rewrite ?E in *; rewrite ?app_length in *; cbn [length] in *; lia.
    - assert (x' = rinst0) as ->; [|cbn; lia].
      destruct Hs; cbn [ry_insts] in *; try (rewrite list_lookup_insert_Some in Hx'; naive_solver); try congruence.
      apply lookup_app_Some in Hx' as [Hx'|[_ Hx']]; [congruence|]. by apply list_lookup_singleton_Some in Hx' as [_ <-]. }
  apply (H (f m) (red_reach m) n). apply red_at.
Qed.

(** Expiration cycles end. *)
Lemma red_not_expiring m : ∃ k, m <= k ∧ in_expiring (x_ k) = false.
Proof using runs there fair.
  destruct (in_expiring (x_ m)) eqn:E; [|exists m; split; [lia|done]].
  apply (leads_at_once (ystep cfg) f (InstMoves n CycleEnds)
           (λ s, in_expiring (i_ s) = true) (λ s, in_expiring (i_ s) = false)); [apply fair| | | |done].
  - intros k _. destruct (in_expiring (x_ (S k))); auto.
  - intros k _ H. by destruct (moved _ _ H).
  - intros k Hk. exists k. split; [lia|]. right.
    destruct (x_ k) as [cs o p st x c ev] eqn:Ek. cbn [in_expiring] in Hk. subst x.
    destruct (some_orders cfg c 0%Z) as [ords Ho]. eapply local_moves; rewrite Ek; [by apply L_expire, Ho|done].
Qed.

Lemma red_applies m cs o p u st c ev : x_ m = Inst cs o p (u :: st) false c ev →
  ∃ s, ystep cfg (f m) s ∧ InstMoves n UpdateApplied (f m) s.
Proof using runs there.
  intros E. eapply local_moves; rewrite E; [apply L_apply|]. cbn. unfold applied. cbn [in_events].
  rewrite hev_updates_app. cbn. intros H. apply (f_equal length) in H. rewrite app_length in H. cbn in H. lia.
Qed.
Lemma red_applies_direct m cs o u l c ev : x_ m = Inst cs o (PPush (u :: l)) [] false c ev →
  (∃ s, ystep cfg (f m) s ∧ InstMoves n UpdateApplied (f m) s) ∧ (∃ s, ystep cfg (f m) s ∧ InstMoves n PollerMoves (f m) s).
Proof using runs there.
  intros E. split; eapply local_moves; rewrite E; try apply L_apply_direct; cbn.
  - unfold applied. cbn [in_events]. rewrite hev_updates_app. cbn. intros H. apply (f_equal length) in H. rewrite app_length in H. cbn in H. lia.
  - intros H. injection H as H. apply (f_equal length) in H. cbn in H. lia.
Qed.

Definition rpushing (s : rsys) : Prop := ∃ l, in_poll (i_ s) = PPush l.
Definition rgetting (s : rsys) : Prop := in_poll (i_ s) = PGet [].
Definition rpush_left (s : rsys) : nat := match in_poll (i_ s) with PPush l => length l | _ => 0 end.

Lemma red_not_crashed m : in_poll (x_ m) ≠ PCrash.
Proof using runs there starts. destruct (red_poll_fine m) as [->|[l ->]]; done. Qed.

Lemma rpushing_keep m : rpushing (f m) → (rpushing (f (S m)) ∧ rpush_left (f (S m)) <= rpush_left (f m)) ∨ rgetting (f (S m)).
Proof using runs there starts.
  intros [l0 E0]. unfold rpushing, rgetting, rpush_left.
  destruct (red_in m) as [[_ _ E|u l E1 E2 _ _ _|E1 E2 _ _|u _ E _ _|u l _ _ E1 E2 _ _]|l E1 _ _ _|E1]; rewrite ?E0 in *; try done.
  - left. rewrite E. eauto.
  - injection E1 as ->. rewrite E2. left. split; [eauto|cbn; lia].
  - by right.
  - left. rewrite E. eauto.
  - injection E1 as ->. rewrite E2. left. split; [eauto|cbn; lia].
  - by destruct (red_not_crashed (S m)).
Qed.

Lemma rpushing_moves m : rpushing (f m) → Moves PollerMoves (x_ m) (x_ (S m)) →
  rpush_left (f (S m)) < rpush_left (f m) ∨ rgetting (f (S m)).
Proof using runs there starts.
  intros [l0 E0] Hm. unfold rpushing, rgetting, rpush_left. cbn [Moves] in Hm.
  destruct (red_in m) as [[_ _ E|u l E1 E2 _ _ _|E1 E2 _ _|u _ E _ _|u l _ _ E1 E2 _ _]|l E1 _ _ _|E1]; rewrite ?E0 in *; try done.
  - injection E1 as ->. rewrite E2. left. cbn. lia.
  - by right.
  - injection E1 as ->. rewrite E2. left. cbn. lia.
  - by destruct (red_not_crashed (S m)).
Qed.

Lemma rpush_possible m u l : in_poll (x_ m) = PPush (u :: l) → length (in_stream (x_ m)) < cfg_in_max cfg →
  ∃ s, ystep cfg (f m) s ∧ InstMoves n PollerMoves (f m) s.
Proof using runs there.
  destruct (x_ m) as [cs o p st x c ev] eqn:E. cbn [in_poll in_stream]. intros -> Hl.
  eapply local_moves; rewrite E; [by apply L_push|]. cbn. intros H. injection H as H.
  apply (f_equal length) in H. cbn in H. lia.
Qed.
Lemma rpushed_possible m : in_poll (x_ m) = PPush [] → ∃ s, ystep cfg (f m) s ∧ InstMoves n PollerMoves (f m) s.
Proof using runs there.
  destruct (x_ m) as [cs o p st x c ev] eqn:E. cbn [in_poll in_stream]. intros ->.
  eapply local_moves; rewrite E; [by apply L_pushed|]. done.
Qed.

(** The poller comes back to GetUpdates. *)
Lemma red_polls_again m : ∃ k, m <= k ∧ rgetting (f k).
Proof using runs there starts fair.
  destruct (red_poll_fine m) as [E|[l0 E]]; [by exists m|].
  apply (leads_to (ystep cfg) f (InstMoves n PollerMoves) rpushing rgetting rpush_left).
  - apply fair.
  - exact rpushing_keep.
  - intros k Hk Hm. apply rpushing_moves; [done|]. by apply moved.
  - intros k Hk.
    assert (Hkept : ∀ j, k <= j → rpushing (f j) ∨ ∃ j', k <= j' ∧ j' <= j ∧ rgetting (f j')).
    { intros j Hj. eapply (kept f rpushing rgetting); [|exact Hj|exact Hk].
      intros i Hi. destruct (rpushing_keep i Hi) as [[]|]; auto. }
    destruct (fair UpdateApplied k) as [(j & Hj & Ha)|(k2 & Hno)].
    + destruct (Hkept (S j) ltac:(lia)) as [[l' El]|(j' & H1 & _ & H3)]; [|exists j'; split; [done|by left]].
      exists (S j). split; [lia|]. right. destruct l' as [|u l']; [by apply rpushed_possible|].
      pose proof (red_stream_cap j) as Hcap. apply moved in Ha. cbn [Moves] in Ha.
      destruct (red_in j) as [[Ea _ _|u' l _ _ _ Ea _|_ _ _ Ea|u' Es _ _ Ex|u' l Es1 Es2 _ _ _ Ex]|l _ _ _ Ea|E1];
        try done.
      * apply (rpush_possible _ u l' El). rewrite Es in Hcap. cbn in Hcap. lia.
      * destruct (x_ (S j)) as [cs o p st x c ev] eqn:Ef. cbn [in_poll in_stream in_expiring] in *.
        subst. apply (red_applies_direct _ _ _ _ _ _ _ Ef).
      * by destruct (red_not_crashed (S j)).
    + destruct (red_not_expiring (k `max` k2)) as (j & Hj & Hx).
      destruct (Hkept j ltac:(lia)) as [[l' El]|(j' & H1 & _ & H3)]; [|exists j'; split; [done|by left]].
      exists j. split; [lia|]. right. destruct l' as [|u l']; [by apply rpushed_possible|].
      specialize (Hno j). destruct (x_ j) as [cs o p st x c ev] eqn:Ej. cbn [in_poll in_stream in_expiring] in *. subst.
      destruct st as [|u' st].
      * apply (red_applies_direct _ _ _ _ _ _ _ Ej).
      * exfalso. destruct (red_applies _ _ _ _ _ _ _ _ Ej) as (s' & Hs & Hm). exact (Hno s' ltac:(lia) Hs Hm).
  - by exists l0.
Qed.

(** ** The outgoing queue *)
Definition rbusy (s : rsys) : Prop := ¬ collecting (in_out (i_ s)).
Definition rdrained (s : rsys) : Prop := in_out (i_ s) = OCollect [].

Lemma red_out m : outgoing cfg redis_begin (x_ m) (x_ (S m)) ∨
  (¬ collecting (in_out (x_ m)) ∧ ¬ collecting (in_out (x_ (S m))) ∧ rout_w 1 (in_out (x_ (S m))) < rout_w 1 (in_out (x_ m))).
Proof using runs there. eapply ymove_outgoing, red_move. Qed.

Lemma rbusy_keep m : rbusy (f m) →
  (rbusy (f (S m)) ∧ rout_w 1 (in_out (x_ (S m))) <= rout_w 1 (in_out (x_ m))) ∨ rdrained (f (S m)).
Proof using runs there starts.
  intros Hb. unfold rbusy, rdrained in *.
  destruct (red_out m) as [[E|b q E _ _|b b' E _|d l E E'|E|E E']|(_ & H2 & H3)].
  - left. rewrite E. auto.
  - destruct Hb. by eexists.
  - destruct Hb. by eexists.
  - left. rewrite E, E'. split; [by intros []|cbn; lia].
  - by destruct (ok_alive _ _ _ _ _ (red_ok (S m))).
  - by right.
  - left. split; [done|lia].
Qed.

Lemma rbusy_moves m : rbusy (f m) → Moves QueueMoves (x_ m) (x_ (S m)) →
  rout_w 1 (in_out (x_ (S m))) < rout_w 1 (in_out (x_ m)) ∨ rdrained (f (S m)).
Proof using runs there starts.
  intros Hb Hm. unfold rbusy, rdrained in *. cbn [Moves] in Hm.
  destruct (red_out m) as [[E|b q E _ _|b b' E _|d l E E'|E|E E']|(_ & H2 & H3)].
  - done.
  - destruct Hb. by eexists.
  - destruct Hb. by eexists.
  - left. rewrite E, E'. cbn. lia.
  - by destruct (ok_alive _ _ _ _ _ (red_ok (S m))).
  - by right.
  - by left.
Qed.

Lemma rqueue_possible m : rbusy (f m) → ∃ s, ystep cfg (f m) s ∧ InstMoves n QueueMoves (f m) s.
Proof using runs there starts.
  intros Hb. pose proof (red_ok m) as Hin. unfold rbusy in Hb. pose proof (red_at m) as Hx.
  assert (Hst : ∀ c, in_out (x_ m) = OStore c → ∃ s, ystep cfg (f m) s ∧ InstMoves n QueueMoves (f m) s).
  { intros [b cmds rs] Eo. set (x := r_ (f m)) in *. clearbody x. clear Hin Hb.
    destruct (f m) as [xs s os lg ts]. cbn [ry_insts] in *.
    eexists. split; [eapply Y_break; [exact Hx|exact Eo]|]. exists x, (finish_send b [] x). split; [done|].
    split; [cbn [ry_insts]; apply list_lookup_insert; by eapply lookup_lt_Some|].
    cbn [Moves]. intros E. destruct (finish_w b [] x) as [_ H2]. rewrite E, Eo in H2. cbn in H2. lia. }
  destruct (x_ m) as [cs o p st x c ev] eqn:Em. cbn [in_out] in *.
  destruct o as [b|rc|l|].
  - destruct Hb. by eexists.
  - by apply (Hst rc).
  - clear Hst. destruct l as [|[i r] l].
    { eapply local_moves; rewrite Em; [apply L_delivered|]. done. }
    assert (Hne : ∀ l' : list (nat * response), ODeliver (S := redis_call) l' ≠ ODeliver ((i, r) :: l') ).
    { intros l' H. injection H as H. apply (f_equal length) in H. cbn in H. lia. }
    pose proof (ok_results _ _ _ _ _ Hin) as Hre. cbn [in_out out_results in_calls] in Hre.
    apply Forall_cons in Hre as [Hlt _]. cbn [fst] in Hlt.
    destruct (lookup_lt_is_Some_2 _ _ Hlt) as [cl Hcl].
    pose proof (ok_calls _ _ _ _ _ Hin i cl Hcl) as Hok.
    pose proof (call_ok_counts _ _ _ _ _ _ _ Hok) as Hn. cbn [in_out out_results] in Hn.
    rewrite results_hd in Hn by done. cbn [length] in Hn.
    pose proof (ok_sent _ _ _ _ _ _ _ Hok) as Hs. pose proof (ok_issues _ _ _ _ _ _ _ Hok) as His.
    destruct (issues_room _ _ _ His) as [[Hcap Hle]|Hle].
    + eapply local_moves; rewrite Em; [eapply L_deliver_direct; [exact Hcl|exact Hcap|split; lia]|]. apply Hne.
    + eapply local_moves; rewrite Em; [eapply L_deliver_buffered; [exact Hcl|unfold returned; lia|lia]|]. apply Hne.
  - by destruct (ok_alive _ _ _ _ _ Hin).
Qed.

Lemma rbusy_drains m : rbusy (f m) → ∃ k, m <= k ∧ rdrained (f k).
Proof using runs there starts fair.
  apply (leads_to (ystep cfg) f (InstMoves n QueueMoves) rbusy rdrained (λ s, rout_w 1 (in_out (i_ s)))).
  - apply fair.
  - exact rbusy_keep.
  - intros k Hk Hm. apply rbusy_moves; [done|]. by apply moved.
  - intros k Hk. exists k. split; [lia|]. right. by apply rqueue_possible.
Qed.

Definition rfilling (s : rsys) : Prop := ∃ q b, in_out (i_ s) = OCollect (q :: b).
Definition rroom (s : rsys) : nat :=
  match in_out (i_ s) with OCollect b => Z.to_nat (cfg_out_threshold cfg - Z.of_nat (length b)) | _ => 0 end.

Lemma rfilling_leaves m : rfilling (f m) → ∃ k, m <= k ∧ rbusy (f k).
Proof using runs there starts fair.
  assert (Hkey : ∀ k, rfilling (f k) →
    (in_out (x_ (S k)) = in_out (x_ k)) ∨ (rfilling (f (S k)) ∧ rroom (f (S k)) < rroom (f k)) ∨ rbusy (f (S k))).
  { intros k (q0 & b0 & E0). unfold rfilling, rroom, rbusy.
    destruct (red_out k) as [[E|b q E E' Hl|b b' E E'|d l E E'|E|E E']|(H1 & H2 & H3)]; rewrite ?E0 in *; try done.
    - by left.
    - injection E as <-. right. left. rewrite E'. split; [by eexists _, _|]. rewrite app_length in *. cbn [length] in *. lia.
    - right. right. rewrite E'. by intros [].
    - right. right. rewrite E. by intros [].
    - destruct H1. by eexists. }
  apply (leads_to (ystep cfg) f (InstMoves n QueueMoves) rfilling rbusy rroom).
  - apply fair.
  - intros k Hk. destruct (Hkey k Hk) as [E|[[H1 H2]|H]]; [|left; split; [done|lia]|by right].
    left. unfold rfilling, rroom in *. rewrite E. auto.
  - intros k Hk Hm. apply moved in Hm. destruct (Hkey k Hk) as [E|[[H1 H2]|H]]; [done|by left|by right].
  - intros k (q & b & E). exists k. split; [lia|]. right.
    destruct (x_ k) as [cs o p st x c ev] eqn:Ek. cbn [in_out] in *. subst o.
    eapply local_moves; rewrite Ek; [apply L_out_timeout|]. cbn [Moves in_out].
    by destruct (after_select_cases redis_begin (cfg_out_threshold cfg) (q :: b) QTimeout) as [[_ [H|H]]|[_ ->]].
Qed.

Lemma red_drains m : ∃ k, m <= k ∧ rdrained (f k).
Proof using runs there starts fair.
  destruct (in_out (x_ m)) as [[|q b]|mc|l|] eqn:E.
  - exists m. split; [lia|done].
  - destruct (rfilling_leaves m) as (k & Hk & Hb); [by eexists _, _|]. destruct (rbusy_drains k Hb) as (j & Hj & Hd).
    exists j. split; [lia|done].
  - apply rbusy_drains. unfold rbusy. rewrite E. by intros [].
  - apply rbusy_drains. unfold rbusy. rewrite E. by intros [].
  - apply rbusy_drains. unfold rbusy. rewrite E. by intros [].
Qed.

(** ** A call *)
Definition runsent (i : nat) (s : rsys) : nat :=
  match in_calls (i_ s) !! i with Some c => length (cl_ups c) - cl_sent c | None => 0 end.
Definition runanswered (i : nat) (s : rsys) : nat :=
  match in_calls (i_ s) !! i with Some c => length (cl_ups c) - length (cl_got c) | None => 0 end.
Definition rsending (i : nat) (s : rsys) : Prop :=
  ∃ c, in_calls (i_ s) !! i = Some c ∧ cl_sent c < length (cl_ups c).
Definition rall_sent (i : nat) (s : rsys) : Prop :=
  ∃ c, in_calls (i_ s) !! i = Some c ∧ cl_sent c = length (cl_ups c).
Definition rawaiting (i : nat) (s : rsys) : Prop := ∃ c, in_calls (i_ s) !! i = Some c ∧ waiting c.
Definition rfinished (i : nat) (s : rsys) : Prop := ∃ c, in_calls (i_ s) !! i = Some c ∧ returned c.

Lemma red_call_step k i c : in_calls (x_ k) !! i = Some c →
  ∃ c', in_calls (x_ (S k)) !! i = Some c' ∧ cl_ups c' = cl_ups c ∧
    ((cl_sent c' = cl_sent c ∧ cl_got c' = cl_got c) ∨
     (cl_sent c' = S (cl_sent c) ∧ cl_sent c < length (cl_ups c) ∧ cl_got c' = cl_got c) ∨
     (cl_sent c' = cl_sent c ∧ waiting c ∧ length (cl_got c') = S (length (cl_got c)))).
Proof using runs there. eapply ymove_call, red_move. Qed.

Lemma red_call_sends i m : rsending i (f m) → ∃ k, m <= k ∧ rall_sent i (f k).
Proof using runs there starts fair.
  assert (Hkey : ∀ k, rsending i (f k) →
    (rsending i (f (S k)) ∧ runsent i (f (S k)) <= runsent i (f k) ∧
     (Moves (CallMoves i) (x_ k) (x_ (S k)) → runsent i (f (S k)) < runsent i (f k))) ∨ rall_sent i (f (S k))).
  { intros k (c & Hc & Hlt). unfold rsending, rall_sent, runsent. rewrite Hc.
    destruct (red_call_step _ _ _ Hc) as (c' & Hc' & Eu & [[E1 E2]|[(E1 & _ & E2)|(_ & [E _] & _)]]); [| |lia].
    - left. rewrite Hc', E1, Eu. split; [by exists c'; rewrite E1, Eu|]. split; [lia|].
      intros (d & d' & Hd & Hd' & Hne). rewrite Hc in Hd. rewrite Hc' in Hd'. simplify_eq. destruct Hne; congruence.
    - rewrite Hc', E1, Eu. destruct (decide (S (cl_sent c) = length (cl_ups c))) as [H|H].
      + right. exists c'. by rewrite E1, Eu.
      + left. split; [exists c'; rewrite E1, Eu; split; [done|lia]|]. split; [lia|]. lia. }
  apply (leads_to (ystep cfg) f (InstMoves n (CallMoves i)) (rsending i) (rall_sent i) (runsent i)).
  - apply fair.
  - intros k Hk. destruct (Hkey k Hk) as [(H1 & H2 & _)|H]; auto.
  - intros k Hk Hm. apply moved in Hm. destruct (Hkey k Hk) as [(_ & _ & H)|H]; auto.
  - intros k Hk. destruct (red_drains k) as (j & Hj & Hd).
    destruct (kept f (rsending i) (rall_sent i)) with (n := k) (m := j) as [(c & Hc & Hlt)|(j' & H1 & _ & H3)]; [|done|done| |].
    + intros l Hl. destruct (Hkey l Hl) as [(H1 & _)|H]; auto.
    + exists j. split; [done|]. right. destruct (lookup_lt_is_Some_2 (cl_ups c) (cl_sent c) Hlt) as [u Hu].
      unfold rdrained in Hd. destruct (x_ j) as [cs o p st x ca ev] eqn:Ej. cbn [in_out in_calls] in *. subst o.
      eapply local_moves; rewrite Ej; [apply (L_accept _ _ cs [] p st x ca ev i c u Hc Hu)|]. cbn [Moves in_calls].
      exists c, (sent_one c). split; [done|]. split; [apply list_lookup_insert; by eapply lookup_lt_Some|]. left. cbn. lia.
    + exists j'. split; [done|]. by left.
Qed.

Lemma red_call_receives i m : rawaiting i (f m) → ∃ k, m <= k ∧ rfinished i (f k).
Proof using runs there starts fair.
  assert (Hkey : ∀ k, rawaiting i (f k) →
    (rawaiting i (f (S k)) ∧ runanswered i (f (S k)) <= runanswered i (f k) ∧
     (Moves (CallMoves i) (x_ k) (x_ (S k)) → runanswered i (f (S k)) < runanswered i (f k))) ∨ rfinished i (f (S k))).
  { intros k (c & Hc & Hs & Hlt). unfold rawaiting, rfinished, waiting, returned, runanswered. rewrite Hc.
    destruct (red_call_step _ _ _ Hc) as (c' & Hc' & Eu & [[E1 E2]|[(E1 & Hlt' & E2)|(E1 & _ & E2)]]); [|lia|].
    - left. rewrite Hc', E2, Eu. split; [by exists c'; rewrite E1, E2, Eu|]. split; [lia|].
      intros (d & d' & Hd & Hd' & Hne). rewrite Hc in Hd. rewrite Hc' in Hd'. simplify_eq. destruct Hne; congruence.
    - rewrite Hc', E2, Eu. destruct (decide (S (length (cl_got c)) = length (cl_ups c))) as [H|H].
      + right. exists c'. by rewrite E1, E2, Eu.
      + left. split; [exists c'; rewrite E1, E2, Eu; split; [done|]; split; [done|lia]|]. split; [lia|]. lia. }
  apply (leads_to (ystep cfg) f (InstMoves n (CallMoves i)) (rawaiting i) (rfinished i) (runanswered i)).
  - apply fair.
  - intros k Hk. destruct (Hkey k Hk) as [(H1 & H2 & _)|H]; auto.
  - intros k Hk Hm. apply moved in Hm. destruct (Hkey k Hk) as [(_ & _ & H)|H]; auto.
  - intros k Hk. destruct (red_drains k) as (j & Hj & Hd).
    destruct (kept f (rawaiting i) (rfinished i)) with (n := k) (m := j) as [(c & Hc & Hw)|(j' & H1 & _ & H3)]; [|done|done| |].
    + intros l Hl. destruct (Hkey l Hl) as [(H1 & _)|H]; auto.
    + exists j. split; [done|]. right.
      pose proof (call_ok_counts _ _ _ _ _ _ _ (ok_calls _ _ _ _ _ (red_ok j) i c Hc)) as Hn.
      unfold rdrained in Hd. rewrite Hd in Hn. cbn [out_results out_reqs] in Hn. unfold reqs_of, results_of in Hn.
      rewrite !filter_nil in Hn. cbn [length] in Hn. destruct (cl_buf c) as [|r buf] eqn:Eb.
      { destruct Hw as [Hw1 Hw2]. cbn in Hn. lia. }
      destruct (x_ j) as [cs o p st x ca ev] eqn:Ej. cbn [in_out in_calls] in *.
      eapply local_moves; rewrite Ej; [apply (L_receive _ _ cs o p st x ca ev i c r buf Hc Hw Eb)|]. cbn [Moves in_calls].
      exists c, (receive r buf c). split; [done|]. split; [apply list_lookup_insert; by eapply lookup_lt_Some|]. right. cbn.
      intros H. apply (f_equal length) in H. rewrite app_length in H. cbn in H. lia.
    + exists j'. split; [done|]. by left.
Qed.

Lemma red_call_stays m k i c : m <= k → in_calls (x_ m) !! i = Some c →
  ∃ c', in_calls (x_ k) !! i = Some c' ∧ cl_ups c' = cl_ups c.
Proof using runs there.
  intros Hle Hc. induction Hle as [|k Hle IH]; [by exists c|]. destruct IH as (c1 & Hc1 & E1).
  destruct (red_call_step _ _ _ Hc1) as (c2 & Hc2 & E2 & _). exists c2. split; [done|congruence].
Qed.

Lemma red_call_returns m i c : in_calls (x_ m) !! i = Some c →
  ∃ k c', m <= k ∧ in_calls (x_ k) !! i = Some c' ∧ cl_ups c' = cl_ups c ∧ returned c'.
Proof using runs there starts fair.
  intros Hc.
  assert (∃ k, m <= k ∧ rfinished i (f k)) as (k & Hk & c' & Hc' & Hr).
  { pose proof (ok_sent _ _ _ _ _ _ _ (ok_calls _ _ _ _ _ (red_ok m) i c Hc)) as Hs.
    assert (∃ k, m <= k ∧ rall_sent i (f k)) as (k & Hk & c1 & Hc1 & E1).
    { destruct (decide (cl_sent c = length (cl_ups c))) as [E|E]; [exists m; split; [lia|]; by exists c|].
      apply red_call_sends. exists c. split; [done|lia]. }
    pose proof (call_ok_counts _ _ _ _ _ _ _ (ok_calls _ _ _ _ _ (red_ok k) i c1 Hc1)) as Hn.
    destruct (decide (length (cl_got c1) = length (cl_ups c1))) as [E|E].
    - exists k. split; [done|]. exists c1. split; [done|]. by split.
    - destruct (red_call_receives i k) as (k' & Hk' & Hf); [exists c1; split; [done|]; split; [done|lia]|].
      exists k'. split; [lia|done]. }
  destruct (red_call_stays m k i c Hk Hc) as (c2 & Hc2 & E2). rewrite Hc' in Hc2. injection Hc2 as <-.
  by exists k, c'.
Qed.

(** ** Everything in the stream is applied *)
Section caught_up.
Hypothesis room : 1 <= cfg_in_max cfg.
Hypothesis spared : ∀ m, Untrimmed (f m).
Hypothesis answered : FairTo (ystep cfg) f (PollAnswered cfg n).

Lemma red_read_all m : ∃ dlog, RInv (view (ry_stream (f m)) (r_ (f m))) (lg2 (ry_log (f m))) (lg2 (ry_log (f m))) dlog ∧
  dlog = filter (λ p, Until (rx_cursor (r_ (f m))) p) (lg2 (ry_log (f m))).
Proof using runs there starts spared.
  destruct (yreach_read _ _ (red_reach m)) as [slog HR]. destruct (yr_inst _ _ _ HR n _ (red_at m)) as (_ & dlog & HV & Hd).
  pose proof (yr_all _ _ _ HR (spared m)) as ->. exists dlog. split; [done|]. by apply Hd.
Qed.

Lemma red_read_is_prefix m : read_so_far (x_ m) `prefix_of` history (f m).
Proof using runs there starts spared.
  destruct (red_read_all m) as (dlog & HV & Hd). pose proof (ri_out _ _ _ _ HV) as E. cbn in E. rewrite E, history_lg2.
  destruct (ri_log _ _ _ _ HV) as (Hs & _).
  exists (map (λ p, as_read p.1 p.2) (filter (After (rx_cursor (r_ (f m)))) (lg2 (ry_log (f m))))).
  rewrite <-map_app. f_equal. rewrite Hd. symmetry. exact (split_sorted (rx_cursor (r_ (f m))) (lg2 (ry_log (f m))) Hs).
Qed.

Lemma red_history_grows m k : m <= k → ∃ l, history (f k) = history (f m) ++ l.
Proof using runs.
  intros H. destruct (yrtc_grows _ _ _ (red_later m k H)) as [l E]. unfold history. rewrite E, map_app. eauto.
Qed.

Lemma red_read_grows m : length (read_so_far (x_ m)) <= length (read_so_far (x_ (S m))).
Proof using runs there starts room spared.
  unfold read_so_far. fold (applied (x_ m)). fold (applied (x_ (S m))).
  destruct (red_in m) as [[E1 E2 E3|u l E1 E2 E3 E4 _|E1 E2 E3 E4|u E1 E2 E3 _|u l E1 E2 E3 E4 E5 _]|l E1 E2 E3 E4|E].
  - by rewrite E1, E2, E3.
  - rewrite E1, E2, E3, E4. cbn [poll_list]. rewrite !app_length. cbn [length]. lia.
  - rewrite E1, E2, E3, E4. done.
  - rewrite E1, E2, E3. rewrite !app_length. cbn [length]. lia.
  - rewrite E1, E2, E3, E4, E5. cbn [poll_list]. rewrite !app_length. cbn [length]. lia.
  - rewrite E1, E2, E3, E4. cbn [poll_list]. rewrite !app_length. cbn [length]. lia.
  - by destruct (red_not_crashed (S m)).
Qed.

Lemma red_reads m : ∃ k, m <= k ∧ length (history (f m)) <= length (read_so_far (x_ k)).
Proof using runs there starts fair room spared answered.
  set (h := length (history (f m))).
  destruct (decide (h <= length (read_so_far (x_ m)))) as [Hd|Hd]; [by exists m|].
  apply (leads_to (ystep cfg) f (PollAnswered cfg n)
           (λ s, h <= length (history s) ∧ length (read_so_far (i_ s)) < h) (λ s, h <= length (read_so_far (i_ s)))
           (λ s, h - length (read_so_far (i_ s)))); [exact answered| | | |split; [done|lia]].
  - intros k [H1 H2]. pose proof (red_read_grows k) as Hg.
    destruct (red_history_grows k (S k) ltac:(lia)) as [l E]. rewrite E, app_length. lia.
  - intros k [H1 H2] (x & Hx & Hp & Hx'). left. rewrite red_at in Hx. injection Hx as <-.
    rewrite red_at in Hx'. injection Hx' as Hx'.
    destruct (red_read_all k) as (dlog & HV & Hdl).
    pose proof (poll_spec 0 (cfg_in_max cfg) _ _ _ _ HV) as EP. cbv zeta in EP.
    cbn [rstep view rs_panicked rs_stream rs_cursor rs_out] in EP. unfold poll_redis in Hx'.
    set (d := take (cfg_in_max cfg) (filter (After (rx_cursor (r_ (f k)))) (lg2 (ry_log (f k))))) in *.
    destruct (redis_get (cfg_in_max cfg) (ry_stream (f k)) (rx_cursor (r_ (f k))) true) as [[us|] c] eqn:E; [|by injection EP].
    injection EP as _ EP. rewrite Hx'. cbn [rx_inst].
    assert (Hr : read_so_far (set_poll (PPush us) (x_ k)) = read_so_far (x_ k) ++ us).
    { unfold read_so_far. cbn [set_poll in_events in_stream in_poll poll_list]. rewrite Hp. cbn [poll_list].
      rewrite app_nil_r. by rewrite app_assoc. }
    rewrite Hr, EP, map_length, app_length.
    pose proof (ri_out _ _ _ _ HV) as Eout. cbn [view rs_out] in Eout. rewrite Eout, map_length in H2 |- *.
    assert (H3 : length dlog < h) by exact H2. change (h - (length dlog + length d) < h - length dlog).
    assert (1 <= length d); [|clearbody d h; lia].
    unfold d. rewrite take_length.
    destruct (ri_log _ _ _ _ HV) as (Hs & _).
    pose proof (split_sorted (rx_cursor (r_ (f k))) (lg2 (ry_log (f k))) Hs) as E2. apply (f_equal length) in E2.
    rewrite app_length in E2.
    assert (E3 : length (history (f k)) = length (lg2 (ry_log (f k)))) by (rewrite history_lg2; apply map_length).
    assert (E4 : length dlog = length (filter (λ p, Until (rx_cursor (r_ (f k))) p) (lg2 (ry_log (f k))))) by (by rewrite Hdl).
    change (length (filter (λ p, Until (rx_cursor (r_ (f k))) p) (lg2 (ry_log (f k)))) +
            length (filter (After (rx_cursor (r_ (f k)))) (lg2 (ry_log (f k)))) = length (lg2 (ry_log (f k)))) in E2.
    apply Nat.min_glb; [exact room|].
    assert (H5 : ∀ a b c d e : nat, h <= a → a = b → c = d → d + e = b → c < h → 1 <= e) by (clear; lia).
    exact (H5 _ _ _ _ _ H1 E3 E4 E2 H3).
  - intros k [H1 H2]. destruct (red_polls_again k) as (j & Hj & Hg). exists j. split; [done|]. right.
    pose proof (red_at j) as Hx. unfold rgetting in Hg. set (x := r_ (f j)) in *. clearbody x.
    destruct (f j) as [xs s os lg ts]. cbn [ry_insts] in Hx.
    eexists. split; [eapply (Y_poll _ _ _ _ _ _ _ _ true); [exact Hx|exact Hg]|].
    exists x. split; [done|]. split; [done|]. cbn [ry_insts ry_stream]. apply list_lookup_insert. by eapply lookup_lt_Some.
Qed.

Definition rat_hand (s : rsys) : Prop := in_stream (i_ s) ≠ [] ∨ ∃ u l, in_poll (i_ s) = PPush (u :: l).

Lemma red_applied_grows m : (applied (x_ (S m)) = applied (x_ m)) ∨ ∃ u, applied (x_ (S m)) = applied (x_ m) ++ [u].
Proof using runs there starts room spared.
  destruct (red_in m) as [[E _ _|u l _ _ _ E _|_ _ _ E|u _ _ E _|u l _ _ _ _ E _]|l _ _ _ E|E]; eauto.
  by destruct (red_not_crashed (S m)).
Qed.

Lemma rat_hand_keep m : rat_hand (f m) → rat_hand (f (S m)) ∨ Moves UpdateApplied (x_ m) (x_ (S m)).
Proof using runs there starts room spared.
  unfold rat_hand. cbn [Moves]. intros Hh.
  destruct (red_in m) as [[_ E1 E2|u l _ E E1 _ _|E E1 E2 _|u _ _ E _|u l _ _ _ _ E _]|l E E1 E2 _|E].
  - left. by rewrite E1, E2.
  - left. left. rewrite E1. by destruct (in_stream (x_ m)).
  - rewrite E, E1, E2 in *. destruct Hh as [H|(u & l & H)]; [auto|done].
  - right. rewrite E. intros H. apply (f_equal length) in H. rewrite app_length in H. cbn in H. clear -H. lia.
  - right. rewrite E. intros H. apply (f_equal length) in H. rewrite app_length in H. cbn in H. clear -H. lia.
  - rewrite E, E1, E2 in *. destruct Hh as [H|(? & ? & H)]; [auto|done].
  - by destruct (red_not_crashed (S m)).
Qed.

Lemma rat_hand_kept m k : m <= k → rat_hand (f m) →
  rat_hand (f k) ∨ ∃ j, m <= j ∧ Moves UpdateApplied (x_ j) (x_ (S j)).
Proof using runs there starts room spared.
  intros Hle Hh. induction Hle as [|k Hle IH]; [by left|]. destruct IH as [IH|IH]; [|by right].
  destruct (rat_hand_keep k IH) as [H|H]; [by left|]. right. by exists k.
Qed.

Lemma rat_hand_possible m : rat_hand (f m) → ∃ k s, m <= k ∧ ystep cfg (f k) s ∧ InstMoves n UpdateApplied (f k) s.
Proof using runs there starts fair room spared.
  intros Hh. destruct (red_not_expiring m) as (k & Hk & Hx).
  destruct (rat_hand_kept m k Hk Hh) as [Ha|(j & Hj & Hmv)].
  2: { exists j, (f (S j)). split; [done|]. split; [|apply moves_at; [apply red_at|done]].
    destruct (runs j) as [E|Hs]; [|done]. cbn [Moves] in Hmv. rewrite E in Hmv. done. }
  exists k. unfold rat_hand in Ha. destruct (x_ k) as [cs o p st x c ev] eqn:Ek. cbn [in_stream in_poll in_expiring] in *. subst x.
  destruct st as [|u st].
  - destruct Ha as [H|(u & l & ->)]; [done|]. destruct (red_applies_direct _ _ _ _ _ _ _ Ek) as [(s & Hs & H) _]. by exists s.
  - destruct (red_applies _ _ _ _ _ _ _ _ Ek) as (s & Hs & H). by exists s.
Qed.

Lemma red_run_applied m : ∃ k, m <= k ∧ history (f m) `prefix_of` applied (x_ k).
Proof using runs there starts fair room spared answered.
  set (h := length (history (f m))). destruct (red_reads m) as (m1 & Hm1 & Hr1). fold h in Hr1.
  assert (∃ k, m1 <= k ∧ h <= length (applied (x_ k))) as (k & Hk & Hh).
  { destruct (decide (h <= length (applied (x_ m1)))) as [Hd|Hd]; [by exists m1|].
    apply (leads_to (ystep cfg) f (InstMoves n UpdateApplied)
             (λ s, h <= length (read_so_far (i_ s)) ∧ length (applied (i_ s)) < h) (λ s, h <= length (applied (i_ s)))
             (λ s, h - length (applied (i_ s)))); [apply fair| | | |split; [done|lia]].
    - intros k [H1 H2]. pose proof (red_read_grows k) as Hg.
      destruct (red_applied_grows k) as [Ea|[u Ea]]; rewrite Ea, ?app_length; cbn [length]; lia.
    - intros k [H1 H2] Hm. apply moved in Hm. cbn [Moves] in Hm. left.
      destruct (red_applied_grows k) as [Ea|[u Ea]]; [done|]. rewrite Ea, app_length. cbn [length]. lia.
    - intros k [H1 H2].
      assert (Ha : rat_hand (f k)).
      { unfold read_so_far in H1. fold (applied (x_ k)) in H1. unfold rat_hand.
        destruct (in_stream (x_ k)) as [|u st] eqn:Es; [|by left].
        destruct (red_poll_fine k) as [Ep|[[|u l] Ep]]; rewrite Ep in *; [| |right; by eexists _, _];
          exfalso; rewrite !app_length in H1; cbn in H1; lia. }
      destruct (rat_hand_possible k Ha) as (i & s & Hi & Hs & Hm). exists i. split; [lia|]. right. by exists s. }
  exists k. split; [lia|].
  destruct (red_history_grows m k ltac:(lia)) as [l E].
  destruct (red_read_is_prefix k) as [l2 E2]. rewrite E in E2. unfold read_so_far in E2. fold (applied (x_ k)) in E2.
  rewrite <-app_assoc in E2.
  assert (Hp : history (f m) = take h (applied (x_ k))).
  { apply (f_equal (take h)) in E2. rewrite take_app_alt in E2 by done. rewrite E2. by rewrite take_app_le by done. }
  rewrite Hp. exists (drop h (applied (x_ k))). by rewrite take_drop.
Qed.
End caught_up.
End run.
