(** Fair executions of several instances on one Redis stream: the statements for
    instances that start later, and the existence of fair executions. *)
From Coq Require Import Ascii String ZArith NArith Lia ZifyBool ZifyN Sorting.
From stdpp Require Import prelude strings gmap relations.
From Verif.Model Require Import GoStrings Types Filter Proto Cache Replica Handlers MemRepl Queues RedisRepl RedisReader System RedisSystem.
From Verif.Spec Require Import IdSpec RedisSpec CacheSpec SystemSpec FairSpec.
From Verif.Proofs Require Import StringLemmas MemLemmas RedisLemmas RedisSendLemmas RedisReadLemmas HistoryLemmas HistoryMore InstLemmas
  MemSystemLemmas MemSystemMore MemSystemLive RedisSystemLemmas RedisSystemRead RedisSystemMore RedisSystemOrder RedisSystemLive FairLemmas FairMem FairIdle FairRedis.
Local Open Scope nat_scope.

Definition from {St} (f : nat → St) (a : nat) (m : nat) : St := f (a + m).

Lemma from_pausing {St} (step : St → St → Prop) f a : Pausing step f → Pausing step (from f a).
Proof. intros H m. unfold from. rewrite Nat.add_succ_r. apply H. Qed.
Lemma from_fair {St} (step : St → St → Prop) f a A : FairTo step f A → FairTo step (from f a) A.
Proof.
  intros H m. destruct (H (a + m)) as [(k & Hk & Ha)|(k & Hk)].
  - left. exists (k - a). split; [lia|]. unfold from. rewrite Nat.add_succ_r. by replace (a + (k - a)) with k by lia.
  - right. exists k. intros j s Hj. apply Hk. lia.
Qed.
Lemma from_0 {St} (f : nat → St) a : from f a 0 = f a.
Proof. unfold from. by rewrite Nat.add_0_r. Qed.
Lemma from_at {St} (f : nat → St) a k : a <= k → f k = from f a (k - a).
Proof. intros H. unfold from. by replace (a + (k - a)) with k by lia. Qed.

Lemma r_lookup n s x : ry_insts s !! n = Some x → r_ n s = x.
Proof. unfold r_. by intros ->. Qed.

Lemma red_every_call_returns cfg n f m x i c :
  yreach cfg (f 0) → Pausing (ystep cfg) f → FairInst cfg n f →
  ry_insts (f m) !! n = Some x → in_calls (rx_inst x) !! i = Some c →
  ∃ k y c', m <= k ∧ ry_insts (f k) !! n = Some y ∧ in_calls (rx_inst y) !! i = Some c' ∧ cl_ups c' = cl_ups c ∧ returned c'.
Proof.
  intros H0 He Hf Hx Hc. set (g := from f m).
  assert (G0 : yreach cfg (g 0)). { unfold g. rewrite from_0. eapply rtc_transitive; [exact H0|]. apply (pausing_later _ _ 0 m He). lia. }
  assert (Gt : is_Some (ry_insts (g 0) !! n)) by (unfold g; rewrite from_0; by eexists).
  assert (Ge : Pausing (ystep cfg) g) by by apply from_pausing.
  assert (Gf : FairInst cfg n g) by (intros k; apply from_fair, Hf).
  destruct (red_call_returns cfg n g G0 Gt Ge Gf 0 i c) as (k & c' & _ & Hc' & E & Hr).
  { unfold g. rewrite from_0, (r_lookup _ _ _ Hx). done. }
  exists (m + k), (r_ n (g k)), c'. split; [lia|]. split; [|done]. exact (red_at cfg n g Gt Ge k).
Qed.

Lemma red_everything_applied cfg n f m x :
  1 <= cfg_in_max cfg → yreach cfg (f 0) → Pausing (ystep cfg) f → FairInst cfg n f → FairTo (ystep cfg) f (PollAnswered cfg n) →
  (∀ k, Untrimmed (f k)) → ry_insts (f m) !! n = Some x →
  ∃ k y, m <= k ∧ ry_insts (f k) !! n = Some y ∧ history (f m) `prefix_of` applied (rx_inst y).
Proof.
  intros Hmax H0 He Hf Ha Hu Hx. set (g := from f m).
  assert (G0 : yreach cfg (g 0)). { unfold g. rewrite from_0. eapply rtc_transitive; [exact H0|]. apply (pausing_later _ _ 0 m He). lia. }
  assert (Gt : is_Some (ry_insts (g 0) !! n)) by (unfold g; rewrite from_0; by eexists).
  assert (Ge : Pausing (ystep cfg) g) by by apply from_pausing.
  assert (Gf : FairInst cfg n g) by (intros k; apply from_fair, Hf).
  assert (Ga : FairTo (ystep cfg) g (PollAnswered cfg n)) by by apply from_fair.
  destruct (red_run_applied cfg n g G0 Gt Ge Gf Hmax (λ k, Hu (m + k)) Ga 0) as (k & _ & Hp).
  exists (m + k), (r_ n (g k)). split; [lia|]. split; [exact (red_at cfg n g Gt Ge k)|].
  unfold g in Hp at 1. by rewrite from_0 in Hp.
Qed.

(** What an instance has applied grows. *)
Lemma events_grow cfg s s' n x : rtc (ystep cfg) s s' → ry_insts s !! n = Some x →
  ∃ y es, ry_insts s' !! n = Some y ∧ in_events (rx_inst y) = in_events (rx_inst x) ++ es.
Proof.
  intros H. revert x. induction H as [s|s s1 s' Hs _ IH]; intros x Hx; [exists x, []; by rewrite app_nil_r|].
  destruct (ystep_inst _ _ _ _ _ Hs Hx) as (x1 & Hx1 & Hm).
  destruct (IH x1 Hx1) as (y & es & Hy & Ey). exists y.
  assert (∃ es1, in_events (rx_inst x1) = in_events (rx_inst x) ++ es1) as [es1 E1].
  { destruct Hm as [->|i' Hl ->|c0 o' _ E _ _ _|ok Hp ->].
    - exists []. by rewrite app_nil_r.
    - destruct Hl; cbn [rx_inst in_events]; try (exists []; by rewrite app_nil_r); by eexists.
    - rewrite E. exists []. by rewrite app_nil_r.
    - destruct (poll_redis_inst cfg (ry_stream s) ok x) as (p & -> & _). exists []. by rewrite app_nil_r. }
  exists (es1 ++ es). split; [done|]. by rewrite Ey, E1, app_assoc.
Qed.

(** A ticket created at one instance and activated at another. *)
Lemma red_eventually_active cfg f a n x i ci v r b m y j cj p r' w z :
  1 <= cfg_in_max cfg → yreach cfg (f 0) → Pausing (ystep cfg) f → (∀ k, Untrimmed (f k)) →
  FairInst cfg w f → FairTo (ystep cfg) f (PollAnswered cfg w) →
  ry_insts (f a) !! n = Some x → AllSendable x → in_calls (rx_inst x) !! i = Some ci → Creates ci v → r ∈ cl_got ci → Good r →
  NotYet (f a) m j → a <= b →
  ry_insts (f b) !! m = Some y → AllSendable y → in_calls (rx_inst y) !! j = Some cj →
  cl_ups cj !! p = Some (Update CmdActivate (r_result r) ""%string) → cl_got cj !! p = Some r' → Good r' →
  ry_insts (f b) !! w = Some z →
  ∃ k0, b <= k0 ∧ ∀ k, k0 <= k → ∃ z', ry_insts (f k) !! w = Some z' ∧
    ((∀ v', Update CmdDeactivate (r_result r) v' ∉ applied (rx_inst z')) →
     (∀ e, e ∈ hev_visits (in_events (rx_inst z')) →
           ¬ OlderThan (cfg_ticket_ttl cfg) e.2 (r_result r) ∧ ¬ ExpiredAt e.2 (stored_ticket (r_result r) v)) →
     Active (in_cache (rx_inst z')) (r_result r) ∧
     c_tickets (in_cache (rx_inst z')) !! r_result r = Some (stored_ticket (r_result r) v)).
Proof.
  intros Hmax H0 He Hun Hf Han Hx Has Hi Hc Hr Hg Hny Hab Hy Has' Hj Hu Hp Hg' Hz.
  assert (Hreach : ∀ k, yreach cfg (f k)).
  { intros k. eapply rtc_transitive; [exact H0|]. apply (pausing_later _ _ 0 k He). lia. }
  destruct (red_order cfg (f a) (f b) n x i ci v r m y j cj p r' (Update CmdActivate (r_result r) "")) as (h1 & h2 & h3 & E);
    try done; [by apply (pausing_later _ _ a b He)|].
  cbn [AsStored u_cmd] in E. change (AsStored (Update CmdActivate (r_result r) "") (r_result r')) with (Update CmdActivate (r_result r) ""%string) in E.
  destruct (red_everything_applied cfg w f b z Hmax H0 He Hf Han Hun Hz) as (k0 & z0 & Hk0 & Hz0 & [h4 Hpre]).
  exists k0. split; [done|]. intros k Hk.
  destruct (events_grow cfg (f k0) (f k) w z0 (pausing_later _ _ k0 k He Hk) Hz0) as (z' & es & Hz' & Ees).
  exists z'. split; [done|]. intros Hnd Hvis.
  destruct (red_cache _ _ _ _ (Hreach k) Hz') as [-> _].
  assert (Happ : hev_updates (in_events (rx_inst z')) = h1 ++ Update CmdTicket (r_result r) v :: h2 ++ Update CmdActivate (r_result r) ""%string :: h3 ++ h4 ++ hev_updates es).
  { rewrite Ees, hev_updates_app. fold (applied (rx_inst z0)). rewrite Hpre, E. rewrite <-!app_assoc. simpl. by rewrite <-!app_assoc. }
  apply (active_at_the_end cfg _ _ _ _ _ _ Happ); [|done|done].
  destruct (yreach_read _ _ (Hreach k)) as [slog HR]. destruct (yr_inst _ _ _ HR w _ Hz') as (_ & dlog & HV & Hd).
  specialize (Hd (Hun k)). pose proof (ri_out _ _ _ _ HV) as Eo. cbn in Eo.
  destruct (ri_log _ _ _ _ HV) as (Hs & _).
  assert (Hsplit : read_so_far (rx_inst z') ++ map (λ p, as_read p.1 p.2) (filter (After (rx_cursor z')) (lg2 (ry_log (f k)))) = history (f k)).
  { rewrite Eo, history_lg2, <-map_app. f_equal. rewrite Hd. exact (split_sorted (rx_cursor z') (lg2 (ry_log (f k))) Hs). }
  assert (Hin : Update CmdTicket (r_result r) v ∈ hev_updates (in_events (rx_inst z'))).
  { rewrite Happ. apply elem_of_app. right. apply elem_of_list_here. }
  assert (Hh : Update CmdTicket (r_result r) v ∈ history (f k)).
  { rewrite <-Hsplit. unfold read_so_far. rewrite !elem_of_app. tauto. }
  destruct (history_ticket _ _ _ _ (Hreach k) Hh) as (e & y' & cl & He' & Ek & Ev & _).
  assert (Hut : tickets_for (r_result r) (history (f k)) = [v]). { rewrite Ek. by eapply history_ticket_unique. }
  rewrite <-Hsplit in Hut. unfold read_so_far in Hut. rewrite !tickets_for_app in Hut.
  assert (Hw : v ∈ tickets_for (r_result r) (hev_updates (in_events (rx_inst z')))).
  { unfold tickets_for. apply elem_of_list_omap. exists (Update CmdTicket (r_result r) v). split; [done|cbn; by rewrite decide_True]. }
  destruct (tickets_for (r_result r) (hev_updates (in_events (rx_inst z')))) as [|w1 ws]; [by apply elem_of_nil in Hw|].
  cbn in Hut. injection Hut as -> Hut. apply app_eq_nil in Hut as [Hut _]. apply app_eq_nil in Hut as [-> _]. done.
Qed.

(** ** Fair executions exist *)
Lemma finish_roomy cfg now s :
  1 <= cfg_in_max cfg → yreach cfg s → Roomy cfg now s →
  ∃ s', rtc (ystep cfg) s s' ∧ (∀ n x, ry_insts s' !! n = Some x → rx_done s' x) ∧ Roomy cfg now s'.
Proof.
  intros Hmax Hr Hro. remember (sys_w s) as w eqn:Ew. revert s Ew Hr Hro.
  induction (lt_wf w) as [w _ IH]. intros s -> Hr Hro.
  destruct (all_done_or_down cfg now s Hmax Hr Hro) as [Hq|(s1 & Hs & Hlt & Hu & Hro1)].
  - exists s. split; [constructor|]. by split.
  - destruct (IH _ Hlt s1 eq_refl) as (s' & Hs' & Hq & Hr'); [by eapply rtc_r|done|].
    exists s'. split; [by eapply rtc_l|]. by split.
Qed.

Lemma untrimmed_before cfg s s' : rtc (ystep cfg) s s' → Untrimmed s' → Untrimmed s.
Proof.
  induction 1 as [s|s s1 s' Hs _ IH]; intros Hu; [done|]. specialize (IH Hu). revert IH.
  destruct Hs; intros HU tr en Ht He; apply HU; cbn [ry_trims ry_log] in *; rewrite ?elem_of_app; auto.
Qed.

Section idle.
Context (cfg : config) (n : nat) (s0 : rsys) (x0 : rinst).
Hypothesis reach : yreach cfg s0.
Hypothesis spared : Untrimmed s0.
Hypothesis here : ry_insts s0 !! n = Some x0.
Hypothesis quiet : rx_done s0 x0.

Definition idle_x (k : nat) : rinst := RInst (Nat.iter k (idle cfg) (rx_inst x0)) (rx_cursor x0) (rx_hist x0).
Definition idle_g (k : nat) : rsys :=
  RSys (<[n := idle_x k]> (ry_insts s0)) (ry_stream s0) (ry_orphans s0) (ry_log s0) (ry_trims s0).

Lemma idle_x_resting k : resting (rx_inst (idle_x k)).
Proof using reach here quiet.
  cbn [idle_x rx_inst]. induction k as [|k IH]; [|by apply idle_resting].
  apply quiescent_resting; [apply quiet|].
  destruct (yreach_read _ _ reach) as [slog HR]. destruct (yr_inst _ _ _ HR n _ here) as ([H|[l H]] & _);
    change (in_poll (rx_inst x0) ≠ PCrash); rewrite H; done.
Qed.

Lemma idle_poll_nothing k : in_poll (rx_inst (idle_x k)) = PGet [] →
  poll_redis cfg (ry_stream s0) true (idle_x k) = RInst (set_poll (PPush []) (rx_inst (idle_x k))) (rx_cursor x0) (rx_hist x0).
Proof using reach spared here quiet.
  intros _. destruct (yreach_read _ _ reach) as [slog HR]. destruct (yr_inst _ _ _ HR n _ here) as (_ & dlog & HV & Hd).
  pose proof (yr_all _ _ _ HR spared) as ->.
  pose proof (poll_spec 0 (cfg_in_max cfg) _ _ _ _ HV) as EP. cbv zeta in EP.
  cbn [rstep view rs_panicked rs_stream rs_cursor rs_out] in EP.
  destruct quiet as [_ Hun]. unfold unread in Hun. apply nil_length_inv in Hun.
  assert (Hf : filter (After (rx_cursor x0)) (lg2 (ry_log s0)) = []) by exact Hun.
  assert (Ht : take (cfg_in_max cfg) (filter (After (rx_cursor x0)) (lg2 (ry_log s0))) = []) by (rewrite Hf; apply take_nil).
  change (take (cfg_in_max cfg) (filter (After (rx_cursor x0)) (lg2 (ry_log s0)))) with
    (take (cfg_in_max cfg) (filter (After (rx_cursor x0)) (lg2 (ry_log s0)))) in EP.
  unfold poll_redis. cbn [idle_x rx_cursor rx_inst rx_hist].
  destruct (redis_get (cfg_in_max cfg) (ry_stream s0) (rx_cursor x0) true) as [[us|] c] eqn:E; [|by injection EP].
  injection EP as Ec EP. rewrite Ht in Ec, EP. cbn [last_id] in Ec. rewrite app_nil_r in EP.
  pose proof (ri_out _ _ _ _ HV) as Eout. cbn [view rs_out] in Eout. rewrite Eout in EP.
  assert (us = []) as ->.
  { apply (f_equal length) in EP. rewrite app_length in EP. destruct us; [done|]. cbn [length] in EP. lia. }
  by rewrite Ec.
Qed.

Lemma idle_g_at k : ry_insts (idle_g k) !! n = Some (idle_x k).
Proof using here. cbn [idle_g ry_insts]. apply list_lookup_insert. by eapply lookup_lt_Some. Qed.

Lemma idle_g_step k : ystep cfg (idle_g k) (idle_g (S k)).
Proof using reach spared here quiet.
  pose proof (idle_x_resting k) as (R1 & R2 & R3 & R4). pose proof (idle_g_at k) as Hat. cbn [idle_g ry_insts] in Hat.
  assert (Hloc : lstep cfg redis_begin (rx_inst (idle_x k)) (rx_inst (idle_x (S k))) → ystep cfg (idle_g k) (idle_g (S k))).
  { intros Hl. pose proof (Y_local cfg _ (ry_stream s0) (ry_orphans s0) (ry_log s0) (ry_trims s0) n _ _ Hat Hl) as H.
    rewrite list_insert_insert in H. exact H. }
  assert (Es : rx_inst (idle_x (S k)) = idle cfg (rx_inst (idle_x k))) by done.
  pose proof (idle_poll_nothing k) as Hp.
  destruct (rx_inst (idle_x k)) as [cs o p st ex c ev] eqn:Ek. cbn [in_calls in_out in_stream in_poll] in *.
  destruct ex; destruct R4 as [-> | ->]; cbn [idle] in Es.
  - apply Hloc. rewrite Es. apply L_expire, calm_orders_fit.
  - apply Hloc. rewrite Es. apply L_pushed.
  - specialize (Hp eq_refl). cbn [set_poll in_calls in_out in_stream in_expiring in_cache in_events] in Hp.
    pose proof (Y_poll cfg _ (ry_stream s0) (ry_orphans s0) (ry_log s0) (ry_trims s0) n _ true Hat) as H.
    rewrite Ek in H. specialize (H eq_refl). rewrite list_insert_insert, Hp in H.
    unfold idle_g at 2. replace (idle_x (S k)) with (RInst (Inst cs o (PPush []) st false c ev) (rx_cursor x0) (rx_hist x0)); [exact H|].
    unfold idle_x at 1. f_equal. symmetry. exact Es.
  - apply Hloc. rewrite Es. apply L_leave_loop.
Qed.

Lemma idle_x_from k j : rx_inst (idle_x (j + k)) = Nat.iter j (idle cfg) (rx_inst (idle_x k)).
Proof using. induction j as [|j IH]; [done|]. change (idle cfg (rx_inst (idle_x (j + k))) = idle cfg (Nat.iter j (idle cfg) (rx_inst (idle_x k)))). by rewrite IH. Qed.

Lemma idle_g_still k s : ystep cfg (idle_g k) s → ∃ x, ry_insts s !! n = Some x ∧
  in_out (rx_inst x) = in_out (rx_inst (idle_x k)) ∧ applied (rx_inst x) = applied (rx_inst (idle_x k)) ∧
  (∀ i c, in_calls (rx_inst (idle_x k)) !! i = Some c → in_calls (rx_inst x) !! i = Some c).
Proof using reach here quiet.
  intros Hs. destruct (ystep_inst _ _ _ _ _ Hs (idle_g_at k)) as (x & Hx & Hm). exists x. split; [done|].
  pose proof (idle_x_resting k) as R. destruct Hm as [->|i' Hl ->|c o' E _ _ _ _|ok Hp ->].
  - by split_and!.
  - by eapply resting_still.
  - destruct R as (_ & R & _). by rewrite E in R.
  - destruct (poll_redis_inst cfg (ry_stream (idle_g k)) ok (idle_x k)) as (p & -> & _). by split_and!.
Qed.

Lemma idle_g_fair : FairInst cfg n idle_g.
Proof using reach here quiet.
  assert (Hmv : ∀ k, k = PollerMoves ∨ k = PollEnds ∨ k = CycleEnds → FairTo (ystep cfg) idle_g (InstMoves n k)).
  { intros k Hk m. left. destruct (idle_four cfg (rx_inst (idle_x m)) (idle_x_resting m) k Hk) as (j & _ & Hj).
    exists (j + m). split; [lia|]. exists (idle_x (j + m)), (idle_x (S (j + m))). split; [apply idle_g_at|]. split; [apply idle_g_at|].
    change (S (j + m)) with (S j + m). by rewrite !idle_x_from. }
  intros k. destruct k as [| | | | |i]; auto; intros m; right; exists 0; intros m' s _ Hs (x & x' & Hx & Hx' & H);
    rewrite idle_g_at in Hx; injection Hx as <-; destruct (idle_g_still _ _ Hs) as (x2 & Hx2 & H1 & H2 & H3);
    rewrite Hx' in Hx2; injection Hx2 as <-; cbn [Moves] in H.
  - by apply H.
  - by apply H.
  - destruct H as (c & c' & Hc & Hc' & H). rewrite (lookup_still _ _ _ _ _ H3 Hc Hc') in H. by destruct H.
Qed.

Lemma idle_g_polls : FairTo (ystep cfg) idle_g (PollAnswered cfg n).
Proof using reach spared here quiet.
  intros m. left. destruct (idle_four cfg (rx_inst (idle_x m)) (idle_x_resting m) PollEnds ltac:(auto)) as (j & _ & Hj).
  exists (j + m). split; [lia|]. exists (idle_x (j + m)). split; [apply idle_g_at|].
  change (Nat.iter (S j) (idle cfg) (rx_inst (idle_x m))) with (idle cfg (Nat.iter j (idle cfg) (rx_inst (idle_x m)))) in Hj.
  rewrite <-idle_x_from in Hj. destruct Hj as [[l Hl] [l' Hl']].
  pose proof (idle_x_resting (j + m)) as (R1 & R2 & R3 & R4).
  assert (Hp : in_poll (rx_inst (idle_x (j + m))) = PGet []) by (rewrite Hl in R4; destruct R4; congruence).
  split; [done|]. rewrite idle_g_at. f_equal. cbn [idle_g ry_stream]. rewrite (idle_poll_nothing _ Hp).
  assert (Es : rx_inst (idle_x (S (j + m))) = idle cfg (rx_inst (idle_x (j + m)))) by done.
  rewrite <-Es in Hl'.
  destruct (rx_inst (idle_x (j + m))) as [cs o p st ex c ev] eqn:Ek. cbn [in_calls in_out in_stream in_poll] in *. subst p.
  destruct ex; cbn [idle] in Es; rewrite Es in Hl'; [done|].
  injection Hp as ->. unfold idle_x at 1. f_equal. exact Es.
Qed.
End idle.

Lemma red_fair_exists cfg now s n x :
  1 <= cfg_in_max cfg → yreach cfg s → Untrimmed s →
  (∀ e, e ∈ ry_log s → (unix_secs now - cfg_ticket_ttl cfg <= (le_id e).1)%Z) →
  ry_insts s !! n = Some x →
  ∃ f, f 0 = s ∧ Execution (ystep cfg) f ∧ FairInst cfg n f ∧ FairTo (ystep cfg) f (PollAnswered cfg n) ∧ ∀ k, Untrimmed (f k).
Proof.
  intros Hmax Hr Hu Hn Hx. destruct (finish_roomy cfg now s Hmax Hr (conj Hu Hn)) as (s' & Hs & Hq & Hro & _).
  assert (Hr' : yreach cfg s') by by eapply rtc_transitive.
  destruct (events_grow cfg s s' n x Hs Hx) as (x' & _ & Hx' & _). specialize (Hq n x' Hx').
  pose (A := λ o : option kind, match o with Some k => InstMoves n k | None => PollAnswered cfg n end).
  assert (E0 : idle_g cfg n s' x' 0 = s').
  { unfold idle_g, idle_x. cbn [Nat.iter nat_rect]. destruct s' as [xs st os lg ts]. cbn [ry_insts ry_stream ry_orphans ry_log ry_trims] in *.
    f_equal. rewrite list_insert_id; [done|]. rewrite Hx'. by destruct x'. }
  assert (Hpre : ∀ s s', rtc (ystep cfg) s s' →
    (∃ g : nat → rsys, g 0 = s' ∧ Execution (ystep cfg) g ∧ (∀ o, FairTo (ystep cfg) g (A o)) ∧ ∀ k, Untrimmed (g k)) →
    ∃ g : nat → rsys, g 0 = s ∧ Execution (ystep cfg) g ∧ (∀ o, FairTo (ystep cfg) g (A o)) ∧ ∀ k, Untrimmed (g k)).
  { clear. induction 1 as [s|s s1 s' Hs _ IH]; intros Hg; [done|]. destruct (IH Hg) as (g & E & He & Hf & Hu).
    exists (λ n, match n with 0 => s | S n => g n end). split; [done|]. split; [|split].
    - intros [|k]; [by rewrite E|apply He].
    - intros i k. destruct (Hf i k) as [(m & Hm & Ha)|(j & Hj)].
      + left. exists (S m). split; [lia|done].
      + right. exists (S j). intros [|m] s2 Hm Hs2; [lia|]. apply Hj; [lia|done].
    - intros [|k]; [|apply Hu]. eapply untrimmed_before; [apply rtc_once; exact Hs|]. rewrite <-E. apply Hu. }
  destruct (Hpre s s' Hs) as (g & E & He & Hf & Hug).
  { exists (idle_g cfg n s' x'). split; [done|]. split; [intros k; by apply idle_g_step|]. split.
    - intros [k|]; [by apply idle_g_fair|by apply idle_g_polls].
    - intros k t e Ht He. exact (Hro t e Ht He). }
  exists g. split; [done|]. split; [done|]. split; [intros k; exact (Hf (Some k))|]. split; [exact (Hf None)|done].
Qed.
