(** Watches alongside their servers: assignments are stored, and fair executions exist. *)
From Coq Require Import Ascii String ZArith NArith Lia.
From stdpp Require Import prelude strings gmap relations.
From Verif.Model Require Import GoStrings Types Cache Replica Handlers MemRepl Queues RedisRepl RedisReader System RedisSystem Watch WatchSystem.
From Verif.Spec Require Import CacheSpec RedisSpec SystemSpec WatchSpec AssignSpec AgreeSpec FairSpec FairWatchSpec.
From Verif.Proofs Require Import HistoryLemmas HistoryMore MemSystemMore MemSystemOrder RedisSystemLemmas RedisSystemRead RedisSystemMore WatchLemmas AssignLemmas AssignMem AssignRedis AgreeLemmas
  FairLemmas FairMem FairIdle FairRedis FairRedisMore FairInvokeMore FairWatch.
Local Open Scope nat_scope.

(** ** An assignment that was asked for is stored *)
Lemma assign_in_events cfg es k v : Update CmdAssign k v ∈ hev_updates es →
  (∀ x, x ∈ hev_visits es → ¬ OlderThan (cfg_ticket_ttl cfg + cfg_assign_ttl cfg) x.2 k) →
  is_Some (c_assign (hev_run cfg empty_cache es) !! k).
Proof.
  intros Hin Hv. apply assigns_for_elem in Hin.
  destruct (last (assigns_for k (hev_updates es))) as [v'|] eqn:El.
  - rewrite (run_assign_kept cfg es k v' Hv El). by eexists.
  - apply last_None in El. rewrite El in Hin. by apply elem_of_nil in Hin.
Qed.

Lemma mem_eventually_assigned cfg t0 f n i c k v :
  (0 <= t0)%Z → mreach cfg t0 (f 0) → Pausing (mstep cfg) f → FairMem cfg f →
  in_calls (ms_inst (f n)) !! i = Some c → Update CmdAssign k v ∈ cl_ups c →
  ∃ k0, ∀ k', k0 <= k' →
    (∀ x, x ∈ hev_visits (in_events (ms_inst (f k'))) → ¬ OlderThan (cfg_ticket_ttl cfg + cfg_assign_ttl cfg) x.2 k) →
    is_Some (mem_assigns (f k') !! k).
Proof.
  intros H0 Hr He Hf Hc Hu.
  destruct (mem_every_call_returns cfg t0 f H0 Hr He Hf n i c Hc) as (m & c' & _ & Hc' & Eu & Hret). rewrite <-Eu in Hu.
  pose proof (run_reach cfg t0 f Hr He) as Hreach.
  apply elem_of_list_lookup in Hu as [p Hp].
  assert (∃ r, cl_got c' !! p = Some r) as [r Hg].
  { apply lookup_lt_is_Some. destruct Hret as [_ ->]. by eapply lookup_lt_Some. }
  destruct (mem_answers cfg t0 (f m) i c' p r H0 (Hreach m) Hc' Hg) as (_ & u & Hp' & Hin).
  rewrite Hp in Hp'. injection Hp' as <-.
  assert (Hin' : Update CmdAssign k v ∈ map sn_upd (ms_hist (f m))) by (apply elem_of_list_fmap; eexists; split; [|exact Hin]; done).
  destruct (mem_everything_applied cfg t0 f H0 Hr He Hf m) as (k0 & Hk0 & Hpre).
  exists k0. intros k' Hk' Hvis. unfold mem_assigns.
  destruct (mem_cache _ _ _ H0 (Hreach k')) as (_ & -> & _).
  destruct (mrtc_grows _ _ _ (run_later cfg f He k0 k' Hk')) as [_ [es Ees]].
  apply (assign_in_events cfg _ k v); [|done]. rewrite Ees, hev_updates_app. apply elem_of_app. left.
  by eapply elem_of_prefix.
Qed.

Lemma red_eventually_assigned cfg f b n x i c p k v r w z :
  1 <= cfg_in_max cfg → yreach cfg (f 0) → Pausing (ystep cfg) f → (∀ k, Untrimmed (f k)) →
  FairInst cfg w f → FairTo (ystep cfg) f (PollAnswered cfg w) →
  ry_insts (f b) !! n = Some x → AllSendable x → in_calls (rx_inst x) !! i = Some c →
  cl_ups c !! p = Some (Update CmdAssign k v) → cl_got c !! p = Some r → Good r →
  ry_insts (f b) !! w = Some z →
  ∃ k0, ∀ k', k0 <= k' → ∃ z', ry_insts (f k') !! w = Some z' ∧
    ((∀ y, y ∈ hev_visits (in_events (rx_inst z')) → ¬ OlderThan (cfg_ticket_ttl cfg + cfg_assign_ttl cfg) y.2 k) →
     is_Some (red_assigns w (f k') !! k)).
Proof.
  intros Hmax H0 He Hun Hf Han Hx Has Hi Hp Hg Hgood Hz.
  assert (Hreach : ∀ k, yreach cfg (f k)).
  { intros k'. eapply rtc_transitive; [exact H0|]. apply (pausing_later _ _ 0 k' He). lia. }
  destruct (red_answers cfg (f b) n x i c p r (Hreach b) Hx Has Hi Hg Hgood) as (u & e & Hp' & Hin & _ & Eq & _).
  rewrite Hp in Hp'. injection Hp' as <-.
  assert (Hin' : Update CmdAssign k v ∈ history (f b)).
  { unfold history. apply elem_of_list_fmap. exists e. split; [|done]. by rewrite Eq. }
  destruct (red_everything_applied cfg w f b z Hmax H0 He Hf Han Hun Hz) as (k0 & z0 & Hk0 & Hz0 & Hpre).
  exists k0. intros k' Hk'.
  destruct (events_grow cfg (f k0) (f k') w z0 (pausing_later _ _ k0 k' He Hk') Hz0) as (z' & es & Hz' & Ees).
  exists z'. split; [done|]. intros Hvis. unfold red_assigns. rewrite Hz'.
  destruct (red_cache _ _ _ _ (Hreach k') Hz') as [-> _].
  apply (assign_in_events cfg _ k v); [|done]. rewrite Ees, hev_updates_app. apply elem_of_app. left.
  by eapply elem_of_prefix.
Qed.

(** ** The server is seen as it is, again and again *)
Section mem.
Context (cfg : config) (t0 : instant) (ttl : Z) (ids : list string) (s0 : msys) (now : instant) (asg : gmap string assignment) (g : Z).
Context (f : nat → msys * wstate).
Hypothesis t0_pos : (0 <= t0)%Z.
Hypothesis reach : mreach cfg t0 s0.
Hypothesis starts : f 0 = (s0, w_init ids now asg g).
Notation step := (along (mstep cfg) mem_assigns ttl ids).
Hypothesis runs : Execution step f.
Hypothesis fairw : FairWatch step f.
Hypothesis fairs : FairBesideMem step f.

Lemma bm_starts : mreach cfg t0 (f 0).1.
Proof using reach starts. by rewrite starts. Qed.
Lemma bm_fair : FairMem cfg (λ n, (f n).1).
Proof using runs fairs. intros k. apply (fw_server_fair _ _ _ _ _ runs (λ s s', Moves k (ms_inst s) (ms_inst s'))), fairs. Qed.
Lemma bm_pausing : Pausing (mstep cfg) (λ n, (f n).1).
Proof using runs. exact (fw_pausing _ _ _ _ _ runs). Qed.
Lemma bm_fresh : FreshLooks f mem_assigns.
Proof using t0_pos reach starts runs fairs.
  apply (fw_fresh (mstep cfg) mem_assigns ttl ids f runs (λ s s', Moves PollEnds (ms_inst s) (ms_inst s'))).
  - intros s. apply moves_irrefl.
  - apply bm_fair.
  - intros n. destruct (polls_again cfg t0 (λ n, (f n).1) t0_pos bm_starts bm_pausing bm_fair n) as (m & Hm & l & El).
    exists m. cbn in El. destruct (f m).1 as [[cs o p st x c ev] mm t h]. cbn [ms_inst in_poll] in El. subst p.
    eexists. split; [done|]. split; [eapply M_poll_timeout|]. cbn. split; by eexists.
Qed.
Lemma bm_assigned n i c k a : in_calls (ms_inst (f n).1) !! i = Some c → AssignCall c a k →
  ∃ k0, ∀ k', k0 <= k' → MemForgot cfg k (f k').1 ∨ is_Some (mem_assigns (f k').1 !! k).
Proof using t0_pos reach starts runs fairs.
  intros Hc Ha. destruct (assign_call_update _ _ _ Ha) as (v & Hu & _).
  destruct (mem_eventually_assigned cfg t0 (λ n, (f n).1) n i c k v t0_pos bm_starts bm_pausing bm_fair Hc Hu) as (k0 & Hk0).
  exists k0. intros k' Hk'. destruct (met_old (cfg_ticket_ttl cfg + cfg_assign_ttl cfg) k (ms_inst (f k').1)) as [H|H]; [by left|right].
  exact (Hk0 k' Hk' H).
Qed.

Lemma mem_watch_served n i c k a : k ∈ ids → in_calls (ms_inst (f n).1) !! i = Some c → AssignCall c a k →
  ∃ m, w_timed_out (f m).2 ∨ MemForgot cfg k (f m).1 ∨ ∃ b, (k, b) ∈ w_sent (f m).2.
Proof using t0_pos reach starts runs fairs fairw.
  intros Hk Hc Ha. destruct (bm_assigned n i c k a Hc Ha) as (k0 & Hk0).
  exact (fw_answered (mstep cfg) mem_assigns ttl ids now asg g s0 f starts runs fairw bm_fresh (MemForgot cfg k) k k0 Hk Hk0).
Qed.
Lemma mem_watch_complete :
  (∀ k, k ∈ ids → ∃ n i c a, in_calls (ms_inst (f n).1) !! i = Some c ∧ AssignCall c a k) →
  ∃ m, w_timed_out (f m).2 ∨ (∃ k, k ∈ ids ∧ MemForgot cfg k (f m).1) ∨ (w_handler (f m).2 = Returned false ∧ (w_sent (f m).2).*1 ≡ₚ ids).
Proof using t0_pos reach starts runs fairs fairw.
  intros Hall. apply (fw_complete (mstep cfg) mem_assigns ttl ids now asg g s0 f starts runs fairw bm_fresh (λ s, ∃ k, k ∈ ids ∧ MemForgot cfg k s)).
  intros k Hk. destruct (Hall k Hk) as (n & i & c & a & Hc & Ha).
  destruct (bm_assigned n i c k a Hc Ha) as (k0 & Hk0). exists k0. intros k' Hk'. destruct (Hk0 k' Hk'); [left; by exists k|by right].
Qed.
End mem.

Section red.
Context (cfg : config) (ttl : Z) (ids : list string) (s0 : rsys) (now : instant) (asg : gmap string assignment) (g : Z) (w : nat).
Context (f : nat → rsys * wstate).
Hypothesis room : 1 <= cfg_in_max cfg.
Hypothesis reach : yreach cfg s0.
Hypothesis there : is_Some (ry_insts s0 !! w).
Hypothesis starts : f 0 = (s0, w_init ids now asg g).
Notation step := (along (ystep cfg) (red_assigns w) ttl ids).
Hypothesis runs : Execution step f.
Hypothesis fairw : FairWatch step f.
Hypothesis fairs : FairBesideInst cfg w step f.
Hypothesis spared : ∀ n, Untrimmed (f n).1.

Lemma br_starts : yreach cfg (f 0).1.
Proof using reach starts. by rewrite starts. Qed.
Lemma br_fair : FairInst cfg w (λ n, (f n).1).
Proof using runs fairs. intros k. apply (fw_server_fair _ _ _ _ _ runs (InstMoves w k)), fairs. Qed.
Lemma br_polls : FairTo (ystep cfg) (λ n, (f n).1) (PollAnswered cfg w).
Proof using runs fairs. apply (fw_server_fair _ _ _ _ _ runs (PollAnswered cfg w)), fairs. Qed.
Lemma br_pausing : Pausing (ystep cfg) (λ n, (f n).1).
Proof using runs. exact (fw_pausing _ _ _ _ _ runs). Qed.
Lemma poll_answered_irrefl s : ¬ PollAnswered cfg w s s.
Proof using.
  clear. intros (x & Hx & Hp & Hx'). rewrite Hx in Hx'. injection Hx' as Hx'.
  destruct (poll_redis_inst cfg (ry_stream s) true x) as (p & E & Hpp). rewrite <-Hx' in E.
  apply (f_equal in_poll) in E. rewrite Hp in E. cbn in E. destruct Hpp as [->|[l ->]]; done.
Qed.
Lemma br_fresh : FreshLooks f (red_assigns w).
Proof using reach there starts runs fairs.
  apply (fw_fresh (ystep cfg) (red_assigns w) ttl ids f runs (PollAnswered cfg w)).
  - apply poll_answered_irrefl.
  - apply br_polls.
  - intros n. assert (Ht : is_Some (ry_insts (f 0).1 !! w)) by (by rewrite starts).
    destruct (red_polls_again cfg w (λ n, (f n).1) br_starts Ht br_pausing br_fair n) as (m & Hm & Hg).
    pose proof (red_at cfg w (λ n, (f n).1) Ht br_pausing m) as Hx. cbn beta in Hx. unfold rgetting in Hg. cbn beta in Hg.
    exists m. destruct (f m).1 as [xs s os lg ts]. set (x := r_ w _) in *. cbn [ry_insts] in Hx.
    eexists. split; [done|]. split; [eapply (Y_poll _ _ _ _ _ _ _ _ true); [exact Hx|exact Hg]|].
    exists x. split; [done|]. split; [done|]. cbn [ry_insts ry_stream]. apply list_lookup_insert. by eapply lookup_lt_Some.
Qed.

Lemma br_assigned b n k : ToldAssigned (f b).1 n k →
  ∃ k0, ∀ k', k0 <= k' → RedForgot cfg w k (f k').1 ∨ is_Some (red_assigns w (f k').1 !! k).
Proof using room reach there starts runs fairs spared.
  intros (x & i & c & a & Hx & Hs & Hc & Ha & [Hret Hgood]). destruct (assign_call_update _ _ _ Ha) as (v & Hu & _).
  apply elem_of_list_lookup in Hu as [p Hp].
  assert (∃ r, cl_got c !! p = Some r) as [r Hg].
  { apply lookup_lt_is_Some. destruct Hret as [_ ->]. by eapply lookup_lt_Some. }
  assert (Hgr : Good r). { rewrite Forall_forall in Hgood. apply Hgood. by eapply elem_of_list_lookup_2. }
  assert (Ht : is_Some (ry_insts (f 0).1 !! w)) by (by rewrite starts).
  pose proof (red_at cfg w (λ n, (f n).1) Ht br_pausing b) as Hz. cbn beta in Hz.
  destruct (red_eventually_assigned cfg (λ n, (f n).1) b n x i c p k v r w _ room br_starts br_pausing spared br_fair br_polls Hx Hs Hc Hp Hg Hgr Hz) as (k0 & Hk0).
  exists k0. intros k' Hk'. destruct (Hk0 k' Hk') as (z' & Hz' & H).
  destruct (met_old (cfg_ticket_ttl cfg + cfg_assign_ttl cfg) k (rx_inst z')) as [Hm|Hm]; [left; by exists z'|right; by apply H].
Qed.

Lemma red_watch_served b n k : k ∈ ids → ToldAssigned (f b).1 n k →
  ∃ m, w_timed_out (f m).2 ∨ RedForgot cfg w k (f m).1 ∨ ∃ a, (k, a) ∈ w_sent (f m).2.
Proof using room reach there starts runs fairs fairw spared.
  intros Hk Ha. destruct (br_assigned b n k Ha) as (k0 & Hk0).
  exact (fw_answered (ystep cfg) (red_assigns w) ttl ids now asg g s0 f starts runs fairw br_fresh (RedForgot cfg w k) k k0 Hk Hk0).
Qed.
Lemma red_watch_complete :
  (∀ k, k ∈ ids → ∃ b n, ToldAssigned (f b).1 n k) →
  ∃ m, w_timed_out (f m).2 ∨ (∃ k, k ∈ ids ∧ RedForgot cfg w k (f m).1) ∨ (w_handler (f m).2 = Returned false ∧ (w_sent (f m).2).*1 ≡ₚ ids).
Proof using room reach there starts runs fairs fairw spared.
  intros Hall. apply (fw_complete (ystep cfg) (red_assigns w) ttl ids now asg g s0 f starts runs fairw br_fresh (λ s, ∃ k, k ∈ ids ∧ RedForgot cfg w k s)).
  intros k Hk. destruct (Hall k Hk) as (b & n & Ha).
  destruct (br_assigned b n k Ha) as (k0 & Hk0). exists k0. intros k' Hk'. destruct (Hk0 k' Hk'); [left; by exists k|by right].
Qed.
End red.

(** ** Fair executions exist *)
Section lift.
Context {St : Type} (step : St → St → Prop) (assignments : St → gmap string assignment) (ttl : Z) (ids : list string).
Notation along := (along step assignments ttl ids).
Context (w : wstate) (h : nat → St).
Hypothesis alive : w_panic w = false.
Hypothesis over : w_handler w = Returned false.
Hypothesis stopped : ¬ w_running w.
Hypothesis hruns : Execution step h.

(** One step of the server, one nanosecond, and so on. *)
Definition at_clock (c : Z) (a : gmap string assignment) : wstate :=
  WState (w_clock w + c)%Z a (w_handler w) (w_pollers w) (w_sent w) (w_gauge w) (w_panic w).
Definition woven (n : nat) : St * wstate :=
  (h (Nat.div2 (S n)), at_clock (Z.of_nat (Nat.div2 n)) (assignments (h (Nat.div2 (S n))))).

Lemma woven_run : Execution along woven.
Proof using alive hruns.
  intros n. unfold woven. destruct (Nat.Even_or_Odd n) as [[k ->]|[k ->]].
  - rewrite Nat.div2_double, Nat.div2_succ_double. change (S (S (2 * k))) with (2 + 2 * k).
    replace (2 + 2 * k) with (2 * S k) by lia. rewrite Nat.div2_double.
    exact (AL_server step assignments ttl ids _ _ (at_clock (Z.of_nat k) (assignments (h k))) alive (hruns k)).
  - replace (2 * k + 1) with (S (2 * k)) by lia. rewrite Nat.div2_succ_double.
    replace (S (S (2 * k))) with (2 * S k) by lia. rewrite Nat.div2_double, Nat.div2_succ_double.
    apply AL_watch; [|done].
    assert (E : at_clock (Z.of_nat (S k)) (assignments (h (S k))) =
      WState (w_clock (at_clock (Z.of_nat k) (assignments (h (S k)))) + 1)%Z (assignments (h (S k))) (w_handler w) (w_pollers w) (w_sent w) (w_gauge w) false).
    { unfold at_clock. rewrite alive. cbn [w_clock]. f_equal. lia. }
    rewrite E. exact (W_tick ttl ids 1 (at_clock (Z.of_nat k) (assignments (h (S k)))) alive ltac:(lia)).
Qed.
Lemma along_wstep z z' : along z z' → w_step ttl ids z.2 z'.2.
Proof using.
  clear. destruct 1 as [s s' w0 E H|s a w0 E H|s w0 w' H _]; cbn; [| |done]; unfold sees; rewrite E; by apply W_env.
Qed.
Lemma woven_watch : FairWatch along woven.
Proof using over stopped.
  intros k n. right. exists 0. intros m s _ Hs%along_wstep. destruct k as [|j]; cbn [WatchMoves].
  - destruct (w_step_handler _ _ _ _ Hs) as [E|[(? & ? & ? & ? & E & _)|[(? & ? & E & _)|[(? & ? & E & _)|[(? & ? & E & _)|(? & ? & E & _)]]]]];
      [by intros H|cbn in E; congruence..].
  - intros ([id p] & p' & Hp & Hp' & Hne).
    destruct (w_step_poller _ _ _ _ _ _ _ Hs Hp) as (q & Hq & Hc). rewrite Hp' in Hq. injection Hq as ->.
    destruct Hc as [->|Hc]; [done|]. apply stopped. exists j, id, p. split; [exact Hp|].
    destruct Hc as [[-> _]|(a & -> & _)]; done.
Qed.
Lemma woven_server A : (∀ s, ¬ A s s) → FairTo step h A → FairTo along woven (λ z z', A z.1 z'.1).
Proof using.
  clear. intros Hirr H n. destruct (H n) as [(m & Hm & Ha)|(k & Hk)].
  - left. exists (2 * m). split; [lia|]. unfold woven. cbn [fst]. rewrite Nat.div2_succ_double.
    replace (S (S (2 * m))) with (2 * S m) by lia. by rewrite Nat.div2_double.
  - right. exists (2 * k). intros m s Hm Hs Ha.
    assert (Hge : k <= Nat.div2 (S m)).
    { destruct (Nat.Even_or_Odd m) as [[j ->]|[j ->]].
      - rewrite Nat.div2_succ_double. lia.
      - replace (S (2 * j + 1)) with (2 * S j) by lia. rewrite Nat.div2_double. lia. }
    remember (woven m) as z eqn:Ez. assert (E1 : z.1 = h (Nat.div2 (S m))) by (by rewrite Ez). clear Ez.
    destruct Hs as [s1 s' w0 E H'|s1 a w0 E H'|s1 w0 w' H' _]; cbn in *; [|by apply Hirr in Ha..]. subst s1.
    exact (Hk _ _ Hge H' Ha).
Qed.
Lemma woven_time T : FairTo along woven (λ z z', T <= w_clock z'.2)%Z.
Proof using.
  clear. intros n. left. set (m := n `max` (2 * Z.to_nat (T - w_clock w) + 1)). exists m. split; [lia|]. cbn.
  assert (Hge : Z.to_nat (T - w_clock w) <= Nat.div2 (S m)).
  { assert (H := Nat.div2_double (Z.to_nat (T - w_clock w))). rewrite <-H. rewrite !Nat.div2_div.
    apply Nat.div_le_mono; lia. }
  destruct m as [|m']; [cbn in Hge; lia|]. cbn [Nat.div2] in *. lia.
Qed.
End lift.

(** The clock never goes back. *)
Lemma w_step_clock ttl ids w w' : w_step ttl ids w w' → (w_clock w <= w_clock w')%Z.
Proof. destruct 1; cbn; lia. Qed.
Lemma time_passes {St} (step : St → St → Prop) assignments ttl ids f :
  Execution (along step assignments ttl ids) f →
  (∀ T, FairTo (along step assignments ttl ids) f (λ z z', T <= w_clock z'.2)%Z) → TimePasses f.
Proof.
  intros He Hf T.
  assert (Hmono : ∀ n m, n <= m → (w_clock (f n).2 <= w_clock (f m).2)%Z).
  { intros n m. induction 1 as [|m _ IH]; [done|]. pose proof (w_step_clock _ _ _ _ (along_wstep _ _ _ _ _ _ (He m))). lia. }
  destruct (Hf T 0) as [(m & _ & Hm)|(k & Hk)].
  - exists (S m). intros j Hj. pose proof (Hmono _ _ Hj). lia.
  - exfalso. pose proof (fw_alive _ _ _ _ _ He k) as Hal.
    set (d := Z.max 0 (T - w_clock (f k).2)).
    apply (Hk k ((f k).1, WState (w_clock (f k).2 + d)%Z (w_assignments (f k).2) (w_handler (f k).2) (w_pollers (f k).2) (w_sent (f k).2) (w_gauge (f k).2) false));
      [done| |cbn; lia].
    apply (fw_possible step assignments ttl ids f); [|done]. apply W_tick; [done|lia].
Qed.

(** A run before another one. *)
Lemma fair_before {St I} (step : St → St → Prop) (A : I → St → St → Prop) s (h : nat → St) :
  rtc step s (h 0) → Execution step h → (∀ i, FairTo step h (A i)) →
  ∃ f k, f 0 = s ∧ (∀ n, f (k + n) = h n) ∧ Execution step f ∧ ∀ i, FairTo step f (A i).
Proof.
  intros Hr. remember (h 0) as s' eqn:E. induction Hr as [s|s s1 s' Hs _ IH]; intros He Hf.
  - by exists h, 0.
  - destruct (IH E He Hf) as (f & k & E0 & Ek & Hx & Hy). exists (λ n, match n with 0 => s | S n => f n end), (S k). split; [done|]. split; [exact Ek|]. split.
    + intros [|n]; [by rewrite E0|apply Hx].
    + intros i n. destruct (Hy i n) as [(m & Hm & Ha)|(j & Hj)].
      * left. exists (S m). split; [lia|exact Ha].
      * right. exists (S j). intros [|m] z Hm; [lia|]. apply Hj. lia.
Qed.

Definition beside {St K} (A : K → St → St → Prop) (k : watch_kind + (K + Z)) (z z' : St * wstate) : Prop :=
  match k with
  | inl k => WatchMoves k z.2 z'.2
  | inr (inl k) => A k z.1 z'.1
  | inr (inr T) => (T <= w_clock z'.2)%Z
  end.

Lemma watch_fair_exists {St K} (step : St → St → Prop) assignments ttl ids (A : K → St → St → Prop) s0 now asg g s w :
  rtc (along step assignments ttl ids) (s0, w_init ids now asg g) (s, w) → w_handler w = Returned false →
  (∀ k s, ¬ A k s s) → ∀ h, h 0 = s → Execution step h → (∀ k, FairTo step h (A k)) →
  ∃ f, f 0 = (s0, w_init ids now asg g) ∧ (∃ n, f n = (s, w)) ∧ Execution (along step assignments ttl ids) f ∧
    FairWatch (along step assignments ttl ids) f ∧ TimePasses f ∧
    (∀ k, FairTo (along step assignments ttl ids) f (λ z z', A k z.1 z'.1)) ∧
    ∀ m, ∃ n, rtc step (f m).1 (h n).
Proof.
  intros Hr Hret Hirr h E0 Hh Hf.
  pose proof (along_later step assignments ttl ids _ _ Hr) as Hl. cbn in Hl.
  assert (Hal : w_panic w = false).
  { destruct (w_panic w) eqn:E; [|done]. pose proof (panic_only_after_timeout ttl ids now asg g w Hl E) as Ht. unfold w_timed_out in Ht. congruence. }
  pose proof (normal_end_stops ttl ids now asg g w Hl Hret) as Hst.
  set (wv := woven assignments w h).
  assert (Hp : along step assignments ttl ids (s, w) (wv 0)).
  { unfold wv, woven. cbn [Nat.div2]. rewrite E0.
    assert (E : at_clock w (Z.of_nat 0) (assignments s) = sees (assignments s) w).
    { unfold at_clock, sees. f_equal. cbn. lia. }
    rewrite E. by apply AL_part. }
  assert (Hwv : ∀ k, FairTo (along step assignments ttl ids) wv (beside A k)).
  { intros [k|[k|T]]; cbn [beside]; [by apply woven_watch|apply woven_server; [apply Hirr|apply Hf]|apply woven_time]. }
  assert (Hwr : Execution (along step assignments ttl ids) wv) by (by apply woven_run).
  set (wv1 := λ n, match n with 0 => (s, w) | S n => wv n end).
  assert (Hwr1 : Execution (along step assignments ttl ids) wv1) by (intros [|n]; [exact Hp|apply Hwr]).
  assert (Hwv1 : ∀ k, FairTo (along step assignments ttl ids) wv1 (beside A k)).
  { intros k n. destruct (Hwv k n) as [(m & Hm & Ha)|(j & Hj)].
    - left. exists (S m). split; [lia|exact Ha].
    - right. exists (S j). intros [|m] z Hm; [lia|]. apply Hj. lia. }
  destruct (fair_before (along step assignments ttl ids) (beside A) _ wv1 Hr Hwr1 Hwv1) as (f & k & F0 & Fk & He & HF).
  exists f. split; [done|]. split; [exists k; rewrite <-(Nat.add_0_r k); apply (Fk 0)|]. split; [done|]. split; [intros i; exact (HF (inl i))|].
  split; [|split; [intros i; exact (HF (inr (inl i)))|]].
  - apply (time_passes step assignments ttl ids f He). intros T. exact (HF (inr (inr T))).
  - intros m. exists (Nat.div2 (S m)).
    replace (h (Nat.div2 (S m))) with (f (k + S m)).1 by (rewrite Fk; done).
    apply (along_server step assignments ttl ids). apply (pausing_later _ _ _ _ (execution_pausing _ _ He)). lia.
Qed.

Lemma mem_watch_fair_exists cfg t0 ttl ids s0 now asg g s w :
  (0 <= t0)%Z → mreach cfg t0 s0 →
  rtc (along (mstep cfg) mem_assigns ttl ids) (s0, w_init ids now asg g) (s, w) → w_handler w = Returned false →
  ∃ f, f 0 = (s0, w_init ids now asg g) ∧ (∃ n, f n = (s, w)) ∧ Execution (along (mstep cfg) mem_assigns ttl ids) f ∧
    FairWatch (along (mstep cfg) mem_assigns ttl ids) f ∧ FairBesideMem (along (mstep cfg) mem_assigns ttl ids) f ∧ TimePasses f.
Proof.
  intros H0 Hr Hs Hw.
  assert (Hr' : mreach cfg t0 s).
  { eapply rtc_transitive; [exact Hr|]. exact (along_server (mstep cfg) mem_assigns ttl ids _ _ Hs). }
  destruct (FairIdle.mem_fair_exists cfg t0 s H0 Hr') as (h & E & Hh & Hf).
  destruct (watch_fair_exists (mstep cfg) mem_assigns ttl ids (λ k s s', Moves k (ms_inst s) (ms_inst s')) s0 now asg g s w Hs Hw
    (λ k x, moves_irrefl k (ms_inst x)) h E Hh Hf) as (f & H1 & H2 & H3 & H4 & H5 & H6 & _).
  by exists f.
Qed.

Definition inst_beside (cfg : config) (n : nat) (k : kind + unit) : rsys → rsys → Prop :=
  match k with inl k => InstMoves n k | inr _ => PollAnswered cfg n end.

Lemma red_watch_fair_exists cfg n ttl ids s0 now asg g s w t x :
  1 <= cfg_in_max cfg → yreach cfg s0 →
  rtc (along (ystep cfg) (red_assigns n) ttl ids) (s0, w_init ids now asg g) (s, w) → w_handler w = Returned false →
  Untrimmed s → (∀ e, e ∈ ry_log s → (unix_secs t - cfg_ticket_ttl cfg <= (le_id e).1)%Z) → ry_insts s !! n = Some x →
  ∃ f, f 0 = (s0, w_init ids now asg g) ∧ (∃ m, f m = (s, w)) ∧ Execution (along (ystep cfg) (red_assigns n) ttl ids) f ∧
    FairWatch (along (ystep cfg) (red_assigns n) ttl ids) f ∧ FairBesideInst cfg n (along (ystep cfg) (red_assigns n) ttl ids) f ∧ TimePasses f ∧ ∀ m, Untrimmed (f m).1.
Proof.
  intros Hmax Hr Hs Hw Hun Hlog Hx.
  assert (Hr' : yreach cfg s).
  { eapply rtc_transitive; [exact Hr|]. exact (along_server (ystep cfg) (red_assigns n) ttl ids _ _ Hs). }
  destruct (red_fair_exists cfg t s n x Hmax Hr' Hun Hlog Hx) as (h & E & Hh & Hfi & Hfp & Hu).
  assert (Hirr : ∀ k s, ¬ inst_beside cfg n k s s).
  { intros [k|k] y; cbn; [|apply poll_answered_irrefl]. intros (z & z' & Hz & Hz' & H). rewrite Hz in Hz'. injection Hz' as <-. by apply moves_irrefl in H. }
  assert (Hf : ∀ k, FairTo (ystep cfg) h (inst_beside cfg n k)) by (intros [k|k]; [apply Hfi|apply Hfp]).
  destruct (watch_fair_exists (ystep cfg) (red_assigns n) ttl ids (inst_beside cfg n) s0 now asg g s w Hs Hw Hirr h E Hh Hf) as (f & H1 & H2 & H3 & H4 & H5 & H6 & H7).
  exists f. split; [done|]. split; [done|]. split; [done|]. split; [done|]. split; [split; [intros k; exact (H6 (inl k))|exact (H6 (inr tt))]|]. split; [done|].
  intros m. destruct (H7 m) as [j Hj]. by apply (untrimmed_before cfg _ _ Hj).
Qed.
