(** Fair executions of an invocation alongside its server: what becomes of the server
    and of the tickets of the matches. *)
From Coq Require Import Ascii String ZArith NArith Lia.
From stdpp Require Import prelude strings gmap relations.
From Verif.Model Require Import GoStrings Types Cache Replica Handlers MemRepl Queues RedisRepl RedisReader Snapshot System RedisSystem Invoke InvokeSystem.
From Verif.Spec Require Import CacheSpec RedisSpec SystemSpec EndToEndSpec AssignSpec StateSpec InvokeSpec InvokeSystemSpec FairSpec FairInvokeSpec.
From Verif.Proofs Require Import HistoryLemmas MemSystemMore MemSystemOrder RedisSystemLemmas RedisSystemMore RedisSystemOrder EndToEndMem EndToEndRedis
  AssignMem AssignRedis StateLemmas StateMem StateRedis InvokeLemmas InvokeMore InvokeSystemLemmas InvokeSystemMore FairLemmas FairMem FairIdle FairRedisMore FairInvoke.
Local Open Scope nat_scope.

(** ** A deactivated ticket is not offered once the deactivation has been applied *)
Lemma mem_not_offered_once_applied cfg t0 s1 sb s2 s3 i ci v r j cj ts :
  (0 <= t0)%Z → mreach cfg t0 s1 → rtc (mstep cfg) s1 sb → rtc (mstep cfg) sb s2 → rtc (mstep cfg) s2 s3 →
  in_calls (ms_inst s1) !! i = Some ci → Creates ci v → r ∈ cl_got ci →
  length (in_calls (ms_inst s1)) <= j → in_calls (ms_inst sb) !! j = Some cj → SetsState cj (r_result r) false → returned cj →
  (∀ i' c', in_calls (ms_inst s3) !! i' = Some c' → SetsState c' (r_result r) true →
     ∃ c1, in_calls (ms_inst s1) !! i' = Some c1 ∧ returned c1) →
  map sn_upd (ms_hist sb) `prefix_of` applied (ms_inst s2) →
  SnapshotBetween cfg (ms_inst s2) (ms_inst s3) ts →
  ∀ t, t ∈ ts → tk_id t ≠ r_result r.
Proof.
  intros H0 Hr1 H1b Hb2 H23 Hi Hc Hin Hj Hcj [w Hset] Hret Hoth [q2 Hq2] Hs.
  assert (Hrb : mreach cfg t0 sb) by (by eapply rtc_transitive).
  assert (Hr2 : mreach cfg t0 s2) by (by eapply rtc_transitive).
  assert (Hr3 : mreach cfg t0 s3) by (by eapply rtc_transitive).
  assert (H13 : rtc (mstep cfg) s1 s3) by (by do 2 (eapply rtc_transitive; [done|])).
  destruct (mrtc_grows _ _ _ H1b) as [[lb Eb] _]. destruct (mrtc_grows _ _ _ H13) as [[l3 E3] _].
  destruct (mrtc_grows _ _ _ H23) as [_ [es Ees]].
  assert (Ea3 : applied (ms_inst s3) = applied (ms_inst s2) ++ hev_updates es) by (unfold applied; by rewrite Ees, hev_updates_app).
  destruct (mem_cache _ _ _ H0 Hr3) as (Hm3 & _).
  assert (El3 : map sn_upd l3 = map sn_upd lb ++ q2 ++ hev_updates es ++ on_the_way (ms_inst s3)).
  { rewrite Ea3, Hq2, Eb, E3, !map_app, <-!app_assoc in Hm3. by apply app_inv_head in Hm3. }
  assert (Hno := mem_silent_state cfg t0 s1 s3 l3 (r_result r) true H0 Hr1 H13 E3 Hoth). rewrite El3 in Hno.
  pose proof (mem_created_hist _ _ _ _ _ _ _ H0 Hr1 Hi Hc Hin) as Hh.
  assert (Hu3 : tickets_for (r_result r) (map sn_upd (ms_hist s3)) = [v]).
  { apply (mem_tickets_unique cfg t0); [done|done|]. rewrite E3, map_app. apply elem_of_app. by left. }
  assert (Hu1 := mem_tickets_unique cfg t0 s1 (r_result r) v H0 Hr1 Hh).
  rewrite E3, map_app, tickets_for_app, Hu1, El3, app_assoc, tickets_for_app in Hu3. injection Hu3 as Hu3.
  apply app_eq_nil in Hu3 as [Hu3 _].
  assert (Hd : Update CmdDeactivate (r_result r) w ∈ map sn_upd lb).
  { eapply (mem_written_later cfg t0 s1 sb lb j cj); try done. }
  assert (Ha2 : applied (ms_inst s2) = map sn_upd (ms_hist s1) ++ (map sn_upd lb ++ q2)) by (by rewrite Hq2, Eb, map_app, <-app_assoc).
  eapply (mem_not_offered cfg t0 s2 s3 (hev_updates es)); try done.
  - rewrite Ha2, tickets_for_app, Hu1. done.
  - rewrite Ha2, (last_state_later (r_result r) false); [done|done| |].
    + exists w. apply elem_of_app. by left.
    + intros w' Hw'. apply (Hno w'). rewrite app_assoc. apply elem_of_app. by left.
  - intros w' Hw'. apply (Hno w'). apply elem_of_app. right. apply elem_of_app. right. apply elem_of_app. by left.
Qed.

Lemma red_not_offered_once_applied cfg s1 sb s2 s3 n x i ci v r m y j cj p u r' w z2 z3 ts :
  yreach cfg s1 → rtc (ystep cfg) s1 sb → rtc (ystep cfg) sb s2 → rtc (ystep cfg) s2 s3 →
  ry_insts s1 !! n = Some x → AllSendable x → in_calls (rx_inst x) !! i = Some ci → Creates ci v → r ∈ cl_got ci → Good r →
  NotYet s1 m j →
  ry_insts sb !! m = Some y → AllSendable y → in_calls (rx_inst y) !! j = Some cj →
  cl_ups cj !! p = Some (Update CmdDeactivate (r_result r) u) → cl_got cj !! p = Some r' → Good r' →
  (∀ n' x' i' c', ry_insts s3 !! n' = Some x' → in_calls (rx_inst x') !! i' = Some c' → SetsState c' (r_result r) true →
     ∃ x1 c1, ry_insts s1 !! n' = Some x1 ∧ AllSendable x1 ∧ in_calls (rx_inst x1) !! i' = Some c1 ∧ AllGood c1) →
  ry_insts s2 !! w = Some z2 → history sb `prefix_of` applied (rx_inst z2) → ry_insts s3 !! w = Some z3 →
  SnapshotBetween cfg (rx_inst z2) (rx_inst z3) ts →
  ∀ t, t ∈ ts → tk_id t ≠ r_result r.
Proof.
  intros Hr1 H1b Hb2 H23 Hx Ha Hi Hc Hin Hg Hny Hy Ha' Hj Hu Hp Hg' Hoth Hz2 [q2 Hq2] Hz3 Hs.
  assert (Hrb : yreach cfg sb) by (by eapply rtc_transitive).
  assert (Hr2 : yreach cfg s2) by (by eapply rtc_transitive).
  assert (Hr3 : yreach cfg s3) by (by eapply rtc_transitive).
  assert (H13 : rtc (ystep cfg) s1 s3) by (by do 2 (eapply rtc_transitive; [done|])).
  destruct (yrtc_grows _ _ _ H1b) as [lb Eb]. destruct (yrtc_grows _ _ _ H13) as [l3 E3].
  set (rd := λ e, as_read (le_id e) (rq_update (le_req e))).
  assert (Hhb : history sb = history s1 ++ map rd lb) by (unfold history; by rewrite Eb, map_app).
  assert (Hh3 : history s3 = history s1 ++ map rd l3) by (unfold history; by rewrite E3, map_app).
  assert (Hs' := Hs). destruct Hs' as (es & sn & Hev & _).
  assert (Ea3 : applied (rx_inst z3) = applied (rx_inst z2) ++ hev_updates es) by (unfold applied; by rewrite Hev, hev_updates_app).
  assert (Hsub : ∀ a, a ∈ map rd lb ++ q2 ++ hev_updates es → a ∈ map rd l3).
  { intros a Hin'. pose proof (red_subsequence _ _ _ _ Hr3 Hz3) as Hsub. apply sublist_submseteq in Hsub.
    rewrite Ea3, Hq2, Hhb, Hh3, <-!app_assoc in Hsub. apply submseteq_app_inv_l in Hsub.
    eapply elem_of_submseteq; [|exact Hsub]. rewrite !elem_of_app in *. tauto. }
  assert (Hno := red_silent_state cfg s1 s3 l3 (r_result r) true Hr1 H13 E3 Hoth).
  pose proof (red_created _ _ _ _ _ _ _ _ Hr1 Hx Ha Hi Hc Hin Hg) as Ht1.
  assert (Ht3 : tickets_for (r_result r) (history s3) = [v]).
  { assert (Hel : Update CmdTicket (r_result r) v ∈ history s3).
    { rewrite Hh3. apply elem_of_app. left. apply tickets_for_elem. rewrite Ht1. left. }
    destruct (history_ticket _ _ _ _ Hr3 Hel) as (e & y' & cl & He & Ek & Ev & _). rewrite Ek. by eapply history_ticket_unique. }
  rewrite Hh3, tickets_for_app, Ht1 in Ht3. injection Ht3 as Ht3.
  assert (Hnt : tickets_for (r_result r) (map rd lb ++ q2) = []).
  { destruct (tickets_for (r_result r) (map rd lb ++ q2)) as [|v' l] eqn:E; [done|]. exfalso.
    assert (Hv' : v' ∈ tickets_for (r_result r) (map rd l3)).
    { unfold tickets_for. apply elem_of_list_omap. exists (Update CmdTicket (r_result r) v'). split; [|cbn; by rewrite decide_True].
      apply Hsub. rewrite app_assoc. apply elem_of_app. left. apply tickets_for_elem. rewrite E. left. }
    rewrite Ht3 in Hv'. by apply elem_of_nil in Hv'. }
  assert (Ha2 : applied (rx_inst z2) = history s1 ++ (map rd lb ++ q2)) by (by rewrite Hq2, Hhb, <-app_assoc).
  eapply (red_not_offered cfg s2 s3 w z2 z3 (hev_updates es)); try done.
  - by rewrite Ha2, tickets_for_app, Ht1.
  - rewrite Ha2, (last_state_later (r_result r) false); [done|done| |].
    + destruct (red_answers _ _ _ _ _ _ _ _ Hrb Hy Ha' Hj Hp Hg') as (u' & e & Hu' & He & Hs' & Hq & _).
      rewrite Hu in Hu'. injection Hu' as <-. rewrite Eb in He. apply elem_of_app in He as [He|He].
      * exfalso. destruct (log_call _ _ _ Hr1 He) as (y1 & cl & Hy1 & Hcl & _). rewrite Hs' in Hy1. rewrite Hq in Hcl. cbn in Hcl.
        apply lookup_lt_Some in Hcl. specialize (Hny y1 Hy1). lia.
      * exists ""%string. apply elem_of_app. left. apply elem_of_list_fmap. exists e. split; [|done]. unfold rd. by rewrite Hq.
    + intros w' Hw'. apply (Hno w'), Hsub. rewrite app_assoc. apply elem_of_app. by left.
  - intros w' Hw'. apply (Hno w'), Hsub. rewrite app_assoc. apply elem_of_app. by right.
Qed.

(** ** The server of a fair execution *)
Section server.
Context {St : Type} (step : St → St → Prop) (calls : St → list call) (inactive : St → gset string) (wait : bool).
Notation istep := (is_step step calls inactive wait).
Context (f : nat → isys St) (HE : Execution istep f).

Lemma server_pausing : Pausing step (λ n, is_server (f n)).
Proof. intros n. assert (H := HE n). destruct H; cbn; auto. Qed.

Lemma server_fair A : FairTo istep f (λ z z', A (is_server z) (is_server z')) → FairTo step (λ n, is_server (f n)) A.
Proof.
  intros H n. destruct (H n) as [Hm|(k & Hk)]; [by left|]. right. exists k. intros m s Hm Hs.
  assert (Ha := alive step calls inactive wait f HE m).
  refine (Hk m (ISys s (with_inactive (is_inv (f m)) (inactive s)) (is_calls (f m))) Hm _).
  destruct (f m) as [s0 v cs]. by apply IS_server.
Qed.

Lemma run_later_i n m : n <= m → rtc istep (f n) (f m).
Proof. induction 1 as [|m _ IH]; [constructor|]. eapply rtc_r; [exact IH|apply HE]. Qed.
End server.

(** ** In-memory store *)
Section memory.
Context (cfg : config) (t0 : instant) (wait : bool) (fns : list fn_type) (s0 : msys) (f : nat → isys msys).
Context (Ht0 : (0 <= t0)%Z) (Hr0 : mreach cfg t0 s0).
Context (Hf0 : rtc (im_step cfg wait) (is_init mem_inactive fns s0) (f 0)).
Context (HE : Execution (im_step cfg wait) f) (HF : FairInvocation (im_step cfg wait) f) (HS : FairServerMem cfg wait f).
Notation srv := (λ n, is_server (f n)).

Lemma fim_run n : rtc (im_step cfg wait) (is_init mem_inactive fns s0) (f n).
Proof. eapply rtc_transitive; [exact Hf0|]. apply (run_later_i _ _ _ _ f HE). lia. Qed.
Lemma fim_ok n : is_inv_ok mem_calls (f n).
Proof. exact (is_rtc_ok _ _ _ _ (mstep_keeps cfg) _ _ (fim_run n) (is_init_ok _ _ fns s0)). Qed.
Lemma fim_inv n : v_inv (is_inv (f n)).
Proof. eapply v_inv_reach. exact (proj2 (mem_alongside _ _ _ _ _ (fim_run n))). Qed.
Lemma fim_server n : mreach cfg t0 (srv n).
Proof. eapply rtc_transitive; [exact Hr0|]. exact (proj1 (mem_alongside _ _ _ _ _ (fim_run n))). Qed.
Lemma fim_pausing : Pausing (mstep cfg) srv.
Proof. exact (server_pausing _ _ _ _ f HE). Qed.
Lemma fim_fair : FairMem cfg srv.
Proof. intros k. exact (server_fair _ _ _ _ f HE _ (HS k)). Qed.
Lemma fim_ret n i c : mem_calls (srv n) !! i = Some c → ∃ m c', n <= m ∧ mem_calls (srv m) !! i = Some c' ∧ returned c'.
Proof.
  intros Hc. destruct (mem_every_call_returns cfg t0 srv Ht0 (fim_server 0) fim_pausing fim_fair n i c Hc) as (m & c' & Hm & Hc' & _ & Hr').
  by exists m, c'.
Qed.

Lemma mem_invocation_ends : ∃ m, ∀ k, m <= k → Over (is_inv (f k)) ∧ v_gors (is_inv (f k)) = v_gors (is_inv (f m)) ∧
  (∀ i, i < length (v_gors (is_inv (f k))) → i ∈ v_streamed (is_inv (f k)) ++ v_lost (is_inv (f k))) ∧
  (AllFinished (is_inv (f k)) → length (v_lost (is_inv (f k))) <= 1).
Proof.
  destruct (over _ _ _ wait (mstep_keeps cfg) f HE HF fim_ok fim_inv fim_ret 0) as (m & _ & Hm). exists m. intros k Hk.
  destruct (Hm k Hk) as (Ho & Eg & _). split; [done|]. split; [done|]. destruct Ho as ([e Em] & Ef & _ & Hd).
  split; [intros i Hi; by eapply (all_handed f fim_inv k i)|]. intros Hall.
  pose proof (vi_one _ (fim_inv k) (or_intror (ex_intro _ e Em)) Hall) as H1. rewrite app_length in H1. lia.
Qed.

Lemma mem_match_returned n i k m : ReceivedAs (is_inv (f n)) i k m →
  ∃ b j c, n <= b ∧ is_calls (f b) !! i = Some j ∧ mem_calls (srv b) !! j = Some c ∧ returned c ∧
    (∀ id, TicketIn m id → SetsState c id false).
Proof.
  intros (g & Hg & _ & Em). destruct (io_call _ _ (fim_ok n) i g Hg) as (j & c & Hj & Hc & Eu).
  destruct (mem_every_call_returns cfg t0 srv Ht0 (fim_server 0) fim_pausing fim_fair n j c Hc) as (b & c' & Hb & Hc' & Eu' & Hr').
  exists b, j, c'. split; [done|]. split; [by eapply (calls_stay _ _ _ _ f HE n b)|]. split; [done|]. split; [done|].
  intros id Hid. destruct (vi_gors _ (fim_inv n) i g Hg) as [Hids _]. rewrite Em in Hids.
  apply (ids_tickets _ _ Hids) in Hid. exists ""%string. rewrite Eu', Eu. apply elem_of_list_fmap. by exists id.
Qed.

Lemma mem_matched_retires a b i ci v r n k m :
  mem_calls (srv a) !! i = Some ci → Creates ci v → r ∈ cl_got ci →
  length (v_gors (is_inv (f a))) <= n → a <= b → ReceivedAs (is_inv (f b)) n k m → TicketIn m (r_result r) →
  (∀ q i' c', mem_calls (srv q) !! i' = Some c' → SetsState c' (r_result r) true →
     ∃ c1, mem_calls (srv a) !! i' = Some c1 ∧ returned c1) →
  ∃ q, b <= q ∧ ∀ k1 k2 ts, q <= k1 → k1 <= k2 → SnapshotBetween cfg (ms_inst (srv k1)) (ms_inst (srv k2)) ts →
    ∀ t, t ∈ ts → tk_id t ≠ r_result r.
Proof.
  intros Hi Hc Hin Hn Hab Hrec Htk Hoth.
  destruct (mem_match_returned b n k m Hrec) as (b' & j & c & Hb' & Hj & Hcj & Hret & Hset).
  destruct (mem_everything_applied cfg t0 srv Ht0 (fim_server 0) fim_pausing fim_fair b') as (q & Hq & Hpre).
  exists q. split; [lia|]. intros k1 k2 ts H1 H2.
  assert (Hlater : ∀ x y, x <= y → rtc (mstep cfg) (srv x) (srv y)) by (intros; by apply (pausing_later _ srv); [apply fim_pausing|]).
  eapply (mem_not_offered_once_applied cfg t0 (srv a) (srv b') (srv k1) (srv k2) i ci v r j c ts);
    try done; try (by apply Hlater; lia); [by apply fim_server| |by apply Hset|by intros; eapply Hoth|].
  - destruct (is_calls_grow _ _ _ _ (mstep_keeps cfg) (f a) (f b') (run_later_i _ _ _ _ f HE a b' ltac:(lia)) (fim_ok a)) as (_ & _ & Hg).
    by eapply Hg.
  - destruct (mrtc_grows _ _ _ (Hlater q k1 H1)) as [_ [es Ees]]. etrans; [exact Hpre|]. unfold applied. rewrite Ees, hev_updates_app.
    by eexists.
Qed.
End memory.

(** ** Redis *)
Section redis.
Context (cfg : config) (w : nat) (wait : bool) (fns : list fn_type) (s0 : rsys) (f : nat → isys rsys).
Context (Hr0 : yreach cfg s0).
Context (Hf0 : rtc (ir_step cfg w wait) (is_init (red_inactive w) fns s0) (f 0)).
Context (HE : Execution (ir_step cfg w wait) f) (HF : FairInvocation (ir_step cfg w wait) f) (HS : FairServerRedis cfg w wait f).
Notation srv := (λ n, is_server (f n)).

Lemma fir_run n : rtc (ir_step cfg w wait) (is_init (red_inactive w) fns s0) (f n).
Proof. eapply rtc_transitive; [exact Hf0|]. apply (run_later_i _ _ _ _ f HE). lia. Qed.
Lemma fir_ok n : is_inv_ok (red_calls w) (f n).
Proof. exact (is_rtc_ok _ _ _ _ (ystep_keeps cfg w) _ _ (fir_run n) (is_init_ok _ _ fns s0)). Qed.
Lemma fir_inv n : v_inv (is_inv (f n)).
Proof. eapply v_inv_reach. exact (proj2 (red_alongside _ _ _ _ _ _ (fir_run n))). Qed.
Lemma fir_server n : yreach cfg (srv n).
Proof. eapply rtc_transitive; [exact Hr0|]. exact (proj1 (red_alongside _ _ _ _ _ _ (fir_run n))). Qed.
Lemma fir_pausing : Pausing (ystep cfg) srv.
Proof. exact (server_pausing _ _ _ _ f HE). Qed.
Lemma fir_fair : FairInst cfg w srv.
Proof. intros k. exact (server_fair _ _ _ _ f HE _ (HS k)). Qed.
Lemma fir_ret n i c : red_calls w (srv n) !! i = Some c →
  ∃ m c', n <= m ∧ red_calls w (srv m) !! i = Some c' ∧ cl_ups c' = cl_ups c ∧ returned c'.
Proof.
  unfold red_calls. intros Hc. destruct (ry_insts (srv n) !! w) as [x|] eqn:Ex; [|by rewrite lookup_nil in Hc].
  destruct (red_every_call_returns cfg w srv n x i c (fir_server 0) fir_pausing fir_fair Ex Hc) as (m & y & c' & Hm & Hy & Hc' & Eu & Hr').
  exists m, c'. rewrite Hy. done.
Qed.

Lemma red_invocation_ends : ∃ m, ∀ k, m <= k → Over (is_inv (f k)) ∧ v_gors (is_inv (f k)) = v_gors (is_inv (f m)) ∧
  (∀ i, i < length (v_gors (is_inv (f k))) → i ∈ v_streamed (is_inv (f k)) ++ v_lost (is_inv (f k))) ∧
  (AllFinished (is_inv (f k)) → length (v_lost (is_inv (f k))) <= 1).
Proof.
  assert (Hret : ∀ n i c, red_calls w (srv n) !! i = Some c → ∃ m c', n <= m ∧ red_calls w (srv m) !! i = Some c' ∧ returned c').
  { intros n i c Hc. destruct (fir_ret n i c Hc) as (m & c' & Hm & Hc' & _ & Hr'). by exists m, c'. }
  destruct (over _ _ _ wait (ystep_keeps cfg w) f HE HF fir_ok fir_inv Hret 0) as (m & _ & Hm). exists m. intros k Hk.
  destruct (Hm k Hk) as (Ho & Eg & _). split; [done|]. split; [done|]. destruct Ho as ([e Em] & Ef & _ & Hd).
  split; [intros i Hi; by eapply (all_handed f fir_inv k i)|]. intros Hall.
  pose proof (vi_one _ (fir_inv k) (or_intror (ex_intro _ e Em)) Hall) as H1. rewrite app_length in H1. lia.
Qed.

(** A ticket of a match whose deactivations were stored is retired at every instance
    [u] that is treated fairly and whose polls are answered. *)
Lemma red_matched_retires a b q0 n x i ci v r e k m u xu :
  1 <= cfg_in_max cfg → (∀ q, Untrimmed (srv q)) →
  FairInst cfg u srv → FairTo (ystep cfg) srv (PollAnswered cfg u) →
  ry_insts (srv a) !! n = Some x → AllSendable x → in_calls (rx_inst x) !! i = Some ci → Creates ci v → r ∈ cl_got ci → Good r →
  length (v_gors (is_inv (f a))) <= e → a <= b → ReceivedAs (is_inv (f b)) e k m → TicketIn m (r_result r) →
  (∀ q, DeactivationsStored w (f q)) → (∀ q y, ry_insts (srv q) !! w = Some y → AllSendable y) →
  (∀ q n' x' i' c', ry_insts (srv q) !! n' = Some x' → in_calls (rx_inst x') !! i' = Some c' → SetsState c' (r_result r) true →
     ∃ x1 c1, ry_insts (srv a) !! n' = Some x1 ∧ AllSendable x1 ∧ in_calls (rx_inst x1) !! i' = Some c1 ∧ AllGood c1) →
  ry_insts (srv q0) !! u = Some xu →
  ∃ q, b <= q ∧ ∀ k1 k2 z1 z2 ts, q <= k1 → k1 <= k2 → ry_insts (srv k1) !! u = Some z1 → ry_insts (srv k2) !! u = Some z2 →
    SnapshotBetween cfg (rx_inst z1) (rx_inst z2) ts →
    ∀ t, t ∈ ts → tk_id t ≠ r_result r.
Proof.
  intros Hmax Hun Hfu Hpu Hx Ha Hi Hc Hin Hg He Hab Hrec Htk Hds Hsend Hoth Hxu.
  assert (Hlater : ∀ x y, x <= y → rtc (ystep cfg) (srv x) (srv y)) by (intros; by apply (pausing_later _ srv); [apply fir_pausing|]).
  assert (Hrec' := Hrec). destruct Hrec' as (g & Hgb & _ & Em). destruct (io_call _ _ (fir_ok b) e g Hgb) as (j & c & Hj & Hcj & Eu).
  destruct (fir_ret b j c Hcj) as (b1 & c1 & Hb1 & Hcj1 & Eu1 & Hret1).
  (* a time when also instance [u] is there *)
  set (b2 := b1 `max` q0).
  destruct (call_kept _ _ _ wait (ystep_keeps cfg w) f HE b1 b2 j c1 ltac:(lia) Hcj1 Hret1) as (c2 & Hcj2 & Hret2).
  assert (Eu2 : cl_ups c2 = cl_ups c1).
  { assert (Hk : ∀ x y, x <= y → keeps_calls (red_calls w (srv x)) (red_calls w (srv y))).
    { intros p q Hpq. induction Hpq as [|q _ IH]; [apply keeps_refl|]. eapply keeps_trans; [exact IH|].
      destruct (fir_pausing q) as [E|Hs]; [cbn beta in E; rewrite E; apply keeps_refl|by eapply ystep_keeps]. }
    destruct (Hk b1 b2 ltac:(lia) j c1 Hcj1) as (c2' & Hc2' & E & _). rewrite Hcj2 in Hc2'. injection Hc2' as <-. done. }
  destruct (events_grow cfg _ _ u xu (Hlater q0 b2 ltac:(lia)) Hxu) as (xb & _ & Hxb & _).
  destruct (red_everything_applied cfg u srv b2 xb Hmax (fir_server 0) fir_pausing Hfu Hpu Hun Hxb) as (q & zq & Hq & Hzq & Hpre).
  exists q. split; [lia|]. intros k1 k2 z1 z2 ts H1 H2 Hz1 Hz2 Hs.
  destruct (vi_gors _ (fir_inv b) e g Hgb) as [Hids _]. rewrite Em in Hids.
  assert (Hid := Htk). apply (ids_tickets _ _ Hids) in Hid.
  assert (Hu : Update CmdDeactivate (r_result r) ""%string ∈ cl_ups c2).
  { rewrite Eu2, Eu1, Eu. apply elem_of_list_fmap. by exists (r_result r). }
  apply elem_of_list_lookup in Hu as [p Hp].
  assert (is_Some (cl_got c2 !! p)) as [r' Hr'].
  { apply lookup_lt_is_Some. destruct Hret2 as [_ ->]. by eapply lookup_lt_Some. }
  assert (Hj2 : is_calls (f b2) !! e = Some j) by (eapply (calls_stay _ _ _ _ f HE b b2); [lia|done]).
  assert (Hgood : Good r') by (eapply (Hds b2); [exact Hj2|exact Hcj2|by eapply elem_of_list_lookup_2]).
  assert (Hcj2' := Hcj2). unfold red_calls in Hcj2'. destruct (ry_insts (srv b2) !! w) as [y|] eqn:Ey; [|by rewrite lookup_nil in Hcj2'].
  eapply (red_not_offered_once_applied cfg (srv a) (srv b2) (srv k1) (srv k2) n x i ci v r w y j c2 p ""%string r' u z1 z2 ts);
    try done; try (by apply Hlater; lia); try (by apply fir_server).
  - intros y1 Hy1. destruct (is_calls_grow _ _ _ _ (ystep_keeps cfg w) (f a) (f b2) (run_later_i _ _ _ _ f HE a b2 ltac:(lia)) (fir_ok a)) as (_ & _ & Hgr).
    specialize (Hgr e j Hj2 He). unfold red_calls in Hgr. by rewrite Hy1 in Hgr.
  - by eapply Hsend.
  - by intros; eapply Hoth.
  - destruct (events_grow cfg _ _ u zq (Hlater q k1 H1) Hzq) as (z1' & es & Hz1' & Ees). rewrite Hz1 in Hz1'. injection Hz1' as <-.
    etrans; [exact Hpre|]. unfold applied. rewrite Ees, hev_updates_app. by eexists.
Qed.
End redis.

(** ** Matches without tickets *)
Definition empty_stuck (wait : bool) (v : istate) : Prop :=
  ∀ i g, v_gors v !! i = Some g → g_ids g = [] →
    g_phase_of g ≠ GDone ∧ (wait = true → g_phase_of g ≠ GSend).

Lemma empty_stuck_set (wait : bool) v v' n g p : empty_stuck wait v → v_gors v !! n = Some g → v_gors v' = <[n := set_phase g p]> (v_gors v) →
  (g_ids g = [] → p ≠ GDone ∧ (wait = true → p ≠ GSend)) → empty_stuck wait v'.
Proof.
  intros H Hg E Hp i g' Hi He. rewrite E in Hi. apply insert_inv in Hi as [(<- & -> & _)|[_ Hi]]; [by apply Hp|by eapply H].
Qed.

Lemma empty_stuck_step wait v v' : v_step wait v v' → empty_stuck wait v → empty_stuck wait v'.
Proof.
  destruct 1 as
    [ina s E|ty rest s E Hm|s E Hm|k s E Hk|k s E Hk|k s E Hk|k i m ids s E Hk Hids|k i s E Hk|k i s E Hk
    |k s E Hk Hall|n g id rest s E Hg Hph|n id l1 l2 s E Hpd|n g s E Hg Hph Hn|n g s E Hg Hph Hids|n g s E Hg Hph Hids
    |n g s E Hg Hph Hf|n g s E Hg Hph Hf|n g s E Hg Hph Hids|n s E Hf Hm|n e s E Hf Hm|s E Hm Hall|s E Hf Hm|s E Hm]; intros H; try exact H.
  - intros j g Hg He. cbn in Hg. apply lookup_snoc_inv in Hg as [Hg|[_ ->]]; [by eapply H|]. cbn. done.
  - eapply empty_stuck_set; [exact H|exact Hg|reflexivity|]. done.
  - eapply empty_stuck_set; [exact H|exact Hg|reflexivity|]. intros _. by destruct wait.
  - eapply empty_stuck_set; [exact H|exact Hg|reflexivity|]. done.
  - eapply empty_stuck_set; [exact H|exact Hg|reflexivity|]. intros He. destruct (H n g Hg He) as [_ Hw]. destruct wait; [|done].
    exfalso. by apply Hw.
  - eapply empty_stuck_set; [exact H|exact Hg|reflexivity|]. done.
Qed.

Lemma empty_stuck_reach wait fns ina v : v_later wait (v_init fns ina) v → empty_stuck wait v.
Proof.
  intros H. revert v H. apply (rtc_ind_r (λ v, empty_stuck wait v)); [by intros i g Hi|].
  intros y z _ Hs Hi. by eapply empty_stuck_step.
Qed.

Lemma mem_no_empty_match cfg t0 wait fns s0 f :
  (0 <= t0)%Z → mreach cfg t0 s0 → rtc (im_step cfg wait) (is_init mem_inactive fns s0) (f 0) →
  Execution (im_step cfg wait) f → FairInvocation (im_step cfg wait) f → FairServerMem cfg wait f →
  ∀ n i k m, ReceivedAs (is_inv (f n)) i k m → ∃ id, TicketIn m id.
Proof.
  intros H0 Hr Hf0 HE HF HS n i k m (g & Hg & _ & Em).
  assert (Hids := proj1 (vi_gors _ (fim_inv cfg wait fns s0 f Hf0 HE n) i g Hg)). rewrite Em in Hids.
  destruct (g_ids g) as [|id ids] eqn:Ei; [|exists id; apply (ids_tickets _ _ Hids); left]. exfalso.
  destruct (gor_ends _ _ _ wait (mstep_keeps cfg) f HE HF (fim_ok cfg wait fns s0 f Hf0 HE) (fim_inv cfg wait fns s0 f Hf0 HE)
    (fim_ret cfg t0 wait fns s0 f H0 Hr Hf0 HE HS) n i g Hg) as (q & Hq & g' & Hg' & Hd).
  destruct (gor_stays _ _ _ wait f HE n q i g Hq Hg) as (g2 & Hg2 & _ & _ & Ei2 & _). rewrite Hg' in Hg2. injection Hg2 as <-.
  apply (proj1 (empty_stuck_reach _ _ _ _ (proj2 (mem_alongside _ _ _ _ _ (fim_run cfg wait fns s0 f Hf0 HE q))) i g' Hg' ltac:(congruence)) Hd).
Qed.
Lemma red_no_empty_match cfg w wait fns s0 f :
  yreach cfg s0 → rtc (ir_step cfg w wait) (is_init (red_inactive w) fns s0) (f 0) →
  Execution (ir_step cfg w wait) f → FairInvocation (ir_step cfg w wait) f → FairServerRedis cfg w wait f →
  ∀ n i k m, ReceivedAs (is_inv (f n)) i k m → ∃ id, TicketIn m id.
Proof.
  intros Hr Hf0 HE HF HS n i k m (g & Hg & _ & Em).
  assert (Hids := proj1 (vi_gors _ (fir_inv cfg w wait fns s0 f Hf0 HE n) i g Hg)). rewrite Em in Hids.
  destruct (g_ids g) as [|id ids] eqn:Ei; [|exists id; apply (ids_tickets _ _ Hids); left]. exfalso.
  assert (Hret : ∀ n i c, red_calls w (is_server (f n)) !! i = Some c → ∃ m c', n <= m ∧ red_calls w (is_server (f m)) !! i = Some c' ∧ returned c').
  { intros n' i' c Hc. destruct (fir_ret cfg w wait fns s0 f Hr Hf0 HE HS n' i' c Hc) as (m' & c' & Hm & Hc' & _ & Hr'). by exists m', c'. }
  destruct (gor_ends _ _ _ wait (ystep_keeps cfg w) f HE HF (fir_ok cfg w wait fns s0 f Hf0 HE)
    (fir_inv cfg w wait fns s0 f Hf0 HE) Hret n i g Hg) as (q & Hq & g' & Hg' & Hd).
  destruct (gor_stays _ _ _ wait f HE n q i g Hq Hg) as (g2 & Hg2 & _ & _ & Ei2 & _). rewrite Hg' in Hg2. injection Hg2 as <-.
  apply (proj1 (empty_stuck_reach _ _ _ _ (proj2 (red_alongside _ _ _ _ _ _ (fir_run cfg w wait fns s0 f Hf0 HE q))) i g' Hg' ltac:(congruence)) Hd).
Qed.

(** ** Fair executions exist *)
Section lift.
Context {St : Type} (step : St → St → Prop) (calls : St → list call) (inactive : St → gset string) (wait : bool).
Notation istep := (is_step step calls inactive wait).

Lemma is_inactive_step z z' : istep z z' → v_inactive (is_inv z) = inactive (is_server z) → v_inactive (is_inv z') = inactive (is_server z').
Proof. destruct 1; cbn; congruence. Qed.
Lemma is_inactive_rtc z z' : rtc istep z z' → v_inactive (is_inv z) = inactive (is_server z) → v_inactive (is_inv z') = inactive (is_server z').
Proof. induction 1; eauto using is_inactive_step. Qed.

Lemma over_still z z' : istep z z' → Over (is_inv z) →
  ∀ k, ¬ InvMoves k (is_inv z) (is_inv z').
Proof.
  intros Hs (Q1 & Q2 & Q3 & Q4) k.
  destruct (quiet_step _ _ _ _ _ _ Hs (conj Q1 (conj Q3 Q4))) as (E1 & E2 & E3 & E4).
  assert (E5 : v_fan (is_inv z') = v_fan (is_inv z)).
  { destruct E4 as [(E4 & _)|[(g & E4 & _)|(E4 & _)]]; congruence. }
  destruct k as [|k|n|]; cbn.
  - intros H. by apply H.
  - intros (x & x' & Hx & Hx' & Hne & _). rewrite E2 in Hx'. rewrite Hx in Hx'. injection Hx' as <-. done.
  - intros (g & g' & Hg & Hg' & [Hne|Hp]).
    + rewrite E3 in Hg'. rewrite Hg in Hg'. injection Hg' as <-. done.
    + clear -Hs Q4 Hp. assert (Ha := is_step_alive _ _ _ _ _ _ Hs).
      destruct Hs as [s s' v cs H1 H2|s v v' cs Hv| |]; cbn in *; try congruence.
      destruct Hv; cbn in *; try congruence.
      * match goal with H : v_gors _ !! _ = Some _, H2 : _ ∨ _ |- _ => rewrite (Q4 _ _ H) in H2; by destruct H2 end.
      * match goal with H : v_gors _ !! _ = Some _, H2 : g_phase_of _ = GSend |- _ => by rewrite (Q4 _ _ H) in H2 end.
  - intros H. by apply H.
Qed.

Context (z : isys St) (g : nat → St).
Context (Hov : Over (is_inv z)) (Hal : v_panic (is_inv z) = false) (Hina : v_inactive (is_inv z) = inactive (is_server z)).
Context (Hg0 : g 0 = is_server z) (Hg : Execution step g).
Definition lifted (n : nat) : isys St := ISys (g n) (with_inactive (is_inv z) (inactive (g n))) (is_calls z).

Lemma lifted_0 : lifted 0 = z.
Proof using Hg0 Hina. clear Hov Hal Hg. unfold lifted. rewrite Hg0, <-Hina. destruct z as [s v cs]. cbn. by destruct v. Qed.
Lemma lifted_run : Execution istep lifted.
Proof using Hg Hal. intros n. exact (IS_server step calls inactive wait (g n) (g (S n)) (with_inactive (is_inv z) (inactive (g n))) (is_calls z) Hal (Hg n)). Qed.
Lemma lifted_fair : FairInvocation istep lifted.
Proof using Hov. intros k n. right. exists 0. intros m s _ Hs. apply (over_still _ _ Hs). exact Hov. Qed.
Lemma lifted_server A : (∀ s, ¬ A s s) → FairTo step g A → FairTo istep lifted (λ z z', A (is_server z) (is_server z')).
Proof using.
  intros Hirr H n. destruct (H n) as [Hm|(k & Hk)]; [by left|]. right. exists k. intros m s Hm Hs Ha. revert Ha.
  remember (lifted m) as zm eqn:Em. assert (Es : is_server zm = g m) by (by rewrite Em). clear Em.
  destruct Hs; cbn in *; subst; intros Ha; try (by eapply Hirr); by eapply Hk.
Qed.
End lift.

Lemma moves_irrefl {S} k (x : inst S) : ¬ Moves k x x.
Proof.
  destruct k; cbn; try (by intros H); [intros [[l E] [l' E']]; congruence|intros [E E']; congruence|].
  intros (c & c' & Hc & Hc' & H). rewrite Hc in Hc'. injection Hc' as <-. by destruct H.
Qed.

(** Both kinds of fairness at once. *)
Definition both (k : inv_kind + kind) (z z' : isys msys) : Prop :=
  match k with inl k => InvMoves k (is_inv z) (is_inv z') | inr k => Moves k (ms_inst (is_server z)) (ms_inst (is_server z')) end.

Lemma mem_invocation_fair_exists cfg t0 wait fns s0 z z' :
  (0 <= t0)%Z → mreach cfg t0 s0 → rtc (im_step cfg wait) (is_init mem_inactive fns s0) z →
  rtc (im_step cfg wait) z z' → Over (is_inv z') → v_panic (is_inv z') = false →
  ∃ f, f 0 = z ∧ (∃ k, f k = z') ∧ Execution (im_step cfg wait) f ∧ FairInvocation (im_step cfg wait) f ∧ FairServerMem cfg wait f.
Proof.
  intros H0 Hr Hz Hzz Hov Hal.
  assert (Hz' : rtc (im_step cfg wait) (is_init mem_inactive fns s0) z') by (by eapply rtc_transitive).
  assert (Hr' : mreach cfg t0 (is_server z')).
  { eapply rtc_transitive; [exact Hr|]. exact (proj1 (mem_alongside _ _ _ _ _ Hz')). }
  destruct (fair_through (im_step cfg wait) both z z' Hzz) as (f & E & Et & He & Hf).
  - destruct (FairIdle.mem_fair_exists cfg t0 _ H0 Hr') as (g & Eg & Hg & Hfg).
    exists (lifted mem_inactive z' g). split; [apply lifted_0; [|done]; by eapply is_inactive_rtc|]. split; [by apply lifted_run|].
    intros [k|k]; [by apply (lifted_fair (mstep cfg) mem_calls mem_inactive wait z' g Hov)|].
    apply (lifted_server (mstep cfg) mem_calls mem_inactive wait z' g (λ s s', Moves k (ms_inst s) (ms_inst s'))).
    + intros s. apply moves_irrefl.
    + apply Hfg.
  - exists f. split; [done|]. split; [done|]. split; [done|]. split; [intros k; exact (Hf (inl k))|intros k; exact (Hf (inr k))].
Qed.

Definition both_red (cfg : config) (w : nat) (k : inv_kind + kind) (z z' : isys rsys) : Prop :=
  match k with inl k => InvMoves k (is_inv z) (is_inv z') | inr k => InstMoves w k (is_server z) (is_server z') end.

Lemma red_invocation_fair_exists cfg w wait fns s0 z z' now x :
  1 <= cfg_in_max cfg → yreach cfg s0 → rtc (ir_step cfg w wait) (is_init (red_inactive w) fns s0) z →
  rtc (ir_step cfg w wait) z z' → Over (is_inv z') → v_panic (is_inv z') = false →
  Untrimmed (is_server z') → (∀ e, e ∈ ry_log (is_server z') → (unix_secs now - cfg_ticket_ttl cfg <= (le_id e).1)%Z) →
  ry_insts (is_server z') !! w = Some x →
  ∃ f, f 0 = z ∧ (∃ k, f k = z') ∧ Execution (ir_step cfg w wait) f ∧ FairInvocation (ir_step cfg w wait) f ∧ FairServerRedis cfg w wait f.
Proof.
  intros Hmax Hr Hz Hzz Hov Hal Hun Hlog Hx.
  assert (Hz' : rtc (ir_step cfg w wait) (is_init (red_inactive w) fns s0) z') by (by eapply rtc_transitive).
  assert (Hr' : yreach cfg (is_server z')).
  { eapply rtc_transitive; [exact Hr|]. exact (proj1 (red_alongside _ _ _ _ _ _ Hz')). }
  destruct (fair_through (ir_step cfg w wait) (both_red cfg w) z z' Hzz) as (f & E & Et & He & Hf).
  - destruct (red_fair_exists cfg now _ w x Hmax Hr' Hun Hlog Hx) as (g & Eg & Hg & Hfg & _).
    exists (lifted (red_inactive w) z' g). split; [apply lifted_0; [|done]; by eapply is_inactive_rtc|]. split; [by apply lifted_run|].
    intros [k|k]; [by apply (lifted_fair (ystep cfg) (red_calls w) (red_inactive w) wait z' g Hov)|].
    apply (lifted_server (ystep cfg) (red_calls w) (red_inactive w) wait z' g (InstMoves w k)).
    + intros s (y & y' & Hy & Hy' & H). rewrite Hy in Hy'. injection Hy' as <-. by apply moves_irrefl in H.
    + apply Hfg.
  - exists f. split; [done|]. split; [done|]. split; [done|]. split; [intros k; exact (Hf (inl k))|intros k; exact (Hf (inr k))].
Qed.
