(** Instances that are stopped, killed and replaced. *)
From Coq Require Import Ascii String ZArith NArith Lia.
From stdpp Require Import prelude strings gmap relations.
From Verif.Model Require Import GoStrings Types Filter Proto Cache Replica Handlers MemRepl Queues RedisRepl RedisReader System RedisSystem Shutdown.
From Verif.Spec Require Import IdSpec RedisSpec CacheSpec SystemSpec AssignSpec ShutdownSpec.
From Verif.Proofs Require Import StringLemmas MemLemmas HistoryLemmas HistoryMore InstLemmas MemSystemLemmas MemSystemMore RedisSystemLemmas
  RedisSystemRead RedisSystemMore RedisSystemOrder RedisSystemLive AssignRedis SessionLemmas.
Local Open Scope nat_scope.

(** ** The instances do not notice *)
Lemma disconnect_run cfg n x s : ry_insts s !! n = Some x → rtc (ystep cfg) s (disconnect n x s).
Proof.
  intros Hx. destruct s as [xs st os lg ts]. unfold disconnect. cbn [ry_insts ry_stream ry_orphans ry_log ry_trims] in *.
  destruct (in_out (rx_inst x)) as [b|[b cmds rs]|l|] eqn:Eo; try constructor.
  eapply rtc_once, Y_break; [exact Hx|exact Eo].
Qed.

Lemma sdstep_run cfg s s' : sdstep cfg s s' → rtc (ystep cfg) (sd_sys s) (sd_sys s').
Proof.
  destruct 1; cbn [sd_sys]; [by apply rtc_once|constructor|by apply disconnect_run|by apply disconnect_run].
Qed.
Lemma sdrtc_run cfg s s' : rtc (sdstep cfg) s s' → rtc (ystep cfg) (sd_sys s) (sd_sys s').
Proof. induction 1 as [|s s1 s2 H _ IH]; [constructor|]. etrans; [by eapply sdstep_run|done]. Qed.
Lemma sdreach_run cfg s : sdreach cfg s → yreach cfg (sd_sys s).
Proof. exact (sdrtc_run cfg ssys0 s). Qed.

(** ** Answers are for ever *)

(** A call that has returned does not change any more. *)
Lemma lstep_returned cfg x x' i c : lstep cfg redis_begin x x' → in_calls x !! i = Some c → returned c →
  (∀ h, inst_ok rc_batch no_undel cfg h x → in_calls x' !! i = Some c).
Proof.
  assert (Hins : ∀ (cs : list call) j d d', cs !! j = Some d → cs !! i = Some c → ¬ (j = i) → <[j:=d']> cs !! i = Some c).
  { intros cs j d d' _ Hi Hne. by rewrite list_lookup_insert_ne. }
  intros Hl Hi [Hs Hg] h Hok. destruct Hl; cbn [in_calls] in *; try done.
  - by apply lookup_app_l_Some.
  - eapply Hins; [eassumption|done|]. intros ->. simplify_eq. apply lookup_lt_Some in H0. lia.
  - eapply Hins; [eassumption|done|]. intros ->. simplify_eq. destruct H1 as [_ Hlt]. lia.
  - eapply Hins; [eassumption|done|]. intros ->. simplify_eq. apply H0. by split.
  - eapply Hins; [eassumption|done|]. intros ->. simplify_eq. destruct H0 as [_ Hlt]. lia.
Qed.

Lemma ystep_returned cfg s s' n x i c : yreach cfg s → ystep cfg s s' → ry_insts s !! n = Some x →
  in_calls (rx_inst x) !! i = Some c → returned c →
  ∃ x', ry_insts s' !! n = Some x' ∧ in_calls (rx_inst x') !! i = Some c.
Proof.
  intros Hr. pose proof (yreach_inv _ _ Hr) as HI.
  assert (Hset : ∀ (xs : list rinst) m y y', xs !! n = Some x → xs !! m = Some y → in_calls (rx_inst x) !! i = Some c → returned c →
    (m = n → in_calls (rx_inst y) !! i = Some c → in_calls (rx_inst y') !! i = Some c) →
    ∃ x', <[m := y']> xs !! n = Some x' ∧ in_calls (rx_inst x') !! i = Some c).
  { intros xs m y y' Hn Hm Hi Hret Hy. destruct (decide (n = m)) as [->|Hne].
    - rewrite Hm in Hn. injection Hn as ->. exists y'. split; [|by apply Hy]. apply list_lookup_insert. by eapply lookup_lt_Some.
    - exists x. by rewrite list_lookup_insert_ne. }
  intros Hs. destruct Hs; simpl; intros Hn Hi Hret; try (by exists x).
  - exists x. split; [|done]. by apply lookup_app_l_Some.
  - eapply Hset; [done|done|done|done|]. intros -> Hi'. cbn [rx_inst].
    eapply lstep_returned; [eassumption|exact Hi'|done|]. exact (rx_in _ _ _ _ _ (yi_inst _ _ HI n x0 H)).
  - eapply Hset; [done|done|done|done|]. by intros _ Hi'.
  - eapply Hset; [done|done|done|done|]. by intros _ Hi'.
  - eapply Hset; [done|done|done|done|]. by intros _ Hi'.
  - eapply Hset; [done|done|done|done|]. by intros _ Hi'.
  - eapply Hset; [done|done|done|done|]. intros _ Hi'. unfold poll_redis. by destruct (redis_get _ _ _ _) as [[|] c'].
Qed.

Lemma yrtc_returned cfg s s' n x i c : yreach cfg s → rtc (ystep cfg) s s' → ry_insts s !! n = Some x →
  in_calls (rx_inst x) !! i = Some c → returned c →
  ∃ x', ry_insts s' !! n = Some x' ∧ in_calls (rx_inst x') !! i = Some c.
Proof.
  intros Hr H. revert x Hr. induction H as [s|s s1 s' Hs _ IH]; intros x Hr Hx Hi Hret; [by exists x|].
  destruct (ystep_returned _ _ _ _ _ _ _ Hr Hs Hx Hi Hret) as (x1 & Hx1 & Hi1).
  eapply (IH x1); [by eapply rtc_r|done..].
Qed.

(** What was seen of an instance was a state of it. *)
Definition seen_ok (cfg : config) (s : ssys) : Prop :=
  ∀ n x, seen s n = Some x → ∃ s0, yreach cfg s0 ∧ ry_insts s0 !! n = Some x ∧ rtc (ystep cfg) s0 (sd_sys s).

Lemma seen_was cfg s : sdreach cfg s → seen_ok cfg s.
Proof.
  revert s. apply (rtc_ind_r (seen_ok cfg)).
  { intros n x. unfold seen. cbn. by rewrite lookup_nil. }
  intros s s' Hr Hs IH n x Hn. pose proof (sdreach_run _ _ Hr) as Hy. pose proof (sdstep_run _ _ _ Hs) as Hst.
  assert (Hy' : yreach cfg (sd_sys s')) by (unfold yreach in *; by etrans).
  assert (Hnow : ry_insts (sd_sys s') !! n = Some x → ∃ s0, yreach cfg s0 ∧ ry_insts s0 !! n = Some x ∧ rtc (ystep cfg) s0 (sd_sys s')).
  { intros H. exists (sd_sys s'). by repeat split. }
  assert (Hold : seen s n = Some x → ∃ s0, yreach cfg s0 ∧ ry_insts s0 !! n = Some x ∧ rtc (ystep cfg) s0 (sd_sys s')).
  { intros H. destruct (IH n x H) as (s0 & H0 & H1 & H2). exists s0. repeat split; [done|done|]. by etrans. }
  unfold seen in *. destruct Hs as [s s' L Hst' Hre|s L m y Hm HL|s L m y z Hm HL|s L m y Hm HL]; cbn [sd_life sd_sys] in *.
  - destruct (L !! n) as [[z|z]|] eqn:EL; [by apply Hold|by apply Hold|by apply Hnow].
  - destruct (decide (n = m)) as [->|Hne].
    + rewrite lookup_insert in Hn. injection Hn as ->. by apply Hnow.
    + rewrite lookup_insert_ne in Hn by done. by apply Hold.
  - destruct (decide (n = m)) as [->|Hne].
    + rewrite lookup_insert in Hn. injection Hn as ->. apply Hold. by rewrite HL.
    + rewrite lookup_insert_ne in Hn by done. destruct (L !! n) as [[w|w]|] eqn:EL; [by apply Hold|by apply Hold|].
      apply Hold. unfold disconnect in Hn. destruct (in_out (rx_inst y)) as [b|[b cmds rs]|l|]; try done.
      cbn [ry_insts] in Hn. by rewrite list_lookup_insert_ne in Hn.
  - destruct (decide (n = m)) as [->|Hne].
    + rewrite lookup_insert in Hn. injection Hn as ->. apply Hold. by rewrite HL.
    + rewrite lookup_insert_ne in Hn by done. destruct (L !! n) as [[w|w]|] eqn:EL; [by apply Hold|by apply Hold|].
      apply Hold. unfold disconnect in Hn. destruct (in_out (rx_inst y)) as [b|[b cmds rs]|l|]; try done.
      cbn [ry_insts] in Hn. by rewrite list_lookup_insert_ne in Hn.
Qed.

(** What a client has been told is what the call, as the instance had it, was given. *)
Lemma told_now cfg s n i c : sdreach cfg s → Told s n i c →
  ∃ x, ry_insts (sd_sys s) !! n = Some x ∧ in_calls (rx_inst x) !! i = Some c.
Proof.
  intros Hr (x & Hx & Hi & Hret). destruct (seen_was _ _ Hr n x Hx) as (s0 & H0 & H1 & H2).
  by eapply yrtc_returned.
Qed.

Lemma sdstep_told cfg s s' n i c : sdreach cfg s → sdstep cfg s s' → Told s n i c → Told s' n i c.
Proof.
  intros Hr Hs HT. assert (Hr' : sdreach cfg s') by (by eapply rtc_r).
  destruct (told_now _ _ _ _ _ Hr HT) as (x & Hx & Hi). destruct HT as (y & Hy & Hyi & Hret).
  pose proof (sdreach_run _ _ Hr) as Hyr. pose proof (sdstep_run _ _ _ Hs) as Hst.
  destruct (yrtc_returned _ _ _ _ _ _ _ Hyr Hst Hx Hi Hret) as (x' & Hx' & Hi').
  unfold Told, seen in *.
  destruct Hs as [s s' L Hst' Hre|s L m z Hm HL|s L m z w Hm HL|s L m z Hm HL]; cbn [sd_life sd_sys] in *.
  - destruct (L !! n) as [[z|z]|] eqn:EL; [by exists y|by exists y|by exists x'].
  - destruct (decide (n = m)) as [->|Hne].
    + rewrite lookup_insert. exists x'. split; [congruence|done].
    + rewrite lookup_insert_ne by done. by exists y.
  - destruct (decide (n = m)) as [->|Hne].
    + rewrite lookup_insert. rewrite HL in Hy. by exists y.
    + rewrite lookup_insert_ne by done. destruct (L !! n) as [[v|v]|] eqn:EL; [by exists y|by exists y|by exists x'].
  - destruct (decide (n = m)) as [->|Hne].
    + rewrite lookup_insert. rewrite HL in Hy. exists y. split; [congruence|done].
    + rewrite lookup_insert_ne by done. destruct (L !! n) as [[v|v]|] eqn:EL; [by exists y|by exists y|by exists x'].
Qed.

Lemma told_stays cfg s s' n i c : sdreach cfg s → rtc (sdstep cfg) s s' → Told s n i c → Told s' n i c.
Proof.
  intros Hr H. revert Hr. induction H as [|s s1 s' Hs _ IH]; intros Hr HT; [done|].
  apply IH; [by eapply rtc_r|]. by eapply sdstep_told.
Qed.

Lemma told_or_cut s n i c : Told s n i c → ¬ CutOff s n i.
Proof. intros (x & Hx & Hi & Hret) (_ & y & d & Hy & Hyi & Hn). by simplify_eq. Qed.

Lemma cut_stays cfg s s' n i : rtc (sdstep cfg) s s' → CutOff s n i → CutOff s' n i.
Proof.
  induction 1 as [|s s1 s' Hs _ IH]; [done|]. intros HC. apply IH. clear IH.
  destruct HC as ([l Hl] & x & c & Hx & Hi & Hn).
  unfold CutOff, seen in *. rewrite Hl in Hx.
  destruct Hs as [s s1 L Hst' Hre|s L m z Hm HL|s L m z w Hm HL|s L m z Hm HL]; cbn [sd_life sd_sys] in *.
  - rewrite Hl. split; [done|]. by exists x, c.
  - rewrite lookup_insert_ne by congruence. rewrite Hl. split; [done|]. by exists x, c.
  - destruct (decide (n = m)) as [->|Hne].
    + rewrite lookup_insert. split; [done|]. rewrite HL in Hl. injection Hl as <-. by exists x, c.
    + rewrite lookup_insert_ne by done. rewrite Hl. split; [done|]. by exists x, c.
  - rewrite lookup_insert_ne by congruence. rewrite Hl. split; [done|]. by exists x, c.
Qed.

(** ** What was acknowledged survives *)
Lemma told_stored cfg s n x i c m r :
  sdreach cfg s → ry_insts (sd_sys s) !! n = Some x → AllSendable x → Told s n i c → cl_got c !! m = Some r → Good r →
  ∃ u e, cl_ups c !! m = Some u ∧ e ∈ ry_log (sd_sys s) ∧ le_src e = n ∧ le_req e = Request u i ∧ r_result r = id_text (le_id e).
Proof.
  intros Hr Hx Ha HT Hm Hg. destruct (told_now _ _ _ _ _ Hr HT) as (x' & Hx' & Hi). simplify_eq.
  eapply red_answers; [by apply sdreach_run|done..].
Qed.

Lemma told_survives cfg s1 s2 n x i ci v r m y j cj p r' w z :
  sdreach cfg s1 → rtc (sdstep cfg) s1 s2 →
  ry_insts (sd_sys s1) !! n = Some x → AllSendable x → Told s1 n i ci → Creates ci v → r ∈ cl_got ci → Good r →
  NotYet (sd_sys s1) m j →
  ry_insts (sd_sys s2) !! m = Some y → AllSendable y → Told s2 m j cj →
  cl_ups cj !! p = Some (Update CmdActivate (r_result r) ""%string) → cl_got cj !! p = Some r' → Good r' →
  ry_insts (sd_sys s2) !! w = Some z → CaughtUp (sd_sys s2) z →
  (∀ v', Update CmdDeactivate (r_result r) v' ∉ history (sd_sys s2)) →
  (∀ e, e ∈ hev_visits (in_events (rx_inst z)) →
        ¬ OlderThan (cfg_ticket_ttl cfg) e.2 (r_result r) ∧ ¬ ExpiredAt e.2 (stored_ticket (r_result r) v)) →
  Active (in_cache (rx_inst z)) (r_result r) ∧
  c_tickets (in_cache (rx_inst z)) !! r_result r = Some (stored_ticket (r_result r) v).
Proof.
  intros Hr1 Hr12 Hx Hax HT1 Hcr Hin Hg Hny Hy Hay HT2 Hup Hgot Hg' Hz Hcu Hnd Hfresh.
  assert (Hr2 : sdreach cfg s2) by (unfold sdreach in *; by etrans).
  destruct (told_now _ _ _ _ _ Hr1 HT1) as (x' & Hx' & Hi). simplify_eq.
  destruct (told_now _ _ _ _ _ Hr2 HT2) as (y' & Hy' & Hj). simplify_eq.
  eapply (red_end_to_end cfg (sd_sys s1) (sd_sys s2) n x i ci v r m y j cj p r' w z); try done.
  - by apply sdreach_run.
  - by apply sdrtc_run.
Qed.

(** ** Calls that were cut off *)
Lemma red_once_sent cfg s n x i cl :
  yreach cfg s → ry_insts s !! n = Some x → in_calls (rx_inst x) !! i = Some cl →
  updates_logged s n i ⊆+ take (cl_sent cl) (cl_ups cl).
Proof.
  intros Hr Hx Hi. pose proof (yi_inst _ _ (yreach_inv _ _ Hr) _ x Hx) as [Hin _ Ho _].
  pose proof (ok_calls _ _ _ _ _ Hin i cl Hi) as Hok. pose proof (ok_reqs _ _ _ _ _ _ _ Hok) as Hq.
  assert (H1 : map le_req (log_of n (ry_log s)) ⊆+ (rx_hist x).*1 ++ out_reqs rc_batch (in_out (rx_inst x))).
  { etrans; [|apply submseteq_app; [reflexivity|apply out_batch_sub]]. etrans; [|exact Ho]. by apply submseteq_inserts_r. }
  apply (submseteq_filter (λ q, rq_chan q = i)) in H1. fold (reqs_of i ((rx_hist x).*1 ++ out_reqs rc_batch (in_out (rx_inst x)))) in H1.
  apply (fmap_submseteq rq_update) in H1.
  change (rq_update <$> reqs_of i ((rx_hist x).*1 ++ out_reqs rc_batch (in_out (rx_inst x))))
    with (map rq_update (reqs_of i ((rx_hist x).*1 ++ out_reqs rc_batch (in_out (rx_inst x))))) in H1.
  rewrite Hq in H1. etrans; [|exact H1].
  unfold updates_logged. clear. induction (ry_log s) as [|e l IH]; [done|].
  unfold log_of in *. rewrite !filter_cons. destruct (decide (le_src e = n)) as [E|E]; cbn [map].
  - rewrite filter_cons. destruct (decide (rq_chan (le_req e) = i)) as [E2|E2].
    + rewrite decide_True by done. cbn [map fmap list_fmap]. by apply submseteq_skip.
    + by rewrite decide_False by naive_solver.
  - by rewrite decide_False by naive_solver.
Qed.

Lemma ended_stays cfg s s' n : rtc (sdstep cfg) s s' → HasEnded s n →
  HasEnded s' n ∧ ry_insts (sd_sys s') !! n = ry_insts (sd_sys s) !! n.
Proof.
  induction 1 as [|s s1 s' Hs _ IH]; [done|]. intros [x Hx].
  assert (H1 : HasEnded s1 n ∧ ry_insts (sd_sys s1) !! n = ry_insts (sd_sys s) !! n).
  { destruct Hs as [s s1 L Hst' [Hre _]|s L m z Hm HL|s L m z w Hm HL|s L m z Hm HL]; unfold HasEnded in *; cbn [sd_life sd_sys] in *.
    - split; [by exists x|]. by eapply Hre.
    - rewrite lookup_insert_ne by congruence. split; [by exists x|done].
    - rewrite lookup_insert_ne by congruence. split; [by exists x|].
      unfold disconnect. destruct (in_out (rx_inst z)) as [b|[b cmds rs]|l|]; try done.
      cbn [ry_insts]. by rewrite list_lookup_insert_ne by congruence.
    - rewrite lookup_insert_ne by congruence. split; [by exists x|].
      unfold disconnect. destruct (in_out (rx_inst z)) as [b|[b cmds rs]|l|]; try done.
      cbn [ry_insts]. by rewrite list_lookup_insert_ne by congruence. }
  destruct H1 as [H1 E1]. destruct (IH H1) as [H2 E2]. split; [done|congruence].
Qed.

Lemma ended_at_most cfg s s' n x i c :
  sdreach cfg s → rtc (sdstep cfg) s s' → HasEnded s n → ry_insts (sd_sys s) !! n = Some x →
  in_calls (rx_inst x) !! i = Some c → updates_logged (sd_sys s') n i ⊆+ take (cl_sent c) (cl_ups c).
Proof.
  intros Hr Hs He Hx Hi. destruct (ended_stays _ _ _ _ Hs He) as [_ E].
  eapply red_once_sent; [apply sdreach_run; unfold sdreach in *; by etrans|by rewrite E|done].
Qed.

(** Nothing more comes from a process that has ended and whose connection has been
    dealt with. *)
Definition quiet (s : ssys) (n : nat) : Prop :=
  HasEnded s n ∧ (∀ o, o ∈ ry_orphans (sd_sys s) → o.1 ≠ n) ∧
  ∀ x c, ry_insts (sd_sys s) !! n = Some x → in_out (rx_inst x) ≠ OStore c.
Lemma elem_insert {A} (l : list A) k a b : a ∈ <[k := b]> l → a = b ∨ a ∈ l.
Proof.
  intros (j & Hj)%elem_of_list_lookup. destruct (decide (j = k)) as [->|Hne].
  - apply list_lookup_insert_Some in Hj as [(_ & -> & _)|(? & _)]; [by left|done].
  - rewrite list_lookup_insert_ne in Hj by done. right. by eapply elem_of_list_lookup_2.
Qed.

Lemma log_app_src n i lg e : le_src e ≠ n →
  filter (λ e, le_src e = n ∧ rq_chan (le_req e) = i) (lg ++ [e]) = filter (λ e, le_src e = n ∧ rq_chan (le_req e) = i) lg.
Proof.
  intros H. rewrite filter_app, filter_cons, decide_False by naive_solver. by rewrite filter_nil, app_nil_r.
Qed.

Lemma disconnect_log n m z s : n ≠ m → ry_log (disconnect m z s) = ry_log s ∧
  ((∀ o, o ∈ ry_orphans s → o.1 ≠ n) → ∀ o, o ∈ ry_orphans (disconnect m z s) → o.1 ≠ n).
Proof.
  intros Hne. unfold disconnect. destruct (in_out (rx_inst z)) as [b|[b cmds rs]|l|]; cbn [ry_log ry_orphans]; try done.
  split; [done|]. intros Ho o [Hin| ->%elem_of_list_singleton]%elem_of_app; [by apply Ho|]. cbn. congruence.
Qed.

Lemma quiet_step cfg s s' n i : sdstep cfg s s' → quiet s n →
  quiet s' n ∧ updates_logged (sd_sys s') n i = updates_logged (sd_sys s) n i.
Proof.
  intros Hs (He & Ho & Hx). destruct (ended_stays _ _ _ _ (rtc_once _ _ Hs) He) as [He' E].
  assert (Hout : ∀ x c, ry_insts (sd_sys s') !! n = Some x → in_out (rx_inst x) ≠ OStore c).
  { intros x c. rewrite E. apply Hx. }
  assert (Hgoal : (∀ o, o ∈ ry_orphans (sd_sys s') → o.1 ≠ n) →
    updates_logged (sd_sys s') n i = updates_logged (sd_sys s) n i →
    quiet s' n ∧ updates_logged (sd_sys s') n i = updates_logged (sd_sys s) n i).
  { intros H1 H2. done. }
  destruct He as [y Hy]. unfold updates_logged in *.
  destruct Hs as [s s1 L Hst' _|s L m z Hm HL|s L m z w Hm HL|s L m z Hm HL]; cbn [sd_life sd_sys] in *.
  - destruct Hst'; cbn [ry_insts ry_orphans ry_log] in *; apply Hgoal; try done.
    + rewrite log_app_src; [done|]. cbn. intros ->. by eapply Hx.
    + intros o [Hin| ->%elem_of_list_singleton]%elem_of_app; [by apply Ho|]. cbn. intros ->. by eapply Hx.
    + intros o [->|Hin]%elem_insert; [|by apply Ho]. apply elem_of_list_lookup_2 in H. exact (Ho _ H).
    + rewrite log_app_src; [done|]. cbn. apply elem_of_list_lookup_2 in H. exact (Ho _ H).
    + intros o Hin%elem_of_delete. by apply Ho.
    + intros o' Hin%elem_of_delete. by apply Ho.
  - by apply Hgoal.
  - assert (n ≠ m) by congruence. destruct (disconnect_log n m z s) as [H1 H2]; [done|]. apply Hgoal; [by apply H2|by rewrite H1].
  - assert (n ≠ m) by congruence. destruct (disconnect_log n m z s) as [H1 H2]; [done|]. apply Hgoal; [by apply H2|by rewrite H1].
Qed.

(** A process that has ended is not inside SendUpdates. *)
Lemma ended_out cfg s : sdreach cfg s → ∀ n x c, HasEnded s n → ry_insts (sd_sys s) !! n = Some x → in_out (rx_inst x) ≠ OStore c.
Proof.
  revert s. apply (rtc_ind_r (λ s, ∀ n x c, HasEnded s n → ry_insts (sd_sys s) !! n = Some x → in_out (rx_inst x) ≠ OStore c)).
  { intros n x c [y Hy]. cbn [sd_life ssys0] in Hy. by rewrite lookup_empty in Hy. }
  assert (Hd : ∀ m z s x c, ry_insts s !! m = Some z → ry_insts (disconnect m z s) !! m = Some x → in_out (rx_inst x) ≠ OStore c).
  { intros m z s x c Hm. unfold disconnect. destruct (in_out (rx_inst z)) as [b|[b cmds rs]|l|] eqn:Eo; cbn [ry_insts].
    - rewrite Hm. intros [= <-]. congruence.
    - rewrite list_lookup_insert by (by eapply lookup_lt_Some). intros [= <-]. unfold finish_send, to_deliver. cbn [rx_inst set_out in_out].
      by destruct (distribute b _).
    - rewrite Hm. intros [= <-]. congruence.
    - rewrite Hm. intros [= <-]. congruence. }
  intros s s' Hr Hs IH n x c He Hx.
  destruct Hs as [s s1 L Hst' [Hre _]|s L m z Hm HL|s L m z w Hm HL|s L m z Hm HL]; unfold HasEnded in *; cbn [sd_life sd_sys] in *;
    destruct He as [y Hy].
  - rewrite (Hre n y Hy) in Hx. exact (IH n x c (ex_intro _ y Hy) Hx).
  - destruct (decide (n = m)) as [->|Hne]; [by rewrite lookup_insert in Hy|]. rewrite lookup_insert_ne in Hy by done.
    exact (IH n x c (ex_intro _ y Hy) Hx).
  - destruct (decide (n = m)) as [->|Hne]; [exact (Hd m z s x c Hm Hx)|]. rewrite lookup_insert_ne in Hy by done.
    assert (Hx' : ry_insts s !! n = Some x).
    { unfold disconnect in Hx. destruct (in_out (rx_inst z)) as [b|[b cmds rs]|l|]; try done. cbn [ry_insts] in Hx.
      by rewrite list_lookup_insert_ne in Hx. }
    exact (IH n x c (ex_intro _ y Hy) Hx').
  - destruct (decide (n = m)) as [->|Hne]; [exact (Hd m z s x c Hm Hx)|]. rewrite lookup_insert_ne in Hy by done.
    assert (Hx' : ry_insts s !! n = Some x).
    { unfold disconnect in Hx. destruct (in_out (rx_inst z)) as [b|[b cmds rs]|l|]; try done. cbn [ry_insts] in Hx.
      by rewrite list_lookup_insert_ne in Hx. }
    exact (IH n x c (ex_intro _ y Hy) Hx').
Qed.

Lemma ended_silent cfg s s' n i :
  sdreach cfg s → rtc (sdstep cfg) s s' → HasEnded s n → (∀ o, o ∈ ry_orphans (sd_sys s) → o.1 ≠ n) →
  updates_logged (sd_sys s') n i = updates_logged (sd_sys s) n i.
Proof.
  intros Hr Hs He Ho. assert (Hq : quiet s n).
  { split; [done|]. split; [done|]. intros x c Hx. by eapply ended_out. }
  clear He Ho Hr. induction Hs as [|s s1 s' Hs _ IH]; [done|].
  destruct (quiet_step cfg _ _ n i Hs Hq) as [Hq1 E]. rewrite <-E. by apply IH.
Qed.

(** ** The others go on *)

(** A step of a serving instance is possible whatever has become of the others. *)
Lemma alone_respects cfg s L n x' s' : ystep cfg s s' → ry_insts s' = <[n := x']> (ry_insts s) → L !! n = None →
  sdstep cfg (SSys s L) (SSys s' L).
Proof.
  intros Hs E HL. apply SD_run; [done|]. unfold respects. rewrite E. split.
  - intros m y Hm. by rewrite list_lookup_insert_ne by congruence.
  - intros m y a b Hm Ha Hb. rewrite list_lookup_insert_ne in Hb by congruence. by simplify_eq.
Qed.

(** Instance [n] takes a step, nobody else does, and what it has to do gets less. *)
Definition alone_down (cfg : config) (L : gmap nat life) (n : nat) (s : rsys) : Prop :=
  ∃ s' x x', sdstep cfg (SSys s L) (SSys s' L) ∧ ry_insts s !! n = Some x ∧ ry_insts s' = <[n := x']> (ry_insts s) ∧
    rinst_w 1 (rx_inst x') < rinst_w 1 (rx_inst x) ∧ map cl_ups (in_calls (rx_inst x')) = map cl_ups (in_calls (rx_inst x)).

Lemma done_or_alone cfg L n s x : yreach cfg s → L !! n = None → ry_insts s !! n = Some x →
  Forall returned (in_calls (rx_inst x)) ∨ alone_down cfg L n s.
Proof.
  intros Hr HL Hx. pose proof (yi_inst _ _ (yreach_inv _ _ Hr) n x Hx) as [Hin Hfl _ _].
  destruct s as [xs s os lg ts]. cbn [ry_insts] in *.
  assert (Hdown : inst_down cfg 1 (rx_inst x) → alone_down cfg L n (RSys xs s os lg ts)).
  { intros (x' & Hl & Hw & Hups). eexists _, x, (RInst x' (rx_cursor x) (rx_hist x)).
    split; [eapply alone_respects; [by eapply Y_local|done|done]|]. cbn [rx_inst ry_insts]. split_and!; done. }
  assert (Ho : in_out (rx_inst x) = OCollect [] ∨ (∃ c, in_out (rx_inst x) = OStore c) ∨
               (in_out (rx_inst x) ≠ OCollect [] ∧ ∀ c, in_out (rx_inst x) ≠ OStore c)).
  { destruct (in_out (rx_inst x)) as [[|]| | |]; eauto; right; right; split; done. }
  destruct Ho as [Ho|[[c Ho]|[Ho1 Ho2]]]; [| |right; by eapply Hdown, rdown_out].
  - destruct (decide (Forall returned (in_calls (rx_inst x)))) as [Hret|Hret]; [by left|right; by eapply Hdown, rdown_handlers].
  - right. destruct c as [b cmds rs]. destruct cmds as [|[q c] cmds].
    + eexists _, x, _. split; [eapply alone_respects; [eapply (Y_sent _ _ _ _ _ _ n x b rs 0%Z); [exact Hx|exact Ho]|reflexivity|done]|].
      cbn [ry_insts]. split_and!; [done|reflexivity| |done].
      unfold finish_send, to_deliver. cbn [rx_inst].
      pose proof (redis_results_length b rs) as Hl. rewrite distribute_zip by lia.
      unfold rinst_w. cbn [set_out in_calls in_out in_poll in_stream in_expiring]. rewrite Ho.
      cbn [rout_w rc_cmds rc_batch length]. rewrite zip_with_length, map_length. lia.
    + eexists _, x, _. split; [eapply alone_respects; [eapply (Y_xadd _ _ _ _ _ _ n x b q c cmds rs 0%Z); [exact Hx|exact Ho]|reflexivity|done]|].
      cbn [ry_insts]. split_and!; [done|reflexivity| |done].
      unfold rinst_w. cbn [rx_inst set_out in_calls in_out in_poll in_stream in_expiring]. rewrite Ho.
      cbn [rout_w rc_cmds rc_batch length]. lia.
Qed.

Lemma others_finish cfg s n :
  sdreach cfg s → IsServing s n →
  ∃ s' x x', rtc (sdstep cfg) s s' ∧ sd_life s' = sd_life s ∧
    (∀ m, m ≠ n → ry_insts (sd_sys s') !! m = ry_insts (sd_sys s) !! m) ∧
    ry_insts (sd_sys s) !! n = Some x ∧ ry_insts (sd_sys s') !! n = Some x' ∧
    map cl_ups (in_calls (rx_inst x')) = map cl_ups (in_calls (rx_inst x)) ∧ Forall returned (in_calls (rx_inst x')).
Proof.
  intros Hr [HL [x Hx]]. destruct s as [s L]. cbn [sd_sys sd_life] in *.
  remember (rinst_w 1 (rx_inst x)) as w eqn:Ew. revert s x Ew Hr Hx. induction (lt_wf w) as [w _ IH]. intros s x -> Hr Hx.
  destruct (done_or_alone cfg L n s x) as [Hd|(s1 & y & x1 & Hs & Hy & E & Hw & Hu)]; [exact (sdreach_run _ _ Hr)|done|done| |].
  - exists (SSys s L), x, x. by split_and!.
  - rewrite Hx in Hy. injection Hy as <-.
    assert (Hx1 : ry_insts s1 !! n = Some x1) by (rewrite E; apply list_lookup_insert; by eapply lookup_lt_Some).
    destruct (IH _ Hw s1 x1 eq_refl) as (s' & a & b & H1 & H2 & H3 & H4 & H5 & H6 & H7); [by eapply rtc_r|done|].
    cbn [sd_sys sd_life] in *. exists s', x, b. split_and!; try done.
    + by eapply rtc_l.
    + intros m Hm. rewrite H3 by done. rewrite E. by rewrite list_lookup_insert_ne by done.
    + simplify_eq. congruence.
Qed.

(** ** With the in-memory store *)
Definition since (t : instant) (s : msys) : Prop :=
  (t <= ms_clock s)%Z ∧ (unix_secs t <= unix_secs (mr_ts (ms_store s)))%Z ∧ (0 <= mr_count (ms_store s))%Z ∧
  ∀ e, e ∈ ms_hist s ++ offered (in_out (ms_inst s)) → ∃ p, r_result (sn_resp e) = id_text p ∧ (unix_secs t <= p.1)%Z ∧ (0 <= p.2)%Z.

Lemma mreach_since cfg t s : (0 <= t)%Z → mreach cfg t s → since t s.
Proof.
  intros H0. revert s. apply (rtc_ind_r (since t)).
  { unfold since. cbn. split_and!; [lia|lia|lia|]. intros e He. by apply elem_of_nil in He. }
  intros s s' Hr Hs (I1 & I2 & I3 & I4). destruct (mreach_inv _ _ _ H0 Hr) as [_ Hok _ (ps & _ & _ & _ & _ & Hts0 & Htsc & _) _ _].
  destruct Hs as [x x' m t' h Hl|cs b ds q todo p st x c ev m t' h t1 t2 u r m' H1 H2 E
    |cs b ds q todo u r l st x c ev m t' h|cs b ds p st x c ev m t' h|cs o l st x c ev m t' h];
    unfold since; cbn [ms_inst ms_store ms_clock ms_hist in_out in_poll offered mc_todo mc_offer] in *.
  - destruct (lstep_offered _ _ _ Hl Hok) as (E1 & _ & _). rewrite E1. done.
  - apply mem_send1_eq in E as (Eg & _ & _).
    destruct (get_repl_id_step _ _ _ _ Eg) as (Hlt & H0' & Hc' & Hle); cbn [fst snd]; try done.
    { transitivity (unix_secs t'); [done|]. by apply unix_secs_mono. }
    { by apply unix_secs_mono. }
    apply get_repl_id_pair in Eg. unfold st_pair, LexLt in Hlt. cbn [fst snd] in Hlt.
    assert (Hm : (unix_secs t <= unix_secs (mr_ts m'))%Z) by lia.
    split_and!; [lia|done|done|].
    intros e [He| ->%elem_of_list_singleton]%elem_of_app; [apply I4, elem_of_app; by left|].
    exists (st_pair m'). cbn [sn_resp]. by split_and!.
  - split_and!; try done. intros e He. apply I4. destruct todo; cbn in He; rewrite app_nil_r in He; done.
  - split_and!; try done. intros e [He|He]%elem_of_app.
    + apply I4, elem_of_app. by left.
    + exfalso. unfold to_deliver in He. destruct (distribute b ds); cbn [offered] in He; by apply elem_of_nil in He.
  - split_and!; try done.
Qed.

Lemma mreach_before cfg t0 s e : (0 <= t0)%Z → mreach cfg t0 s → e ∈ ms_hist s →
  ∃ p, r_result (sn_resp e) = id_text p ∧ (0 <= p.1)%Z ∧ (p.1 <= unix_secs (ms_clock s))%Z ∧ (0 <= p.2)%Z.
Proof.
  intros H0 Hr He. destruct (mreach_inv _ _ _ H0 Hr) as [_ _ _ (ps & Hps & _ & Hp & Hl & _ & Ht & _) _ _].
  assert (Hin : r_result (sn_resp e) ∈ map id_text ps).
  { rewrite <-Hps. apply (elem_of_list_fmap_1 (λ e, r_result (sn_resp e))). apply elem_of_app. by left. }
  apply elem_of_list_fmap in Hin as (p & -> & Hin). exists p. rewrite Forall_forall in Hp, Hl.
  destruct (Hp p Hin). split_and!; try done.
  destruct (Hl p Hin) as [->|Hlt]; [done|]. unfold LexLt, st_pair in Hlt. cbn in Hlt. lia.
Qed.

Lemma restarted_ids cfg t0 s i c r t s' i' c' r' :
  (0 <= t0)%Z → mreach cfg t0 s → in_calls (ms_inst s) !! i = Some c → r ∈ cl_got c →
  (0 <= t)%Z → (unix_secs (ms_clock s) < unix_secs t)%Z → rtc (mstep cfg) (restarted t) s' →
  in_calls (ms_inst s') !! i' = Some c' → r' ∈ cl_got c' → r_result r ≠ r_result r'.
Proof.
  intros H0 Hr Hi Hin Ht Hlt Hr' Hi' Hin' E.
  apply elem_of_list_lookup in Hin as [k Hk]. apply elem_of_list_lookup in Hin' as [k' Hk'].
  destruct (mem_answers _ _ _ _ _ _ _ H0 Hr Hi Hk) as (_ & u & _ & He).
  destruct (mem_answers _ _ _ _ _ _ _ Ht Hr' Hi' Hk') as (_ & u' & _ & He').
  destruct (mreach_before _ _ _ _ H0 Hr He) as (p & Ep & P1 & P2 & P3).
  destruct (mreach_since _ _ _ Ht Hr') as (_ & _ & _ & Hs).
  destruct (Hs _ (proj2 (elem_of_app _ _ _) (or_introl He'))) as (q & Eq & Q1 & Q2).
  cbn [sn_resp] in *. assert (p = q) as ->; [|lia].
  assert (0 <= unix_secs t)%Z by (unfold unix_secs, giga; apply Z.div_pos; lia).
  apply id_text_inj; [done|done|lia|done|congruence].
Qed.

(** The new process knows nothing of what the old one held. *)
Lemma restarted_empty t : ms_hist (restarted t) = [] ∧ in_cache (ms_inst (restarted t)) = empty_cache ∧ in_calls (ms_inst (restarted t)) = [].
Proof. done. Qed.

Lemma acknowledged_kept cfg s1 s2 n x i c m r :
  sdreach cfg s1 → rtc (sdstep cfg) s1 s2 →
  ry_insts (sd_sys s1) !! n = Some x → AllSendable x → Told s1 n i c → cl_got c !! m = Some r → Good r →
  ∃ u e, cl_ups c !! m = Some u ∧ e ∈ ry_log (sd_sys s2) ∧ le_src e = n ∧ le_req e = Request u i ∧ r_result r = id_text (le_id e).
Proof.
  intros Hr Hs Hx Ha HT Hm Hg. destruct (told_stored _ _ _ _ _ _ _ _ Hr Hx Ha HT Hm Hg) as (u & e & H1 & H2 & H3).
  exists u, e. split; [done|]. split; [|done].
  destruct (yrtc_grows _ _ _ (sdrtc_run _ _ _ Hs)) as [l ->]. apply elem_of_app. by left.
Qed.

Lemma told_exclusive cfg s1 s2 n i c : sdreach cfg s1 → rtc (sdstep cfg) s1 s2 → Told s1 n i c →
  Told s2 n i c ∧ ¬ CutOff s2 n i.
Proof.
  intros Hr Hs HT. assert (HT2 : Told s2 n i c) by (by eapply told_stays). split; [done|by eapply told_or_cut].
Qed.

Lemma cut_exclusive cfg s1 s2 n i : rtc (sdstep cfg) s1 s2 → CutOff s1 n i → ∀ c, ¬ Told s2 n i c.
Proof. intros Hs HC c HT. eapply told_or_cut; [exact HT|]. by eapply cut_stays. Qed.

(** While all serve, this is the system without shutdown. *)
Lemma run_serving cfg s s' : rtc (ystep cfg) s s' → rtc (sdstep cfg) (SSys s ∅) (SSys s' ∅).
Proof.
  induction 1 as [|s s1 s' Hs _ IH]; [constructor|]. eapply rtc_l; [|exact IH]. apply SD_run; [done|].
  split; [intros n y Hn; by rewrite lookup_empty in Hn|intros n y a b Hn; by rewrite lookup_empty in Hn].
Qed.

(** ** No new calls *)
Lemma ystep_length cfg s s' : ystep cfg s s' → length (ry_insts s) ≤ length (ry_insts s').
Proof. destruct 1; cbn [ry_insts]; rewrite ?insert_length, ?app_length; lia. Qed.
Lemma disconnect_calls n x s m y : ry_insts s !! n = Some x → ry_insts (disconnect n x s) !! m = Some y →
  ∃ z, ry_insts s !! m = Some z ∧ in_calls (rx_inst y) = in_calls (rx_inst z).
Proof.
  intros Hx. unfold disconnect. destruct (in_out (rx_inst x)) as [b|[b cmds rs]|l|]; try (intros H; by exists y).
  cbn [ry_insts]. intros [(<- & <- & _)|[_ H]]%list_lookup_insert_Some; [|by exists y].
  exists x. split; [done|]. by destruct x as [[] ? ?].
Qed.
Definition counted (s : ssys) : Prop := ∀ n, is_Some (sd_life s !! n) → ∃ x y,
  seen s n = Some x ∧ ry_insts (sd_sys s) !! n = Some y ∧ length (in_calls (rx_inst y)) = length (in_calls (rx_inst x)).
Lemma disconnect_length n x s : length (ry_insts (disconnect n x s)) = length (ry_insts s).
Proof. unfold disconnect. destruct (in_out (rx_inst x)) as [b|[b cmds rs]|l|]; try done. cbn [ry_insts]. by rewrite insert_length. Qed.
Lemma disconnect_counted n x s m y : ry_insts s !! n = Some x → ry_insts s !! m = Some y →
  ∃ z, ry_insts (disconnect n x s) !! m = Some z ∧ length (in_calls (rx_inst z)) = length (in_calls (rx_inst y)).
Proof.
  intros Hx Hy. destruct (lookup_lt_is_Some_2 (ry_insts (disconnect n x s)) m) as [z Hz].
  { rewrite disconnect_length. by eapply lookup_lt_Some. }
  destruct (disconnect_calls _ _ _ _ _ Hx Hz) as (w & Hw & E). exists z. split; [done|]. rewrite E. congruence.
Qed.
Lemma reach_counted cfg s : sdreach cfg s → counted s.
Proof.
  revert s. apply (rtc_ind_r counted).
  { intros n [z Hz]. cbn [sd_life ssys0] in Hz. by rewrite lookup_empty in Hz. }
  intros s s' Hr Hs IH n Hn. unfold seen in *.
  destruct Hs as [s s' L Hst [Hre1 Hre2]|s L m y Hm HL|s L m y z Hm HL|s L m y Hm HL]; cbn [sd_life sd_sys] in *.
  - destruct (IH n Hn) as (x & y & Hx & Hy & E). unfold seen in Hx. cbn [sd_life sd_sys] in Hx, Hy.
    destruct (lookup_lt_is_Some_2 (ry_insts s') n) as [y' Hy'].
    { apply ystep_length in Hst. apply lookup_lt_Some in Hy. lia. }
    exists x, y'. split; [|split; [done|]].
    + destruct Hn as [[w|w] Hw]; rewrite Hw in *; exact Hx.
    + rewrite <-E. destruct Hn as [[w|w] Hw].
      * eapply Hre2; [exact Hw|exact Hy|exact Hy'].
      * pose proof (Hre1 n w Hw) as Eq. congruence.
  - unfold seen. cbn [sd_life sd_sys]. destruct (decide (n = m)) as [->|Hne].
    + rewrite lookup_insert in *. by exists y, y.
    + rewrite lookup_insert_ne in * by done. destruct (IH n Hn) as (x & y' & Hx & Hy & E). by exists x, y'.
  - unfold seen. cbn [sd_life sd_sys]. destruct (decide (n = m)) as [->|Hne].
    + rewrite lookup_insert. destruct (IH m ltac:(by eexists)) as (x & y' & Hx & Hy & E). unfold seen in Hx. cbn [sd_life sd_sys] in Hx, Hy.
      rewrite HL in Hx. injection Hx as ->. destruct (disconnect_counted _ _ _ _ _ Hm Hy) as (w & Hw & Ew).
      exists x, w. split; [done|]. split; [done|]. congruence.
    + rewrite lookup_insert_ne in * by done. destruct (IH n Hn) as (x & y' & Hx & Hy & E). unfold seen in Hx. cbn [sd_life sd_sys] in Hx, Hy.
      destruct (disconnect_counted _ _ _ _ _ Hm Hy) as (w & Hw & Ew). exists x, w. split; [|split; [done|congruence]].
      destruct Hn as [[v|v] Hv]; rewrite Hv in *; exact Hx.
  - unfold seen. cbn [sd_life sd_sys]. destruct (decide (n = m)) as [->|Hne].
    + rewrite lookup_insert. destruct (disconnect_counted _ _ _ _ _ Hm Hm) as (w & Hw & Ew). by exists y, w.
    + rewrite lookup_insert_ne in * by done. destruct (IH n Hn) as (x & y' & Hx & Hy & E). unfold seen in Hx. cbn [sd_life sd_sys] in Hx, Hy.
      destruct (disconnect_counted _ _ _ _ _ Hm Hy) as (w & Hw & Ew). exists x, w. split; [|split; [done|congruence]].
      destruct Hn as [[v|v] Hv]; rewrite Hv in *; exact Hx.
Qed.
Lemma no_new_calls cfg s n x y : sdreach cfg s → is_Some (sd_life s !! n) → seen s n = Some x →
  ry_insts (sd_sys s) !! n = Some y → length (in_calls (rx_inst y)) = length (in_calls (rx_inst x)).
Proof. intros Hr Hn Hx Hy. destruct (reach_counted _ _ Hr n Hn) as (x' & y' & Hx' & Hy' & E). congruence. Qed.
