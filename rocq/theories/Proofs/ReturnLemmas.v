(** Tickets of matches, activated again. *)
From Coq Require Import Ascii String ZArith NArith Lia.
From stdpp Require Import prelude strings gmap relations.
From Verif.Model Require Import GoStrings Types Cache Replica Handlers Queues Snapshot System RedisSystem Invoke InvokeSystem.
From Verif.Spec Require Import CacheSpec SystemSpec EndToEndSpec AssignSpec StateSpec InvokeSpec InvokeSystemSpec.
From Verif.Proofs Require Import InvokeLemmas InvokeMore InvokeSystemLemmas StateMem StateRedis.
Local Open Scope nat_scope.

Section alongside.
Context {St : Type} (step : St → St → Prop) (calls : St → list call) (inactive : St → gset string) (wait : bool).
Context (Hkeep : ∀ s s', step s s' → keeps_calls (calls s) (calls s')).

(** When the functions that returned a ticket have finished, its deactivations have
    returned. *)
Lemma finished_calls fns s0 z id j c :
  rtc (is_step step calls inactive wait) (is_init inactive fns s0) z →
  (∀ n k m, ReceivedAs (is_inv z) n k m → TicketIn m id → FnFinished (is_inv z) k) →
  j ∈ is_calls z → calls (is_server z) !! j = Some c → SetsState c id false → returned c.
Proof.
  intros H Hfin Hj Hc [w Hset].
  assert (Hok := is_rtc_ok _ _ _ _ Hkeep _ _ H (is_init_ok _ _ fns s0)).
  assert (Hv := v_inv_reach _ _ _ _ (is_inv_runs _ _ _ _ Hkeep _ _ H (is_init_ok _ _ fns s0))).
  apply elem_of_list_lookup in Hj as [n Hn].
  assert (is_Some (v_gors (is_inv z) !! n)) as [g Hg].
  { apply lookup_lt_is_Some. rewrite <-(io_length _ _ Hok). by eapply lookup_lt_Some. }
  destruct (io_call _ _ Hok n g Hg) as (j' & c' & Hn' & Hc' & E). rewrite Hn in Hn'. injection Hn' as <-.
  rewrite Hc in Hc'. injection Hc' as <-. rewrite E in Hset.
  apply elem_of_list_fmap in Hset as (id' & [= <- _] & Hid).
  destruct (vi_gors _ Hv n g Hg) as (Hids & Hans & _ & st & Hst & _ & Hd).
  assert (Htk : TicketIn (g_match g) id) by (by apply (ids_tickets _ _ Hids)).
  destruct (Hfin n (g_fn g) (g_match g) (ex_intro _ g (conj Hg (conj eq_refl eq_refl))) Htk) as [ty Hty].
  rewrite Hst in Hty. injection Hty as _ ->. rewrite (Hd eq_refl) in Hans.
  destruct (io_answered _ _ Hok n id (Hans id Hid)) as (j' & c' & Hn' & Hc' & Hret).
  rewrite Hn in Hn'. injection Hn' as <-. rewrite Hc in Hc'. by injection Hc' as <-.
Qed.
End alongside.

Lemma mem_returned_offered cfg t0 wait fns s0 z s3 s4 i ci v r j cj ts :
  (0 <= t0)%Z → mreach cfg t0 s0 →
  rtc (im_step cfg wait) (is_init mem_inactive fns s0) z →
  (∀ n k m, ReceivedAs (is_inv z) n k m → TicketIn m (r_result r) → FnFinished (is_inv z) k) →
  rtc (mstep cfg) (is_server z) s3 → rtc (mstep cfg) s3 s4 →
  in_calls (ms_inst (is_server z)) !! i = Some ci → Creates ci v → r ∈ cl_got ci →
  length (in_calls (ms_inst (is_server z))) <= j → in_calls (ms_inst s3) !! j = Some cj →
  SetsState cj (r_result r) true → returned cj →
  (∀ i' c', in_calls (ms_inst s4) !! i' = Some c' → SetsState c' (r_result r) false →
     i' ∈ is_calls z ∨ ∃ c1, in_calls (ms_inst (is_server z)) !! i' = Some c1 ∧ returned c1) →
  on_the_way (ms_inst s3) = [] →
  (∀ x, x ∈ hev_visits (in_events (ms_inst s4)) →
        ¬ OlderThan (cfg_ticket_ttl cfg) x.2 (r_result r) ∧ ¬ ExpiredAt x.2 (stored_ticket (r_result r) v)) →
  SnapshotBetween cfg (ms_inst s3) (ms_inst s4) ts →
  stored_ticket (r_result r) v ∈ ts.
Proof.
  intros H0 Hr0 Hz Hfin H3 H4 Hi Hc Hin Hj Hcj Hset Hret Hoth Hway Hvis Hs.
  assert (Hr1 : mreach cfg t0 (is_server z)).
  { eapply rtc_transitive; [exact Hr0|]. exact (is_server_runs _ _ _ _ _ _ Hz). }
  eapply (mem_activated_in_snapshot cfg t0 (is_server z) s3 s4 i ci v r j cj ts); try done.
  intros i' c' Hc' Hs'. destruct (Hoth i' c' Hc' Hs') as [Hin'|]; [|done].
  assert (Hok := is_rtc_ok _ _ _ _ (mstep_keeps cfg) _ _ Hz (is_init_ok _ _ fns s0)).
  assert (∃ c1, mem_calls (is_server z) !! i' = Some c1) as [c1 Hc1].
  { apply elem_of_list_lookup in Hin' as [n Hn].
    assert (is_Some (v_gors (is_inv z) !! n)) as [g Hg].
    { apply lookup_lt_is_Some. rewrite <-(io_length _ _ Hok). by eapply lookup_lt_Some. }
    destruct (io_call _ _ Hok n g Hg) as (j' & c1 & Hn' & Hc1 & _). rewrite Hn in Hn'. injection Hn' as <-. by exists c1. }
  exists c1. split; [exact Hc1|].
  eapply (finished_calls _ _ _ _ (mstep_keeps cfg) fns s0 z (r_result r) i' c1); try done.
  assert (Hk : keeps_calls (mem_calls (is_server z)) (mem_calls s4)).
  { assert (H : rtc (mstep cfg) (is_server z) s4) by (by eapply rtc_transitive). clear -H.
    induction H as [|x y z' H _ IH]; [apply keeps_refl|]. eapply keeps_trans; [by eapply mstep_keeps|done]. }
  destruct (Hk i' c1 Hc1) as (c2 & Hc2 & E & _). assert (c2 = c') as -> by (unfold mem_calls in Hc2; congruence).
  destruct Hs' as [w Hw]. exists w. by rewrite <-E.
Qed.

Lemma red_returned_offered cfg wait fns m s0 z s3 s4 n x i ci v r l y j cj k u r' w x3 x4 ts :
  yreach cfg s0 →
  rtc (ir_step cfg m wait) (is_init (red_inactive m) fns s0) z →
  (∀ n k ma, ReceivedAs (is_inv z) n k ma → TicketIn ma (r_result r) → FnFinished (is_inv z) k) →
  DeactivationsStored m z →
  rtc (ystep cfg) (is_server z) s3 → rtc (ystep cfg) s3 s4 →
  ry_insts (is_server z) !! n = Some x → AllSendable x →
  in_calls (rx_inst x) !! i = Some ci → Creates ci v → r ∈ cl_got ci → Good r →
  NotYet (is_server z) l j →
  ry_insts s3 !! l = Some y → AllSendable y → in_calls (rx_inst y) !! j = Some cj →
  cl_ups cj !! k = Some (Update CmdActivate (r_result r) u) → cl_got cj !! k = Some r' → Good r' →
  (∀ n' x' i' c', ry_insts s4 !! n' = Some x' → in_calls (rx_inst x') !! i' = Some c' → SetsState c' (r_result r) false →
     ∃ x1, ry_insts (is_server z) !! n' = Some x1 ∧ AllSendable x1 ∧
       (n' = m ∧ i' ∈ is_calls z ∨ ∃ c1, in_calls (rx_inst x1) !! i' = Some c1 ∧ AllGood c1)) →
  ry_insts s3 !! w = Some x3 → CaughtUp s3 x3 → ry_insts s4 !! w = Some x4 →
  (∀ e, e ∈ hev_visits (in_events (rx_inst x4)) →
        ¬ OlderThan (cfg_ticket_ttl cfg) e.2 (r_result r) ∧ ¬ ExpiredAt e.2 (stored_ticket (r_result r) v)) →
  SnapshotBetween cfg (rx_inst x3) (rx_inst x4) ts →
  stored_ticket (r_result r) v ∈ ts.
Proof.
  intros Hr0 Hz Hfin Hst H3 H4 Hx Hax Hi Hc Hin Hg Hny Hy Hay Hj Hu Hp Hg' Hoth Hx3 Hcu Hx4 Hvis Hs.
  assert (Hr1 : yreach cfg (is_server z)).
  { eapply rtc_transitive; [exact Hr0|]. exact (is_server_runs _ _ _ _ _ _ Hz). }
  eapply (red_activated_in_snapshot cfg (is_server z) s3 s4 n x i ci v r l y j cj k u r' w x3 x4 ts); try done.
  intros n' x' i' c' Hx' Hc' Hs'. destruct (Hoth n' x' i' c' Hx' Hc' Hs') as (x1 & Hx1 & Ha1 & [[-> Hin']|(c1 & Hc1 & Hg1)]).
  2: by exists x1, c1.
  assert (Hok := is_rtc_ok _ _ _ _ (ystep_keeps cfg m) _ _ Hz (is_init_ok _ _ fns s0)).
  apply elem_of_list_lookup in Hin' as Hq. destruct Hq as [q Hq].
  assert (∃ c1, red_calls m (is_server z) !! i' = Some c1) as [c1 Hc1].
  { assert (is_Some (v_gors (is_inv z) !! q)) as [g Hgq].
    { apply lookup_lt_is_Some. rewrite <-(io_length _ _ Hok). by eapply lookup_lt_Some. }
    destruct (io_call _ _ Hok q g Hgq) as (j' & c1 & Hn' & Hc1 & _). rewrite Hq in Hn'. injection Hn' as <-. by exists c1. }
  exists x1, c1. split; [done|]. split; [done|].
  assert (Hk : keeps_calls (red_calls m (is_server z)) (red_calls m s4)).
  { assert (H : rtc (ystep cfg) (is_server z) s4) by (by eapply rtc_transitive). clear -H.
    induction H as [|a b c' H _ IH]; [apply keeps_refl|]. eapply keeps_trans; [by eapply ystep_keeps|done]. }
  destruct (Hk i' c1 Hc1) as (c2 & Hc2 & E & _).
  assert (c2 = c') as -> by (unfold red_calls in Hc2; rewrite Hx' in Hc2; congruence).
  split; [unfold red_calls in Hc1; by rewrite Hx1 in Hc1|]. split.
  - eapply (finished_calls _ _ _ _ (ystep_keeps cfg m) fns s0 z (r_result r) i' c1); try done.
    destruct Hs' as [u' Hw]. exists u'. by rewrite <-E.
  - apply Forall_forall. intros r1 Hr'. by eapply (Hst q i' c1 r1).
Qed.
