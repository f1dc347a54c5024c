(** Invocations alongside the server they run in: projections, and which calls the
    streamed matches have behind them. *)
From Coq Require Import Ascii String ZArith NArith Lia.
From stdpp Require Import prelude strings gmap relations.
From Verif.Model Require Import GoStrings Types Cache Handlers Queues System RedisSystem Invoke InvokeSystem.
From Verif.Spec Require Import InvokeSpec StateSpec.
From Verif.Proofs Require Import InvokeLemmas InvokeMore.
Local Open Scope nat_scope.

(** ** Calls of a server *)
Definition keeps_calls (cs cs' : list call) : Prop :=
  ∀ i c, cs !! i = Some c → ∃ c', cs' !! i = Some c' ∧ cl_ups c' = cl_ups c ∧ (returned c → returned c').

Lemma keeps_refl cs : keeps_calls cs cs.
Proof. intros i c H. by exists c. Qed.
Lemma keeps_trans a b c : keeps_calls a b → keeps_calls b c → keeps_calls a c.
Proof.
  intros H1 H2 i x Hx. destruct (H1 i x Hx) as (y & Hy & E1 & R1). destruct (H2 i y Hy) as (z & Hz & E2 & R2).
  exists z. split; [done|]. split; [congruence|tauto].
Qed.
Lemma keeps_insert cs j c c' : cs !! j = Some c → cl_ups c' = cl_ups c → ¬ returned c → keeps_calls cs (<[j := c']> cs).
Proof.
  intros Hj E Hn i x Hx. destruct (decide (j = i)) as [->|Hne].
  - rewrite Hj in Hx. injection Hx as <-. exists c'. split; [|by split].
    apply list_lookup_insert. by eapply lookup_lt_Some.
  - exists x. by rewrite list_lookup_insert_ne.
Qed.
Lemma lstep_keeps {S} cfg (begin : list request → S) x x' : lstep cfg begin x x' → keeps_calls (in_calls x) (in_calls x').
Proof.
  destruct 1; cbn [in_calls]; try apply keeps_refl.
  - intros j c' Hc. exists c'. split; [by apply lookup_app_l_Some|done].
  - eapply keeps_insert; [eassumption|done|]. intros [Hr _].
    match goal with H : cl_ups _ !! _ = Some _ |- _ => apply lookup_lt_Some in H end. lia.
  - eapply keeps_insert; [eassumption|done|]. intros [_ Hr].
    match goal with H : waiting _ |- _ => destruct H end. lia.
  - by eapply keeps_insert.
  - eapply keeps_insert; [eassumption|done|]. intros [_ Hr].
    match goal with H : waiting _ |- _ => destruct H end. lia.
Qed.
Lemma mstep_keeps cfg s s' : mstep cfg s s' → keeps_calls (mem_calls s) (mem_calls s').
Proof. unfold mem_calls. destruct 1; cbn [ms_inst in_calls]; try apply keeps_refl. by eapply lstep_keeps. Qed.
Lemma ystep_keeps cfg w s s' : ystep cfg s s' → keeps_calls (red_calls w s) (red_calls w s').
Proof.
  assert (Hins : ∀ (xs : list rinst) n x x', xs !! n = Some x → keeps_calls (in_calls (rx_inst x)) (in_calls (rx_inst x')) →
    keeps_calls (match xs !! w with Some x => in_calls (rx_inst x) | None => [] end)
                (match <[n := x']> xs !! w with Some x => in_calls (rx_inst x) | None => [] end)).
  { intros xs n x x' Hn Hk. destruct (decide (n = w)) as [<-|Hne].
    - rewrite Hn, list_lookup_insert by (by eapply lookup_lt_Some). done.
    - rewrite list_lookup_insert_ne by done. apply keeps_refl. }
  unfold red_calls. destruct 1; cbn [ry_insts]; try apply keeps_refl;
    try (eapply Hins; [eassumption|]; cbn; try apply keeps_refl; try (by eapply lstep_keeps);
         unfold poll_redis, finish_send; repeat case_match; apply keeps_refl).
  intros i c Hc. destruct (xs !! w) as [x|] eqn:Ew; [|done]. rewrite (lookup_app_l_Some _ _ _ _ Ew). by exists c.
Qed.

(** ** What the steps of an invocation keep *)
Lemma v_step_gors wait v v' n g : v_step wait v v' → length (v_gors v') = length (v_gors v) → v_gors v !! n = Some g →
  ∃ p, v_gors v' !! n = Some (set_phase g p).
Proof.
  intros H Hl Hg. assert (Hsame : ∃ p, v_gors v !! n = Some (set_phase g p)) by (exists (g_phase_of g); by destruct g).
  assert (Hset : ∀ m g0 p, v_gors v !! m = Some g0 → ∃ q, <[m := set_phase g0 p]> (v_gors v) !! n = Some (set_phase g q)).
  { intros m g0 p Hm. destruct (decide (m = n)) as [->|Hne].
    - rewrite Hg in Hm. injection Hm as <-. exists p. apply list_lookup_insert. by eapply lookup_lt_Some.
    - rewrite list_lookup_insert_ne by done. exact Hsame. }
  destruct H; cbn in *; eauto.
  rewrite app_length in Hl. simpl in Hl. lia.
Qed.

Section alongside.
Context {St : Type} (step : St → St → Prop) (calls : St → list call) (inactive : St → gset string) (wait : bool).
Context (Hkeep : ∀ s s', step s s' → keeps_calls (calls s) (calls s')).

Record is_inv_ok (z : isys St) : Prop := {
  io_pending : v_pending (is_inv z) = [];
  io_length : length (is_calls z) = length (v_gors (is_inv z));
  io_call : ∀ n g, v_gors (is_inv z) !! n = Some g → ∃ j c, is_calls z !! n = Some j ∧
    calls (is_server z) !! j = Some c ∧ cl_ups c = state_updates CmdDeactivate (g_ids g);
  io_answered : ∀ n id, (n, id) ∈ v_answered (is_inv z) → ∃ j c, is_calls z !! n = Some j ∧
    calls (is_server z) !! j = Some c ∧ returned c;
}.

Lemma is_init_ok fns s : is_inv_ok (is_init inactive fns s).
Proof. split; cbn; [done|done|done|]. intros n id H. by apply elem_of_nil in H. Qed.

Lemma is_step_ok z z' : is_step step calls inactive wait z z' → is_inv_ok z → is_inv_ok z'.
Proof.
  intros H [H1 H2 H3 H4]. destruct H as [s s' v cs Hp Hs|s v v' cs Hv Hl Ep Ea _|s s' v k i m ids cs Hp Hk Hm Hs Hc|s v cs n g rest j c Hp Hg Hph Hj Hc Hr]; cbn in *.
  - split; cbn; [done|done| |].
    + intros n g Hg. destruct (H3 n g Hg) as (j & c & Hj & Hc & E). destruct (Hkeep s s' Hs j c Hc) as (c' & Hc' & E' & _).
      exists j, c'. split; [done|]. split; [done|congruence].
    + intros n id Hn. destruct (H4 n id Hn) as (j & c & Hj & Hc & E). destruct (Hkeep s s' Hs j c Hc) as (c' & Hc' & _ & R).
      exists j, c'. auto.
  - split; cbn; [congruence|congruence| |].
    + intros n g' Hg'. assert (is_Some (v_gors v !! n)) as [g Hg] by (apply lookup_lt_is_Some; rewrite <-Hl; by eapply lookup_lt_Some).
      destruct (v_step_gors wait v v' n g Hv Hl Hg) as [p Ep']. rewrite Ep' in Hg'. injection Hg' as <-.
      destruct (H3 n g Hg) as (j & c & Hj & Hc & E). by exists j, c.
    + rewrite Ea. exact H4.
  - assert (Hlen : ∀ n x, cs !! n = Some x → (cs ++ [length (calls s)]) !! n = Some x) by (intros; by apply lookup_app_l_Some).
    split; cbn; [done|rewrite !app_length, H2; done| |].
    + intros n g Hg. apply lookup_snoc_inv in Hg as [Hg|[-> ->]].
      * destruct (H3 n g Hg) as (j & c & Hj & Hc' & E). destruct (Hkeep s s' Hs j c Hc') as (c' & Hc2 & E' & _).
        exists j, c'. split; [by apply Hlen|]. split; [done|congruence].
      * exists (length (calls s)), (match_call ids). split.
        -- rewrite <-H2. by apply list_lookup_middle.
        -- split; [|done]. rewrite Hc. by apply list_lookup_middle.
    + intros n id Hn. destruct (H4 n id Hn) as (j & c & Hj & Hc' & E). destruct (Hkeep s s' Hs j c Hc') as (c' & Hc2 & _ & R).
      exists j, c'. auto.
  - split; cbn; [done|by rewrite insert_length| |].
    + intros m g' Hg'. apply insert_inv in Hg' as [(<- & -> & _)|[_ Hg']]; [|by apply H3].
      destruct (H3 n g Hg) as (j' & c' & Hj' & Hc' & E). by exists j', c'.
    + intros m id Hm. apply elem_of_app in Hm as [Hm|Hm]; [by apply (H4 m id)|].
      apply elem_of_list_fmap in Hm as (id' & [= -> ->] & _). by exists j, c.
Qed.

Lemma is_rtc_ok z z' : rtc (is_step step calls inactive wait) z z' → is_inv_ok z → is_inv_ok z'.
Proof. induction 1; eauto using is_step_ok. Qed.

(** The server alone, and the invocation alone, do what their models allow. *)
Lemma is_server_runs z z' : rtc (is_step step calls inactive wait) z z' → rtc step (is_server z) (is_server z').
Proof.
  induction 1 as [|x y z H _ IH]; [done|]. destruct H; cbn in *; try exact IH; by eapply rtc_l.
Qed.

Lemma answer_all v n g rest : v_panic v = false → v_pending v = [] → v_gors v !! n = Some g → g_phase_of g = GRequest rest →
  v_later wait v (with_answered (set_gor v n g (GRequest [])) (v_answered v ++ map (λ id, (n, id)) rest)).
Proof.
  revert v g. induction rest as [|id rest IH]; intros v g Hp Hpd Hg Hph.
  - cbn. rewrite app_nil_r. unfold set_gor.
    replace (<[n := set_phase g (GRequest [])]> (v_gors v)) with (v_gors v).
    + destruct v. apply rtc_refl.
    + symmetry. apply list_insert_id. rewrite Hg. f_equal. destruct g. cbn in *. by rewrite Hph.
  - eapply rtc_l; [by eapply (V_request _ n g id rest)|].
    eapply rtc_l; [eapply (V_answer _ n id [] []); [exact Hp|cbn; by rewrite Hpd]|].
    match goal with |- rtc _ ?x _ => set (v1 := x) end.
    assert (Hg1 : v_gors v1 !! n = Some (set_phase g (GRequest rest))).
    { apply list_lookup_insert. by eapply lookup_lt_Some. }
    assert (HH := IH v1 (set_phase g (GRequest rest)) Hp eq_refl Hg1 eq_refl).
    refine (eq_rect _ (λ x, rtc (v_step wait) v1 x) HH _ _). unfold v1, with_answered, with_pending, set_gor, with_gors, set_phase. cbn.
    rewrite list_insert_insert, Hpd, <-app_assoc. done.
Qed.

Lemma is_inv_runs z z' : rtc (is_step step calls inactive wait) z z' → is_inv_ok z →
  v_later wait (is_inv z) (is_inv z').
Proof.
  induction 1 as [|x y z H _ IH]; intros Hok; [by apply rtc_refl|].
  assert (Hok' := is_step_ok x y H Hok). eapply rtc_transitive; [|exact (IH Hok')]. clear IH.
  destruct H as [s s' v cs Hp Hs|s v v' cs Hv Hl Ep Ea _|s s' v k i m ids cs Hp Hk Hm Hs Hc|s v cs n g rest j c Hp Hg Hph Hj Hc Hr]; cbn in *.
  - apply rtc_once. by apply V_env.
  - by apply rtc_once.
  - eapply rtc_l; [by eapply (V_recv _ k i m ids)|]. apply rtc_once. by apply V_env.
  - apply answer_all; [done| |done|done]. exact (io_pending _ Hok).
Qed.

(** Goroutines keep their call, and later ones have later calls. *)
Lemma is_calls_grow z z' : rtc (is_step step calls inactive wait) z z' → is_inv_ok z →
  (∃ l, is_calls z' = is_calls z ++ l) ∧
  length (calls (is_server z)) <= length (calls (is_server z')) ∧
  ∀ n j, is_calls z' !! n = Some j → length (v_gors (is_inv z)) <= n → length (calls (is_server z)) <= j.
Proof.
  assert (Hlen : ∀ s s', step s s' → length (calls s) <= length (calls s')).
  { intros s s' Hs. destruct (decide (length (calls s) <= length (calls s'))) as [|Hn]; [done|].
    assert (is_Some (calls s !! length (calls s'))) as [c Hc] by (apply lookup_lt_is_Some; lia).
    destruct (Hkeep s s' Hs _ c Hc) as (c' & Hc' & _). apply lookup_lt_Some in Hc'. lia. }
  intros H Hok. revert z' H. refine (rtc_ind_r _ _ _ _).
  - split; [exists []; by rewrite app_nil_r|]. split; [done|]. intros n j Hj Hn. apply lookup_lt_Some in Hj.
    rewrite (io_length z Hok) in Hj. lia.
  - intros y z' Hy Hstep ([l El] & IH2 & IH3). destruct Hstep; cbn in *.
    + split; [by exists l|]. split; [etrans; [exact IH2|by apply Hlen]|exact IH3].
    + split; [by exists l|]. by split.
    + split; [exists (l ++ [length (calls s)]); by rewrite El, <-app_assoc|]. split; [etrans; [exact IH2|by apply Hlen]|].
      intros n j Hj Hn. apply lookup_snoc_inv in Hj as [Hj|[_ ->]]; [by eapply IH3|done].
    + split; [by exists l|]. by split.
Qed.

(** A match that was received after [z1] and has been streamed by [z2]: its
    deactivation is a call begun after [z1] and returned by [z2]. *)
Lemma streamed_call z0 z1 z2 fns s0 n k m id :
  z0 = is_init inactive fns s0 →
  rtc (is_step step calls inactive wait) z0 z1 → rtc (is_step step calls inactive wait) z1 z2 →
  length (v_gors (is_inv z1)) <= n → n ∈ v_streamed (is_inv z2) → ReceivedAs (is_inv z2) n k m → TicketIn m id →
  ∃ j c, is_calls z2 !! n = Some j ∧ length (calls (is_server z1)) <= j ∧
    calls (is_server z2) !! j = Some c ∧ SetsState c id false ∧ returned c.
Proof.
  intros -> H01 H12 Hn Hst Hrec Hin.
  assert (Hok1 := is_rtc_ok _ _ H01 (is_init_ok fns s0)). assert (Hok2 := is_rtc_ok _ _ H12 Hok1).
  assert (Hv : v_later wait (v_init fns (inactive s0)) (is_inv z2)).
  { exact (is_inv_runs _ _ (rtc_transitive _ _ _ H01 H12) (is_init_ok fns s0)). }
  destruct (relayed _ _ _ _ Hv) as [_ Hr]. destruct (Hr n Hst) as (k' & m' & (g' & Hg' & _ & Em') & Ha).
  destruct Hrec as (g & Hg & _ & Em). rewrite Hg in Hg'. injection Hg' as <-. subst m' m.
  destruct (io_answered _ Hok2 _ _ (Ha id Hin)) as (j & c & Hj & Hc & Hret).
  destruct (io_call _ Hok2 n g Hg) as (j' & c' & Hj' & Hc' & E). rewrite Hj in Hj'. injection Hj' as <-.
  rewrite Hc in Hc'. injection Hc' as <-.
  exists j, c. split; [done|]. split.
  { destruct (is_calls_grow _ _ H12 Hok1) as (_ & _ & Hg2). by eapply Hg2. }
  split; [done|]. split; [|done].
  destruct (vi_gors _ (v_inv_reach _ _ _ _ Hv) n g Hg) as [Hids _].
  apply (ids_tickets _ _ Hids) in Hin. exists ""%string. rewrite E. apply elem_of_list_fmap. by exists id.
Qed.
End alongside.
