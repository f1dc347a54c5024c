(** Assignments: calls and their updates, histories, and watches alongside a
    server. *)
From Coq Require Import Ascii String ZArith NArith Lia.
From stdpp Require Import prelude strings gmap relations.
From Verif.Model Require Import GoStrings Types Wire Proto Cache Replica Handlers MemRepl System ParseBase0 Watch WatchSystem.
From Verif.Spec Require Import CacheSpec SystemSpec WatchSpec AssignSpec.
From Verif.Proofs Require Import ProtoLemmas HistoryLemmas WatchLemmas.
Local Open Scope nat_scope.

(** ** Calls *)
Lemma assign_call_value cl a k u : AssignCall cl a k → u ∈ cl_ups cl →
  u_cmd u = CmdAssign ∧ unmarshal_assignment (u_value u) = a.
Proof.
  intros (oe & r & v & Ea & Ho & Hm & Hs & Hc & _) Hu. unfold create_assignments_start in Hc. rewrite Ea, Hm in Hc.
  injection Hc as Hc. rewrite <-Hc in Hu. unfold assign_updates in Hu. apply elem_of_list_fmap in Hu as (t & -> & _). simpl.
  split; [done|]. by eapply rt_assignment.
Qed.

Lemma assign_call_update cl a k : AssignCall cl a k →
  ∃ v, Update CmdAssign k v ∈ cl_ups cl ∧ unmarshal_assignment v = a.
Proof.
  intros (oe & r & v & Ea & Ho & Hm & Hs & Hc & Hk & Hin). exists v. split; [|by eapply rt_assignment].
  unfold create_assignments_start in Hc. rewrite Ea, Hm in Hc. injection Hc as Hc. rewrite <-Hc.
  apply elem_of_list_fmap in Hin as (t & -> & Ht). unfold assign_updates.
  apply elem_of_list_fmap. exists t. split; [done|]. by apply elem_of_list_filter.
Qed.

Lemma assign_update_call {S} (x : inst S) cl k v : ValidAssigns x → cl ∈ in_calls x → Update CmdAssign k v ∈ cl_ups cl →
  AssignCall cl (unmarshal_assignment v) k.
Proof.
  intros Hv Hcl Hu. destruct (Hv cl _ Hcl Hu eq_refl) as [a Ha]. simpl in Ha.
  destruct (assign_call_value _ _ _ _ Ha Hu) as [_ E]. simpl in E. by rewrite E.
Qed.

Lemma assign_call_ups cl cl' a k : cl_ups cl' = cl_ups cl → AssignCall cl a k → AssignCall cl' a k.
Proof. intros E (oe & r & v & H). exists oe, r, v. by rewrite E. Qed.

(** ** Histories *)
Lemma assigns_for_elem k v us : v ∈ assigns_for k us ↔ Update CmdAssign k v ∈ us.
Proof.
  unfold assigns_for. rewrite elem_of_list_omap. split.
  - intros ([cm key w] & Hu & E). destruct cm; simpl in E; try done.
    destruct (decide (key = k)) as [->|]; [|done]. by injection E as ->.
  - intros Hu. eexists. split; [exact Hu|]. simpl. by rewrite decide_True.
Qed.

(** All assignments of [k] after [h1] are [b], and there is one. *)
Lemma assigned_at_the_end cfg es h1 h2 k b :
  hev_updates es = h1 ++ h2 →
  (∃ v, Update CmdAssign k v ∈ h2) →
  (∀ v, Update CmdAssign k v ∈ h2 → unmarshal_assignment v = b) →
  (∀ x, x ∈ hev_visits es → ¬ OlderThan (cfg_ticket_ttl cfg + cfg_assign_ttl cfg) x.2 k) →
  c_assign (hev_run cfg empty_cache es) !! k = Some b.
Proof.
  intros E [v0 Hv0] Hall Hvis.
  destruct (last (assigns_for k h2)) as [v|] eqn:El.
  - rewrite (run_assign_kept cfg es k v); [|done|].
    + f_equal. apply Hall, assigns_for_elem. by apply last_Some_elem_of.
    + rewrite E, assigns_for_app, last_app, El. done.
  - apply last_None in El. apply assigns_for_elem in Hv0. rewrite El in Hv0. by apply elem_of_nil in Hv0.
Qed.

(** ** A watch alongside a server *)
Section along.
Context {St : Type} (step : St → St → Prop) (assignments : St → gmap string assignment).
Context (ttl : Z) (ids : list string).
Notation along := (along step assignments ttl ids).

(** Every step is one of the watch with an arbitrary environment. *)
Lemma along_step p p' : along p p' → w_later ttl ids p.2 p'.2.
Proof.
  destruct 1 as [s s' w E H|s asg w E H|s w w' H _]; simpl.
  - apply rtc_once. unfold sees. rewrite E. by apply W_env.
  - apply rtc_once. unfold sees. rewrite E. by apply W_env.
  - by apply rtc_once.
Qed.
Lemma along_later p p' : rtc along p p' → w_later ttl ids p.2 p'.2.
Proof.
  induction 1 as [p|p1 p2 p3 H _ IH]; [by apply rtc_refl|]. eapply rtc_transitive; [by eapply along_step|done].
Qed.
Lemma along_server p p' : rtc along p p' → rtc step p.1 p'.1.
Proof.
  induction 1 as [p|p1 p2 p3 H _ IH]; [by apply rtc_refl|]. destruct H; simpl in *; [by eapply rtc_l|done|done].
Qed.

(** What the watch finds, holds and has sent is justified by the server. *)
Context (P : St → string → assignment → Prop).
Definition justified (p : St * wstate) : Prop :=
  (∀ k a, w_assignments p.2 !! k = Some a → P p.1 k a) ∧
  (∀ j k a, w_pollers p.2 !! j = Some (k, Sending a) → P p.1 k a) ∧
  (∀ k a, (k, a) ∈ w_sent p.2 → P p.1 k a).

Lemma justified_step p p' :
  (∀ k a, assignments p.1 !! k = Some a → P p.1 k a) →
  (∀ s', step p.1 s' → (∀ k a, assignments s' !! k = Some a → P s' k a) ∧ ∀ k a, P p.1 k a → P s' k a) →
  justified p → along p p' → justified p'.
Proof.
  intros Hs Hstep (J1 & J2 & J3) H.
  destruct H as [s s' w E H|s asg w E Hsub|s w w' H Heq]; simpl in *.
  - destruct (Hstep _ H) as [Ha Hm]. split_and!; simpl; eauto.
  - split_and!; simpl; eauto. intros k a Hk. apply Hs. by eapply lookup_weaken.
  - split_and!; simpl.
    + by rewrite Heq.
    + destruct H as
        [d w E Hd|asg w E|id rest newest w E Hl|newest w E Hl|j id a w E Hj Ha|i dl j id a w E Hr Hi Hj
        |i dl w E Hr Hi|i dl w E Hr Hi Hdl|b j id a w E Hr Hj]; simpl in *; try done.
      * intros j' id' a' Hj'. apply lookup_app_Some in Hj' as [Hj'|[_ Hj']]; [by eapply J2|].
        destruct (j' - length (w_pollers w)); done.
      * intros j' id' a' Hj'. apply insert_lookup_inv in Hj' as [Hj'|Hj']; [|by eapply J2].
        injection Hj' as -> ->. by apply J1.
      * intros j' id' a' Hj'. apply insert_lookup_inv in Hj' as [Hj'|Hj']; [done|by eapply J2].
    + destruct H as
        [d w E Hd|asg w E|id rest newest w E Hl|newest w E Hl|j id a w E Hj Ha|i dl j id a w E Hr Hi Hj
        |i dl w E Hr Hi|i dl w E Hr Hi Hdl|b j id a w E Hr Hj]; simpl in *; try done.
      intros id' a' Hi'. apply elem_of_app in Hi' as [Hi'|Hi']; [by apply J3|].
      apply elem_of_list_singleton in Hi'. injection Hi' as -> ->. by eapply J2.
Qed.

Lemma justified_later (I : St → Prop) p p' :
  (∀ s s', I s → step s s' → I s') →
  (∀ s, I s → ∀ k a, assignments s !! k = Some a → P s k a) →
  (∀ s s', I s → step s s' → ∀ k a, P s k a → P s' k a) →
  I p.1 → justified p → rtc along p p' → justified p'.
Proof.
  intros HI HA HM Hp HJ H. induction H as [p|p1 p2 p3 H12 _ IH]; [done|]. apply IH.
  - destruct H12; simpl in *; eauto.
  - eapply justified_step; [by apply HA| |done|done]. intros s' Hs. split; [by eapply HA, HI|]. by eapply HM.
Qed.

Lemma justified_init s now asg g :
  (∀ k a, assignments s !! k = Some a → P s k a) → asg ⊆ assignments s → justified (s, w_init ids now asg g).
Proof.
  intros H Hs. split_and!; simpl.
  - intros k a Hk. apply H. by eapply lookup_weaken.
  - done.
  - intros k a Hk. by apply elem_of_nil in Hk.
Qed.
End along.

(** ** A watch whose ids have all been assigned can end *)
Definition quiet ttl ids (a b : wstate) : Prop :=
  w_step ttl ids a b ∧ w_assignments b = w_assignments a ∧ w_clock b = w_clock a.

Lemma quiet_later ttl ids a b : rtc (quiet ttl ids) a b → w_later ttl ids a b ∧ w_assignments b = w_assignments a ∧ w_clock b = w_clock a.
Proof.
  induction 1 as [a|a b c (H1 & H2 & H3) _ (I1 & I2 & I3)]; [split; [apply rtc_refl|done]|].
  split; [by eapply rtc_l|]. by rewrite I2, I3.
Qed.

Lemma launch_all ttl ids rest : ∀ w newest, w_panic w = false → w_handler w = Launching rest newest →
  ∃ w', rtc (quiet ttl ids) w w' ∧ w_panic w' = false ∧ ∃ dl, w_handler w' = Receiving 0 dl.
Proof.
  induction rest as [|id rest IH]; intros w newest Hp Hh.
  - eexists. split; [apply rtc_once; split; [by eapply W_begin|done]|]. simpl. eauto.
  - edestruct (IH (WState (w_clock w) (w_assignments w) (Launching rest (newer newest (unix_time (id_time0 id))))
         (w_pollers w ++ [(id, Polling)]) (w_sent w) (w_gauge w) false)) as (w' & H1 & H2 & H3); [done|done|].
    exists w'. split; [|done]. eapply rtc_l; [|exact H1]. split; [by eapply W_launch|done].
Qed.

Lemma receive_all ttl ids g now n : ∀ w i dl,
  w_inv ttl ids g now w → w_panic w = false → w_handler w = Receiving i dl → length ids = n + i →
  (∀ id, id ∈ ids → is_Some (w_assignments w !! id)) →
  ∃ w', rtc (quiet ttl ids) w w' ∧ w_panic w' = false ∧ w_handler w' = Returned false.
Proof.
  induction n as [|n IH]; intros w i dl HI Hp Hh Hn Hall.
  - eexists. split; [apply rtc_once; split; [eapply (W_return _ _ i dl); [done|done|lia]|done]|]. done.
  - destruct HI as (Hc & Hin & Hpm & Hx). pose proof Hin as Hin'. unfold handler_inv in Hin'. rewrite Hh in Hin'.
    destruct Hin' as (H1 & H2 & H3 & _).
    destruct (unfinished (w_pollers w)) as [|k l] eqn:Eu.
    { rewrite app_nil_r in Hpm. apply Permutation_length in Hpm. rewrite H1, fmap_length in Hpm. lia. }
    assert (k ∈ unfinished (w_pollers w)) as Hk by (rewrite Eu; left).
    apply elem_of_list_omap in Hk as ([id p] & Hj & Hpk). apply elem_of_list_lookup in Hj as [j Hj].
    assert (Hid : id ∈ ids).
    { rewrite <-H1. apply elem_of_list_fmap. exists (id, p). split; [done|]. by eapply elem_of_list_lookup_2. }
    destruct (Hall id Hid) as [a Ha].
    assert (Hstep : ∃ w1 b, rtc (quiet ttl ids) w w1 ∧ w_panic w1 = false ∧ w_handler w1 = Receiving i dl ∧
       w_pollers w1 !! j = Some (id, Sending b) ∧ w_inv ttl ids g now w1 ∧ w_assignments w1 = w_assignments w).
    { destruct p as [|b|]; [| |done].
      - eexists _, a. split; [apply rtc_once; split; [by eapply W_load|done]|]. simpl. split; [done|]. split; [done|].
        split; [apply list_lookup_insert; by eapply lookup_lt_Some|]. split; [|done].
        eapply (w_inv_step ttl ids g now w); [|by eapply W_load]. rewrite <-Eu in Hpm. by split.
      - exists w, b. split; [apply rtc_refl|]. rewrite <-Eu in Hpm. do 4 (split; [done|]). done. }
    destruct Hstep as (w1 & b & Hr & Hp1 & Hh1 & Hj1 & HI1 & Ha1).
    assert (Hi : (i < length ids)) by lia.
    pose proof (W_recv ttl ids i dl j id b w1 Hp1 Hh1 Hi Hj1) as Hs.
    match type of Hs with w_step _ _ _ ?w2 => destruct (IH w2 (S i) dl) as (w' & R1 & R2 & R3) end.
    + by eapply w_inv_step.
    + done.
    + done.
    + lia.
    + simpl. by rewrite Ha1.
    + exists w'. split; [|done]. eapply rtc_transitive; [exact Hr|]. eapply rtc_l; [|exact R1]. by split.
Qed.

Lemma watch_can_end ttl ids now asg g w :
  w_later ttl ids (w_init ids now asg g) w → ¬ w_timed_out w →
  (∀ id, id ∈ ids → is_Some (w_assignments w !! id)) →
  ∃ w', rtc (quiet ttl ids) w w' ∧ w_panic w' = false ∧ w_handler w' = Returned false ∧ (w_sent w').*1 ≡ₚ ids.
Proof.
  intros Hw Ht Hall. pose proof (w_inv_reach ttl ids g now asg w Hw) as HI.
  assert (Hp : w_panic w = false).
  { destruct (w_panic w) eqn:E; [|done]. destruct HI as (_ & _ & _ & Hx). by destruct (Ht (Hx E)). }
  assert (H : ∃ w', rtc (quiet ttl ids) w w' ∧ w_panic w' = false ∧ w_handler w' = Returned false).
  { destruct (w_handler w) as [rest newest|i dl|[]] eqn:Eh; [| |done|].
    - destruct (launch_all ttl ids rest w newest Hp Eh) as (w1 & Hr & Hp1 & dl & Hh1).
      destruct (quiet_later _ _ _ _ Hr) as (Hl & Ha & _).
      assert (HI1 : w_inv ttl ids g now w1) by (eapply (w_inv_reach ttl ids g now asg); by eapply rtc_transitive).
      destruct (receive_all ttl ids g now (length ids) w1 0 dl HI1 Hp1 Hh1) as (w' & R1 & R2 & R3).
      + lia.
      + by rewrite Ha.
      + exists w'. split; [|done]. by eapply rtc_transitive.
    - assert (i <= length ids). { destruct HI as (_ & Hh & _). unfold handler_inv in Hh. rewrite Eh in Hh. by apply Hh. }
      eapply (receive_all ttl ids g now (length ids - i) w i dl); try done. lia.
    - exists w. split; [apply rtc_refl|done]. }
  destruct H as (w' & H1 & H2 & H3). exists w'. split_and!; try done.
  destruct (quiet_later _ _ _ _ H1) as (Hl & _). apply (watch_answers ttl ids now asg g w'); [|done]. by eapply rtc_transitive.
Qed.

Lemma quiet_along {St} (step : St → St → Prop) assignments ttl ids s a b :
  rtc (quiet ttl ids) a b → rtc (along step assignments ttl ids) (s, a) (s, b).
Proof.
  induction 1 as [a|a b c (H1 & H2 & _) _ IH]; [apply rtc_refl|]. eapply rtc_l; [|exact IH]. by apply AL_watch.
Qed.

(** All watched ids have assignments in the server. *)
Lemma along_can_end {St} (step : St → St → Prop) assignments ttl ids s0 now asg g s w :
  rtc (along step assignments ttl ids) (s0, w_init ids now asg g) (s, w) → ¬ w_timed_out w →
  (∀ id, id ∈ ids → is_Some (assignments s !! id)) →
  ∃ w', rtc (along step assignments ttl ids) (s, w) (s, w') ∧ w_clock w' = w_clock w ∧
    w_handler w' = Returned false ∧ (w_sent w').*1 ≡ₚ ids.
Proof.
  intros Hal Ht Hall. pose proof (along_later step assignments ttl ids _ _ Hal) as Hl. simpl in Hl.
  assert (Hp : w_panic w = false).
  { destruct (w_panic w) eqn:E; [|done]. by destruct (Ht (panic_only_after_timeout ttl ids now asg g w Hl E)). }
  assert (Hs : along step assignments ttl ids (s, w) (s, sees (assignments s) w)) by (by apply AL_part).
  assert (Hl2 : w_later ttl ids (w_init ids now asg g) (sees (assignments s) w)).
  { eapply rtc_transitive; [exact Hl|]. exact (along_step step assignments ttl ids _ _ Hs). }
  destruct (watch_can_end ttl ids now asg g _ Hl2 Ht Hall) as (w' & Hq & _ & Hr & Hsent).
  exists w'. split; [|destruct (quiet_later _ _ _ _ Hq) as (_ & _ & Hc); done].
  eapply rtc_l; [exact Hs|]. by apply quiet_along.
Qed.
