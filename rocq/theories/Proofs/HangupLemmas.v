(** Invocations whose caller may go away. *)
From Coq Require Import Ascii String ZArith NArith Lia.
From stdpp Require Import prelude strings gmap.
From Verif.Model Require Import GoStrings Types Invoke Hangup.
From Verif.Spec Require Import InvokeSpec HangupSpec.
From Verif.Proofs Require Import InvokeLemmas InvokeMore.

Lemma streamed_grows wait s s' : v_step wait s s' → ∃ l, v_streamed s' = (v_streamed s ++ l)%list.
Proof. intros H. destruct H; cbn; try (exists []; by rewrite app_nil_r). by exists [n]. Qed.

Lemma sends_app wait s s' : v_step wait s s' → v_streamed s' = (v_streamed s ++ sends s s')%list.
Proof. intros H. destruct (streamed_grows _ _ _ H) as [l Hl]. unfold sends. by rewrite Hl, drop_app. Qed.

(** The server does the same, whether the caller is there or not. *)
Lemma hangup_project wait h h' : h_later wait h h' → v_later wait (h_inv h) (h_inv h').
Proof.
  induction 1 as [x|x y z Hs _ IH]; [apply rtc_refl|]. destruct Hs as [s d|s s' gone d Hv]; cbn in *; [done|].
  eapply rtc_l; [exact Hv|exact IH].
Qed.

Lemma hangup_lift_gone wait s s' d : v_later wait s s' → h_later wait (HState s true d) (HState s' true d).
Proof.
  induction 1 as [x|x y z Hs _ IH]; [apply rtc_refl|].
  eapply rtc_l; [apply (H_server _ x y true d Hs)|]. by rewrite app_nil_r.
Qed.

Lemma hangup_lift_here wait s s' : v_later wait s s' →
  h_later wait (HState s false (v_streamed s)) (HState s' false (v_streamed s')).
Proof.
  induction 1 as [x|x y z Hs _ IH]; [apply rtc_refl|].
  eapply rtc_l; [apply (H_server _ x y false _ Hs)|]. by rewrite <-(sends_app _ _ _ Hs).
Qed.

Lemma streamed_later wait s s' : v_later wait s s' → v_streamed s `prefix_of` v_streamed s'.
Proof.
  induction 1 as [x|x y z Hs _ IH]; [done|]. etrans; [|exact IH]. destruct (streamed_grows _ _ _ Hs) as [l Hl]. by exists l.
Qed.

(** What was delivered is the beginning of what was sent, up to the hang-up. *)
Definition h_ok (h : hstate) : Prop :=
  h_delivered h `prefix_of` v_streamed (h_inv h) ∧ (h_gone h = false → h_delivered h = v_streamed (h_inv h)).

Lemma h_ok_reach wait fns ina h : h_later wait (h_init fns ina) h → h_ok h.
Proof.
  revert h. apply (rtc_ind_r h_ok); [by split|]. intros y z _ Hs [H1 H2]. destruct Hs as [s d|s s' gone d Hv]; cbn in *.
  - split; [done|]. done.
  - split; cbn.
    + rewrite (sends_app _ _ _ Hv). destruct gone; [rewrite app_nil_r; by apply prefix_app_r|]. by rewrite (H2 eq_refl).
    + intros ->. cbn. rewrite (sends_app _ _ _ Hv). by rewrite (H2 eq_refl).
Qed.

(** Every run of the server is a run in which the caller left after [s1]. *)
Lemma hangup_at wait fns ina s1 s2 : v_later wait (v_init fns ina) s1 → v_later wait s1 s2 →
  h_later wait (h_init fns ina) (HState s2 true (v_streamed s1)).
Proof.
  intros H1 H2. apply hangup_lift_here in H1.
  eapply rtc_transitive; [exact H1|]. eapply rtc_l; [apply H_hangup|]. by apply hangup_lift_gone.
Qed.

(** And the other way round. *)
Lemma hangup_split wait fns ina h : h_later wait (h_init fns ina) h →
  if h_gone h then ∃ s1, v_later wait (v_init fns ina) s1 ∧ v_later wait s1 (h_inv h) ∧ h_delivered h = v_streamed s1
  else v_later wait (v_init fns ina) (h_inv h) ∧ h_delivered h = v_streamed (h_inv h).
Proof.
  revert h. apply (rtc_ind_r (λ h, if h_gone h then _ else _)); [split; [apply rtc_refl|done]|].
  intros y z _ Hs IH. destruct Hs as [s d|s s' gone d Hv]; cbn in *.
  - destruct IH as [H1 H2]. exists s. split; [done|]. split; [apply rtc_refl|done].
  - destruct gone.
    + destruct IH as (s1 & H1 & H2 & H3). exists s1. split; [done|]. split; [by eapply rtc_r|]. by rewrite app_nil_r.
    + destruct IH as [H1 H2]. split; [by eapply rtc_r|]. by rewrite (sends_app _ _ _ Hv), H2.
Qed.

(** The matches of functions that have finished are all deactivated. *)
Lemma finished_deactivated wait fns ina s n k m id : v_later wait (v_init fns ina) s →
  FnFinished s k → ReceivedAs s n k m → TicketIn m id → (n, id) ∈ v_answered s.
Proof.
  intros H [ty Hk] (g & Hg & Hf & <-) Hid. apply v_inv_reach in H. destruct (vi_gors _ H n g Hg) as (H1 & H2 & _ & st & H4 & _ & H6).
  subst k. rewrite Hk in H4. injection H4 as -> <-. rewrite (H6 eq_refl) in H2. apply H2. by apply (ids_tickets _ _ H1).
Qed.

(** Deactivations are only of tickets of received matches. *)
Definition own (s : istate) (l : list (nat * string)) : Prop :=
  ∀ n id, (n, id) ∈ l → ∃ g, v_gors s !! n = Some g ∧ id ∈ g_ids g.
Definition o_inv (s : istate) : Prop := own s (v_pending s ++ v_answered s)%list.

Lemma own_gors s n g p l : v_gors s !! n = Some g → own s l → own (set_gor s n g p) l.
Proof.
  intros Hg H n' id' Hx. destruct (H n' id' Hx) as (g' & Hg' & Hid). cbn. destruct (decide (n = n')) as [<-|Hne].
  - rewrite Hg in Hg'. injection Hg' as <-. exists (set_phase g p). split; [|done]. apply list_lookup_insert. by eapply lookup_lt_Some.
  - exists g'. by rewrite list_lookup_insert_ne.
Qed.

Lemma o_inv_reach wait fns ina s : v_later wait (v_init fns ina) s → o_inv s.
Proof.
  intros H. enough (v_inv s ∧ o_inv s) by tauto. revert s H.
  apply (rtc_ind_r (λ s, v_inv s ∧ o_inv s)).
  { split; [apply v_inv_init|]. intros n id Hx. by apply elem_of_nil in Hx. }
  intros s s' _ Hs [Hi Ho]. split; [by eapply v_inv_step|]. unfold o_inv in *.
  destruct Hs as
    [ina' s E|ty rest s E Hm|s E Hm|k s E Hk|k s E Hk|k s E Hk|k i m ids s E Hk Hids|k i s E Hk|k i s E Hk
    |k s E Hk Hall|n g id rest s E Hg Hp|n id l1 l2 s E Hpe|n g s E Hg Hp Hnp|n g s E Hg Hp Hids|n g s E Hg Hp Hids
    |n g s E Hg Hp Hf|n g s E Hg Hp Hf|n g s E Hg Hp Hids|n s E Hf Hm|n e s E Hf Hm|s E Hm Hall|s E Hf Hm|s E Hm];
    try exact Ho; try exact (own_gors s n g _ _ Hg Ho).
  - intros n id Hx. destruct (Ho n id Hx) as (g & Hg & Hid). exists g. split; [|done]. cbn. by apply lookup_app_l_Some.
  - apply (own_gors s n g (GRequest rest) _ Hg). intros n' id' Hx. cbn in Hx. rewrite !elem_of_app, elem_of_list_singleton in Hx.
    destruct Hx as [[Hx|[= -> ->]]|Hx]; [apply Ho, elem_of_app; by left| |apply Ho, elem_of_app; by right].
    exists g. split; [done|]. destruct (vi_gors s Hi n g Hg) as (_ & H2 & _). rewrite Hp in H2. destruct H2 as (dn & -> & _).
    apply elem_of_app. right. left.
  - intros n' id' Hx. apply Ho. cbn in Hx. rewrite Hpe. rewrite !elem_of_app, !elem_of_cons, elem_of_nil in *. tauto.
Qed.

Lemma told_if_staying wait fns ina h : h_later wait (h_init fns ina) h → h_gone h = false →
  AllFinished (h_inv h) → v_returned (h_inv h) → v_lost (h_inv h) = [] → (∀ n, v_fan (h_inv h) ≠ FanSending n) →
  ∀ id, DeactivatedBy (h_inv h) id → ToldAbout h id.
Proof.
  intros H Hg Ha _ Hl Hf id [n Hn]. destruct (h_ok_reach _ _ _ _ H) as [_ Hd]. specialize (Hd Hg).
  apply hangup_project in H. destruct h as [s gone d]. cbn in *. clear Hg.
  destruct (o_inv_reach _ _ _ _ H n id) as (g & Hgn & Hid); [apply elem_of_app; by right|].
  apply v_inv_reach in H. destruct (vi_gors s H n g Hgn) as (H1 & _ & H3 & st & H4 & _ & H6).
  destruct (Ha (g_fn g)) as [ty Hty]; [by eapply lookup_lt_Some|]. rewrite H4 in Hty. injection Hty as <- ->.
  assert (n ∈ handed s) as Hh by (apply H3; right; by apply H6).
  unfold handed in Hh. rewrite Hl in Hh. assert (fan_list (v_fan s) = []) as E.
  { destruct (v_fan s) as [|n'|]; try done. by destruct (Hf n'). }
  rewrite E, !app_nil_r in Hh. rewrite <-Hd in Hh. exists n, (g_fn g), (g_match g). cbn. split; [exact Hh|].
  split; [exists g; done|]. by apply (ids_tickets _ _ H1).
Qed.
