(** Lemmas for C129. *)
From Coq Require Import Ascii String ZArith NArith Lia.
From stdpp Require Import prelude strings gmap relations.
From Verif.Model Require Import GoStrings Types Cache Replica Handlers System Watch Gone.
From Verif.Spec Require Import SystemSpec FairSpec WatchSpec GoneSpec.
From Verif.Proofs Require Import MemSystemLemmas MemSystemMore WatchLemmas FairLemmas FairMem.
Local Open Scope nat_scope.

(** ** Nothing changes *)
Lemma gone_project {St} (step : St → St → Prop) x y : g_later step x y → rtc step x.1 y.1 ∧ x.2 ⊆ y.2.
Proof.
  unfold g_later. revert y. apply (rtc_ind_r (λ y, rtc step x.1 y.1 ∧ x.2 ⊆ y.2)).
  - split; [constructor|done].
  - intros y z _ Hs [IH1 IH2]. destruct Hs as [s s' g Hs|s g i]; cbn in *.
    + split; [by eapply rtc_r|done].
    + split; [done|set_solver].
Qed.
Lemma gone_lift {St} (step : St → St → Prop) s s' g : rtc step s s' → g_later step (s, g) (s', g).
Proof. intros H. induction H as [s|s s1 s' Hs _ IH]; [constructor|]. eapply rtc_l; [by apply G_server|done]. Qed.
Lemma gone_grow {St} (step : St → St → Prop) s g d : g_later step (s, g) (s, d ∪ g).
Proof.
  revert g. induction d as [|i d Hi IH] using set_ind_L; intros g.
  - rewrite (left_id_L ∅ (∪)). constructor.
  - rewrite <-(assoc_L (∪)). eapply rtc_r; [apply IH|]. apply G_gives_up.
Qed.
Lemma gone_iff {St} (step : St → St → Prop) s s' g g' :
  g_later step (s, g) (s', g') ↔ rtc step s s' ∧ g ⊆ g'.
Proof.
  split; [apply (gone_project step (s, g) (s', g'))|]. intros [H Hg].
  apply (rtc_transitive _ (s', g) _); [by apply gone_lift|].
  rewrite (union_difference_L g g' Hg), (comm_L (∪)). apply gone_grow.
Qed.

Lemma gone_pausing {St} (step : St → St → Prop) f : Execution (gone_step step) f → Pausing step (λ n, (f n).1).
Proof.
  intros He n. specialize (He n). inversion He as [s s' g Hs E1 E2|s g i E1 E2]; [by right|by left].
Qed.

(** ** Calls that have been given up *)
Lemma given_up_executed cfg t0 f n i c :
  (0 <= t0)%Z → mreach cfg t0 (f 0).1 → Execution (gone_step (mstep cfg)) f → FairMem cfg (λ n, (f n).1) →
  in_calls (ms_inst (f n).1) !! i = Some c →
  ∃ m, n <= m ∧ ∀ u, u ∈ cl_ups c → ∃ id, AsStored u id ∈ applied (ms_inst (f m).1).
Proof.
  intros H0 Hr He Hf Hc. pose proof (gone_pausing _ _ He) as Hp.
  destruct (mem_every_call_returns cfg t0 (λ n, (f n).1) H0 Hr Hp Hf n i c Hc) as (m & c' & Hm & Hc' & Eu & [_ Hl]).
  destruct (mem_everything_applied cfg t0 (λ n, (f n).1) H0 Hr Hp Hf m) as (k & Hk & Hpre).
  exists k. split; [lia|]. intros u Hu. rewrite <-Eu in Hu. apply elem_of_list_lookup in Hu as [p Hu].
  assert (Hpl : p < length (cl_got c')) by (rewrite Hl; by eapply lookup_lt_Some).
  destruct (lookup_lt_is_Some_2 _ _ Hpl) as [r Hgot].
  assert (Hrm : mreach cfg t0 (f m).1).
  { eapply rtc_transitive; [exact Hr|]. exact (pausing_later (mstep cfg) (λ n, (f n).1) 0 m Hp (Nat.le_0_l m)). }
  destruct (mem_answers cfg t0 (f m).1 i c' p r H0 Hrm Hc' Hgot) as (_ & u' & Hu' & Hin).
  rewrite Hu in Hu'. injection Hu' as <-. exists (r_result r). eapply elem_of_prefix; [|exact Hpre].
  apply elem_of_list_fmap. eexists. split; [|exact Hin]. done.
Qed.

(** ** Watches *)
Section watch.
Context (ttl : Z) (ids : list string) (g0 : Z) (now : instant).

(** A goroutine that finds nothing keeps the handler waiting. *)
Lemma own_stuck s s' dl j id : w_inv ttl ids g0 now s → (∃ i, w_handler s = Receiving i dl) →
  (w_clock s < dl)%Z → w_pollers s !! j = Some (id, Polling) → w_assignments s !! id = None →
  rtc (OwnStep ttl ids) s s' →
  w_inv ttl ids g0 now s' ∧ (∃ i, w_handler s' = Receiving i dl) ∧ w_clock s' = w_clock s ∧
  w_assignments s' = w_assignments s ∧ w_pollers s' !! j = Some (id, Polling).
Proof.
  intros Hi Hh Hc Hj Ha H. revert s' H. apply (rtc_ind_r (λ s', w_inv ttl ids g0 now s' ∧ (∃ i, w_handler s' = Receiving i dl) ∧
    w_clock s' = w_clock s ∧ w_assignments s' = w_assignments s ∧ w_pollers s' !! j = Some (id, Polling))); [done|].
  intros s1 s2 _ (Hs & Ec & Ea) (I1 & [i I2] & I3 & I4 & I5).
  pose proof (w_inv_step _ _ _ _ _ _ I1 Hs) as I1'. split; [done|].
  rewrite Ec, Ea, I3, I4. split; [|split; [done|split; [done|]]].
  - destruct Hs; cbn in *; try (by exists i); try congruence.
    + rewrite I2 in *. match goal with H : Receiving _ _ = Receiving _ _ |- _ => injection H as <- <- end. by eexists.
    + (* return: all would have been answered *)
      rewrite I2 in *. match goal with H : Receiving _ _ = Receiving _ _ |- _ => injection H as <- <- end.
      destruct I1 as (_ & Hh1 & Hp & _). unfold handler_inv in Hh1. rewrite I2 in Hh1. destruct Hh1 as (P1 & P2 & P3 & _).
      apply Permutation_length in Hp. rewrite app_length, !fmap_length in Hp.
      assert (length (w_pollers s0) = length ids) as Hl by (by rewrite <-P1, fmap_length).
      assert (unfinished (w_pollers s0) = []) as E0 by (apply nil_length_inv; lia).
      pose proof (unfinished_elem _ _ _ _ I5 ltac:(done)) as Hel. rewrite E0 in Hel. by apply elem_of_nil in Hel.
    + rewrite I2 in *. match goal with H : Receiving _ _ = Receiving _ _ |- _ => injection H as <- <- end. lia.
  - destruct Hs as [| |id' rest newest s1 E Hl| |j' id' a s1 E Hj' Ha'|i' dl' j' id' a s1 E Hr Hi' Hj'| | |]; cbn in *; try done.
    + by apply lookup_app_l_Some.
    + destruct (decide (j' = j)) as [->|Hne]; [|by rewrite list_lookup_insert_ne].
      rewrite I5 in Hj'. injection Hj' as <-. rewrite I4 in Ha'. congruence.
    + destruct (decide (j' = j)) as [->|Hne]; [|by rewrite list_lookup_insert_ne].
      rewrite I5 in Hj'. discriminate Hj'.
Qed.

Definition togo (p : string * poller) : nat := match p.2 with Polling => 2 | Sending _ => 1 | Finished => 0 end.
Definition togos (l : list (string * poller)) : nat := sum_list_with togo l.
Lemma togos_insert l j x y : l !! j = Some x → togos (<[j := y]> l) + togo x = togos l + togo y.
Proof.
  intros H. destruct (insert_split l j x y H) as [E ->]. apply (f_equal togos) in E. rewrite E. unfold togos.
  rewrite !sum_list_with_app. cbn [sum_list_with]. lia.
Qed.

(** With all its assignments there a watch ends by itself. *)
Lemma own_finish n : ∀ s, togos (w_pollers s) = n → w_inv ttl ids g0 now s → w_panic s = false →
  (∃ i dl, w_handler s = Receiving i dl) →
  (∀ j id, w_pollers s !! j = Some (id, Polling) → is_Some (w_assignments s !! id)) → CanEnd ttl ids s.
Proof.
  induction (lt_wf n) as [n _ IH]. intros s En HI Hp (i & dl & Hh) Ha.
  assert (Hcase : unfinished (w_pollers s) = [] ∨ ∃ j id p, w_pollers s !! j = Some (id, p) ∧ p ≠ Finished).
  { destruct (unfinished (w_pollers s)) as [|id l] eqn:E; [by left|]. right.
    assert (id ∈ unfinished (w_pollers s)) as Hel by (rewrite E; left).
    apply elem_of_list_omap in Hel as ([id' p] & Hin & Hp'). apply elem_of_list_lookup in Hin as [j Hj].
    exists j, id', p. split; [done|]. by destruct p. }
  destruct HI as (I1 & I2 & I3 & I4). pose proof I2 as Hh1. unfold handler_inv in Hh1. rewrite Hh in Hh1.
  destruct Hh1 as (P1 & P2 & P3 & _).
  pose proof I3 as Hlen. apply Permutation_length in Hlen. rewrite app_length, !fmap_length in Hlen.
  assert (length (w_pollers s) = length ids) as Hl by (by rewrite <-P1, fmap_length).
  destruct Hcase as [E|(j & id & p & Hj & Hpf)].
  - rewrite E in Hlen. cbn in Hlen. eexists. split; [|exists false].
    { apply rtc_once. split; [eapply (W_return _ _ i dl); [done|done|lia]|done]. }
    done.
  - assert (Hlt : i < length ids).
    { pose proof (unfinished_elem _ _ _ _ Hj Hpf) as Hel. destruct (unfinished (w_pollers s)); [by apply elem_of_nil in Hel|].
      cbn in Hlen. lia. }
    destruct p as [|a|]; [| |done].
    + destruct (Ha j id Hj) as [a Hid].
      assert (Hs : w_step ttl ids s (WState (w_clock s) (w_assignments s) (w_handler s) (<[j := (id, Sending a)]> (w_pollers s))
                     (w_sent s) (w_gauge s) false)) by (by eapply W_load).
      edestruct (IH (n - 1)) as (s' & Hr & He); [| |eapply w_inv_step; [|exact Hs]; by split_and!|done|by exists i, dl| |].
      * pose proof (togos_insert _ _ _ (id, Sending a) Hj) as Ht. change (togo (id, Polling)) with 2 in Ht. change (togo (id, Sending a)) with 1 in Ht. lia.
      * cbn [w_pollers]. pose proof (togos_insert _ _ _ (id, Sending a) Hj) as Ht. change (togo (id, Polling)) with 2 in Ht. change (togo (id, Sending a)) with 1 in Ht. lia.
      * cbn. intros j' id' Hj'. destruct (insert_lookup_inv _ _ _ _ _ Hj') as [?|?]; [done|by eapply Ha].
      * exists s'. split; [|done]. eapply rtc_l; [|exact Hr]. by split_and!.
    + assert (Hs : w_step ttl ids s (WState (w_clock s) (w_assignments s) (Receiving (S i) dl) (<[j := (id, Finished)]> (w_pollers s))
                     (w_sent s ++ [(id, a)]) (w_gauge s - 1) false)) by (by eapply W_recv).
      edestruct (IH (n - 1)) as (s' & Hr & He); [| |eapply w_inv_step; [|exact Hs]; by split_and!|done|by eexists _, _| |].
      * pose proof (togos_insert _ _ _ (id, Finished) Hj) as Ht. change (togo (id, Finished)) with 0 in Ht. change (togo (id, Sending a)) with 1 in Ht. lia.
      * cbn [w_pollers]. pose proof (togos_insert _ _ _ (id, Finished) Hj) as Ht. change (togo (id, Finished)) with 0 in Ht. change (togo (id, Sending a)) with 1 in Ht. lia.
      * cbn. intros j' id' Hj'. destruct (insert_lookup_inv _ _ _ _ _ Hj') as [?|?]; [done|by eapply Ha].
      * exists s'. split; [|done]. eapply rtc_l; [|exact Hr]. by split_and!.
Qed.

Lemma watch_can_end_iff s i dl : w_inv ttl ids g0 now s → w_handler s = Receiving i dl → w_panic s = false →
  CanEnd ttl ids s ↔ (dl <= w_clock s)%Z ∨ ∀ j id, w_pollers s !! j = Some (id, Polling) → is_Some (w_assignments s !! id).
Proof.
  intros HI Hh Hp. split.
  - intros (s' & Hr & b & Hb). destruct (decide (dl <= w_clock s)%Z) as [Hd|Hd]; [by left|]. right. intros j id Hj.
    destruct (w_assignments s !! id) as [a|] eqn:Ea; [done|].
    destruct (own_stuck s s' dl j id HI (ex_intro _ i Hh) ltac:(lia) Hj Ea Hr) as (_ & [i' Hi'] & _). congruence.
  - intros [Hd|Ha].
    + pose proof HI as (_ & Hh1 & _). unfold handler_inv in Hh1. rewrite Hh in Hh1. destruct Hh1 as (_ & _ & P3 & _).
      destruct (decide (i < length ids)) as [Hi|Hi].
      * eexists. split; [apply rtc_once; split; [by eapply (W_timeout _ _ i dl)|done]|by exists true].
      * eexists. split; [apply rtc_once; split; [eapply (W_return _ _ i dl); [done|done|lia]|done]|by exists false].
    + eapply own_finish; [done|done|done|by exists i, dl|done].
Qed.
End watch.

Lemma gone_watch_can_end_iff ttl ids now asg g0 s g i dl :
  g_later (w_step ttl ids) (w_init ids now asg g0, ∅) (s, g) → w_handler s = Receiving i dl →
  CanEnd ttl ids s ↔ (dl <= w_clock s)%Z ∨ ∀ j id, w_pollers s !! j = Some (id, Polling) → is_Some (w_assignments s !! id).
Proof.
  intros [H _]%gone_iff Hh. pose proof (w_inv_reach ttl ids g0 now asg s H) as HI.
  apply (watch_can_end_iff ttl ids g0 now s i dl HI Hh). destruct (w_panic s) eqn:E; [|done].
  destruct HI as (_ & _ & _ & Hp). specialize (Hp E). congruence.
Qed.
