(** Invocations of matchmaking functions. *)
From Coq Require Import Ascii String ZArith NArith Lia ZifyBool.
From stdpp Require Import prelude strings gmap sorting.
From Verif.Model Require Import GoStrings Types Invoke.
From Verif.Spec Require Import InvokeSpec.
From Verif.Proofs Require Import WatchLemmas.
Local Open Scope Z_scope.

Lemma ids_tickets m ids : ids_of_match m ids → ∀ id, id ∈ ids ↔ TicketIn m id.
Proof.
  intros H id. unfold TicketIn. destruct m as [m|]; cbn in H.
  - destruct H as (l & Hl & ->). rewrite elem_of_list_In, in_concat. split.
    + intros (x & Hx & Hid). apply in_map_iff in Hx as ([rn r] & <- & Hin). cbn in Hid. apply in_map_iff in Hid as (t & Ht & Hin').
      exists m, rn, r, t. split; [done|]. split; [|split; [by apply elem_of_list_In|done]].
      apply elem_of_map_to_list. rewrite <-Hl. by apply elem_of_list_In.
    + intros (m' & rn & r & t & [= <-] & Hr & Ht & Hid). exists (map tk_id (ro_tickets r)). split.
      * apply in_map_iff. exists (rn, r). split; [done|]. apply elem_of_list_In. rewrite Hl. by apply elem_of_map_to_list.
      * apply in_map_iff. exists t. split; [done|]. by apply elem_of_list_In.
  - subst. split; [intros H; by apply elem_of_nil in H|]. intros (? & ? & ? & ? & H & _). done.
Qed.

Lemma lookup_snoc_inv {A} (l : list A) x n y : (l ++ [x])%list !! n = Some y → l !! n = Some y ∨ (n = length l ∧ y = x).
Proof.
  intros H. apply lookup_app_Some in H as [H|[H1 H2]]; [by left|]. right.
  destruct (n - length l)%nat eqn:E; [|done]. injection H2 as ->. split; [lia|done].
Qed.
Lemma insert_inv {A} (l : list A) j k x y : <[j := x]> l !! k = Some y →
  (j = k ∧ y = x ∧ is_Some (l !! j)) ∨ (j ≠ k ∧ l !! k = Some y).
Proof.
  intros H. destruct (decide (j = k)) as [<-|Hne].
  - left. assert (is_Some (<[j:=x]> l !! j)) as Hl by eauto. apply lookup_lt_is_Some in Hl as Hl'. rewrite insert_length in Hl'.
    rewrite list_lookup_insert in H by done. injection H as ->. split; [done|]. split; [done|]. by apply lookup_lt_is_Some.
  - right. by rewrite list_lookup_insert_ne in H.
Qed.

(** ** Goroutines and deactivations *)
Definition past_send (p : g_phase) : Prop := p = GCheckAfter ∨ p = GDone.
Definition fan_list (f : fan_state) : list nat := match f with FanSending n => [n] | _ => [] end.
Definition handed (s : istate) : list nat := (v_streamed s ++ v_lost s ++ fan_list (v_fan s))%list.

Definition gor_inv (s : istate) (n : nat) (g : gor) : Prop :=
  ids_of_match (g_match g) (g_ids g) ∧
  match g_phase_of g with
  | GRequest rest => ∃ dn, g_ids g = (dn ++ rest)%list ∧ ∀ id, id ∈ dn → (n, id) ∈ v_pending s ∨ (n, id) ∈ v_answered s
  | _ => ∀ id, id ∈ g_ids g → (n, id) ∈ v_answered s
  end ∧
  (past_send (g_phase_of g) ↔ n ∈ handed s) ∧
  ∃ st, v_fns s !! g_fn g = Some (FnGrpc, st) ∧ st ≠ FnNew ∧ (st = FnDone true → g_phase_of g = GDone).

Definition main_closed (m : inv_main) : Prop := m = InvClosed ∨ ∃ e, m = InvReturned e.

Record v_inv (s : istate) : Prop := {
  vi_gors : ∀ n g, v_gors s !! n = Some g → gor_inv s n g;
  vi_nodup : NoDup (handed s);
  vi_handed : ∀ n, n ∈ handed s → (n < length (v_gors s))%nat;
  vi_done : main_closed (v_main s) → Forall (λ f, ∃ ok, f.2 = FnDone ok) (v_fns s);
  vi_lost : (∀ e, v_main s ≠ InvReturned e) → v_lost s = [];
  vi_one : main_closed (v_main s) → AllFinished s → (length (v_lost s ++ fan_list (v_fan s)) ≤ 1)%nat;
  vi_closed : v_fan s = FanClosed → main_closed (v_main s);
  vi_grpc : ∀ k ty st, v_fns s !! k = Some (ty, st) → ty = FnRest → st = FnNew ∨ st = FnDone false;
}.

Lemma v_inv_init fns ina : v_inv (v_init fns ina).
Proof.
  split; cbn.
  - by intros n g H.
  - apply NoDup_nil_2.
  - intros n H. by apply elem_of_nil in H.
  - intros [H|[e H]]; done.
  - done.
  - intros [H|[e H]]; done.
  - done.
  - by intros k ty st H.
Qed.

Ltac splits := repeat match goal with |- _ ∧ _ => split end.

(** Steps that change neither goroutines nor what was handed over. *)
Lemma gor_inv_mono s s' n g :
  gor_inv s n g →
  (∀ x, x ∈ v_pending s → x ∈ v_pending s' ∨ x ∈ v_answered s') →
  (∀ x, x ∈ v_answered s → x ∈ v_answered s') →
  (n ∈ handed s' ↔ n ∈ handed s) →
  (∀ st, v_fns s !! g_fn g = Some (FnGrpc, st) → st ≠ FnNew → (st = FnDone true → g_phase_of g = GDone) →
     ∃ st', v_fns s' !! g_fn g = Some (FnGrpc, st') ∧ st' ≠ FnNew ∧ (st' = FnDone true → g_phase_of g = GDone)) →
  gor_inv s' n g.
Proof.
  intros (H1 & H2 & H3 & st & H4 & H5 & H6) Hp Ha Hh Hf. split; [done|]. split; [|split].
  - destruct (g_phase_of g); try (intros id Hid; apply Ha; by apply H2). destruct H2 as (dn & E & H2). exists dn.
    split; [done|]. intros id Hid. destruct (H2 id Hid) as [Hx|Hx]; [by apply Hp|right; by apply Ha].
  - by rewrite Hh.
  - by eapply Hf.
Qed.

(** Changing one function keeps the other ones. *)
Lemma fn_change s k ty st st' (fns' : list (fn_type * fn_state)) g :
  v_fns s !! k = Some (ty, st) → st ≠ FnDone true → fns' = <[k := (ty, st')]> (v_fns s) →
  (st' = FnNew → False) → (st' = FnDone true → g_fn g = k → g_phase_of g = GDone) →
  (∀ st0, v_fns s !! g_fn g = Some (FnGrpc, st0) → st0 ≠ FnNew → (st0 = FnDone true → g_phase_of g = GDone) →
     ∃ st1, fns' !! g_fn g = Some (FnGrpc, st1) ∧ st1 ≠ FnNew ∧ (st1 = FnDone true → g_phase_of g = GDone)).
Proof.
  intros Hk Hnd -> Hnew Hdone st0 H0 H1 H2. destruct (decide (k = g_fn g)) as [->|Hne].
  - rewrite Hk in H0. injection H0 as -> ->. exists st'. rewrite list_lookup_insert by by eapply lookup_lt_Some.
    split; [done|]. split; [done|]. intros E. by apply Hdone.
  - exists st0. by rewrite list_lookup_insert_ne.
Qed.

Lemma fns_not_closed s k ty st : v_inv s → v_fns s !! k = Some (ty, st) → (∀ ok, st ≠ FnDone ok) → ¬ main_closed (v_main s).
Proof.
  intros Hi Hk Hst Hc. pose proof (vi_done s Hi Hc) as Hd. rewrite Forall_lookup in Hd.
  destruct (Hd k _ Hk) as [ok Hok]. cbn in Hok. by eapply Hst.
Qed.

(** A step of one function only. *)
Lemma v_inv_fn s k ty st st' c :
  v_inv s → v_fns s !! k = Some (ty, st) → (∀ ok, st ≠ FnDone ok) → st' ≠ FnNew →
  (st' = FnDone true → Forall (λ g, g_fn g = k → g_phase_of g = GDone) (v_gors s)) →
  (ty = FnRest → st' = FnDone false) →
  v_inv (with_counted (set_fn s k ty st') c).
Proof.
  intros Hi Hk Hst Hnew Hdone Hrest. pose proof (fns_not_closed s k ty st Hi Hk Hst) as Hnc. destruct Hi. split; cbn.
  - intros n g Hg. eapply (gor_inv_mono s); [by apply vi_gors0|cbn; auto|cbn; auto|done|].
    eapply (fn_change s k ty st st'); [done|by intros ->; eapply Hst|done|by intros ->|].
    intros E Ek. specialize (Hdone E). rewrite Forall_lookup in Hdone. by eapply Hdone.
  - done.
  - done.
  - intros Hc. done.
  - done.
  - intros Hc. done.
  - done.
  - intros k' ty' st'' Hk' Hty. apply insert_inv in Hk' as [(-> & [= -> ->] & _)|[_ Hk']]; [right; by apply Hrest|by eapply vi_grpc0].
Qed.

(** A step of one goroutine that does not touch the fan-in goroutine. *)
Lemma v_inv_gor s n g p pend ans :
  v_inv s → v_gors s !! n = Some g → ¬ past_send (g_phase_of g) →
  (∀ x, x ∈ v_pending s → x ∈ pend ∨ x ∈ ans) → (∀ x, x ∈ v_answered s → x ∈ ans) → ¬ past_send p →
  (match p with
   | GRequest rest => ∃ dn, g_ids g = (dn ++ rest)%list ∧ ∀ id, id ∈ dn → (n, id) ∈ pend ∨ (n, id) ∈ ans
   | _ => ∀ id, id ∈ g_ids g → (n, id) ∈ ans
   end) →
  v_inv (with_answered (with_pending (set_gor s n g p) pend) ans).
Proof.
  intros Hi Hg Hnp Hp Ha Hnp' Hphase. destruct Hi. split; cbn.
  - intros n' g' Hg'. apply insert_inv in Hg' as [(<- & -> & _)|[Hne Hg']].
    + destruct (vi_gors0 n g Hg) as (H1 & H2 & H3 & st & H4 & H5 & H6).
      split; [done|]. split; [done|]. split.
      * change (handed (with_answered _ _)) with (handed s). split; [done|]. intros Hh. exfalso. by apply Hnp, H3.
      * exists st. split; [done|]. split; [done|]. intros Hd. specialize (H6 Hd). exfalso. apply Hnp. by right.
    + eapply (gor_inv_mono s); [by apply vi_gors0|done|done|done|]. intros st0 ?? ?. by exists st0.
  - done.
  - intros n' Hn'. rewrite insert_length. by apply vi_handed0.
  - done.
  - done.
  - done.
  - done.
  - done.
Qed.

Lemma v_inv_step wait s s' : v_inv s → v_step wait s s' → v_inv s'.
Proof.
  intros Hi Hstep. destruct Hstep as
    [ina s E|ty rest s E Hm|s E Hm|k s E Hk|k s E Hk|k s E Hk|k i m ids s E Hk Hids|k i s E Hk|k i s E Hk
    |k s E Hk Hall|n g id rest s E Hg Hp|n id l1 l2 s E Hpe|n g s E Hg Hp Hnp|n g s E Hg Hp Hids|n g s E Hg Hp Hids
    |n g s E Hg Hp Hf|n g s E Hg Hp Hf|n g s E Hg Hp Hids|n s E Hf Hm|n e s E Hf Hm|s E Hm Hall|s E Hf Hm|s E Hm].
  - (* env *) destruct Hi. by split.
  - (* launch *)
    destruct Hi. split; cbn.
    + intros n g Hg. eapply (gor_inv_mono s); [by apply vi_gors0|cbn; auto|cbn; auto|done|]. cbn.
      intros st0 H0 ??. exists st0. split; [|done]. by apply lookup_app_l_Some.
    + done.
    + done.
    + intros [H|[e H]]; done.
    + intros _. apply vi_lost0. by rewrite Hm.
    + intros [H|[e H]]; done.
    + intros H. destruct (vi_closed0 H) as [H'|[e H']]; by rewrite Hm in H'.
    + intros k ty' st Hk Hty. apply lookup_snoc_inv in Hk as [Hk|[_ [= -> ->]]]; [by eapply vi_grpc0|by left].
  - (* launched *)
    destruct Hi. split; cbn; try done.
    + intros [H|[e H]]; done.
    + intros _. apply vi_lost0. by rewrite Hm.
    + intros [H|[e H]]; done.
    + intros H. destruct (vi_closed0 H) as [H'|[e H']]; by rewrite Hm in H'.
  - apply (v_inv_fn s k FnRest FnNew (FnDone false) (v_counted s)); done.
  - apply (v_inv_fn s k FnGrpc FnNew (FnDone false) (v_counted s)); done.
  - apply (v_inv_fn s k FnGrpc FnNew (FnStreaming 1) (v_counted s)); done.
  - (* recv *)
    assert (v_inv (set_fn s k FnGrpc (FnStreaming (i + 1)))) as Hi'.
    { apply (v_inv_fn s k FnGrpc (FnStreaming i) (FnStreaming (i + 1)) (v_counted s)); done. }
    assert (¬ main_closed (v_main s)) as Hnc by by eapply (fns_not_closed s).
    change (v_gors s) with (v_gors (set_fn s k FnGrpc (FnStreaming (i + 1)))).
    change (v_main s) with (v_main (set_fn s k FnGrpc (FnStreaming (i + 1)))) in Hnc.
    assert (v_fns (set_fn s k FnGrpc (FnStreaming (i + 1))) !! k = Some (FnGrpc, FnStreaming (i + 1))) as Hk'.
    { cbn. apply list_lookup_insert. by eapply lookup_lt_Some. }
    clear Hi. revert Hi' Hnc Hk'. generalize (set_fn s k FnGrpc (FnStreaming (i + 1))). clear s E Hk. intros s Hi Hnc Hk.
    destruct Hi. split; cbn.
    + intros n g Hg. apply lookup_snoc_inv in Hg as [Hg|[-> ->]].
      * eapply (gor_inv_mono s); [by apply vi_gors0|cbn; auto|cbn; auto|done|]. cbn. intros st0 ?? ?. by exists st0.
      * split; [done|]. split; [|split].
        -- exists []. split; [done|]. intros id Hid. by apply elem_of_nil in Hid.
        -- cbn. split; [by intros [H|H]|]. intros H. apply vi_handed0 in H. lia.
        -- cbn. exists (FnStreaming (i + 1)). done.
    + done.
    + intros n Hn. rewrite app_length. apply vi_handed0 in Hn. lia.
    + done.
    + done.
    + done.
    + done.
    + done.
  - apply (v_inv_fn s k FnGrpc (FnStreaming i) (FnDone false) (v_counted s)); done.
  - apply (v_inv_fn s k FnGrpc (FnStreaming i) FnWaiting (v_counted s + i)); done.
  - apply (v_inv_fn s k FnGrpc FnWaiting (FnDone true) (v_counted s)); done.
  - (* request *)
    apply (v_inv_gor s n g (GRequest rest) (v_pending s ++ [(n, id)]) (v_answered s)); [done|done| | | | |].
    + rewrite Hp. by intros [H|H].
    + intros x Hx. left. apply elem_of_app. by left.
    + done.
    + by intros [H|H].
    + destruct (vi_gors s Hi n g Hg) as (_ & H2 & _). rewrite Hp in H2. destruct H2 as (dn & -> & H2).
      exists (dn ++ [id])%list. split; [by rewrite <-(assoc_L (++))|]. intros id' Hid'. apply elem_of_app in Hid' as [Hid'|Hid'].
      * destruct (H2 id' Hid') as [H|H]; [left; apply elem_of_app; by left|by right].
      * apply elem_of_list_singleton in Hid' as ->. left. apply elem_of_app. right. by apply elem_of_list_singleton.
  - (* answer *)
    assert (∀ x, x ∈ v_pending s → x ∈ (l1 ++ l2)%list ∨ x ∈ (v_answered s ++ [(n, id)])%list) as Hmono.
    { intros x Hx. rewrite Hpe in Hx. rewrite !elem_of_app, elem_of_cons in *. rewrite elem_of_nil. tauto. }
    destruct Hi. split; cbn; try done. intros n' g' Hg'.
    eapply (gor_inv_mono s); [by apply vi_gors0|exact Hmono|cbn; intros x Hx; apply elem_of_app; by left|done|].
    cbn. intros st0 ?? ?. by exists st0.
  - (* answered *)
    destruct (vi_gors s Hi n g Hg) as (_ & H2 & _). rewrite Hp in H2. destruct H2 as (dn & Hdn & H2). rewrite app_nil_r in Hdn.
    apply (v_inv_gor s n g (if wait then GCheck else GSend) (v_pending s) (v_answered s)); [done|done| |by left|done| |].
    + rewrite Hp. by intros [H|H].
    + destruct wait; by intros [H|H].
    + assert (∀ id, id ∈ g_ids g → (n, id) ∈ v_answered s) as Ha.
      { intros id Hid. rewrite Hdn in Hid. destruct (H2 id Hid) as [H|H]; [|done]. exfalso. apply Hnp.
        apply elem_of_list_fmap. by exists (n, id). }
      by destruct wait.
  - (* check panics *) destruct Hi. by split.
  - (* check *)
    destruct (vi_gors s Hi n g Hg) as (_ & H2 & _). rewrite Hp in H2.
    apply (v_inv_gor s n g GSend (v_pending s) (v_answered s)); [done|done| |by left|done| |done].
    + rewrite Hp. by intros [H|H].
    + by intros [H|H].
  - (* hand *)
    assert (past_send (if wait then GDone else GCheckAfter)) as Hps by (destruct wait; [by right|by left]).
    destruct (vi_gors s Hi n g Hg) as (H1 & H2 & H3 & st & H4 & H5 & H6). rewrite Hp in H2, H3, H6.
    assert (n ∉ handed s) as Hnh. { intros H. apply H3 in H as [H|H]; done. }
    destruct Hi. unfold handed in *. rewrite Hf in *. cbn [fan_list] in *. rewrite app_nil_r in *.
    assert (∀ x, x ∈ (v_streamed s ++ v_lost s ++ [n])%list ↔ x ∈ (v_streamed s ++ v_lost s)%list ∨ x = n) as Hx.
    { intros x. rewrite (assoc_L (++)), (elem_of_app (_ ++ _)), elem_of_list_singleton. done. }
    split; cbn.
    + intros n' g' Hg'. apply insert_inv in Hg' as [(<- & -> & _)|[Hne Hg']].
      * split; [done|]. split; [|split].
        -- destruct wait; exact H2.
        -- unfold handed. cbn. rewrite Hx. split; [by right|done].
        -- exists st. split; [done|]. split; [done|]. intros Hd. by specialize (H6 Hd).
      * eapply (gor_inv_mono s); [by apply vi_gors0|cbn; auto|cbn; auto| |].
        -- unfold handed. cbn. rewrite Hx, Hf. cbn. rewrite app_nil_r. split; [|by left]. intros [?|?]; [done|by subst].
        -- intros st0 ?? ?. by exists st0.
    + unfold handed. cbn. rewrite (assoc_L (++)). apply NoDup_app. split; [done|]. split; [|apply NoDup_singleton].
      intros x Hx1 Hx2. apply elem_of_list_singleton in Hx2 as ->. done.
    + intros n' Hn'. unfold handed in Hn'. cbn in Hn'. rewrite insert_length. apply Hx in Hn' as [Hn'| ->]; [by apply vi_handed0|].
      by eapply lookup_lt_Some.
    + done.
    + done.
    + intros Hc Ha. exfalso. specialize (Ha (g_fn g)). destruct Ha as [ty' Ha]; [cbn; by eapply lookup_lt_Some|].
      cbn in Ha. rewrite H4 in Ha. injection Ha as <- ->. by specialize (H6 eq_refl).
    + done.
    + done.
  - (* hand panics *) destruct Hi. by split.
  - (* check after *)
    destruct (vi_gors s Hi n g Hg) as (H1 & H2 & H3 & st & H4 & H5 & H6). rewrite Hp in H2, H3.
    destruct Hi. split; cbn; try done.
    + intros n' g' Hg'. apply insert_inv in Hg' as [(<- & -> & _)|[Hne Hg']].
      * split; [done|]. split; [done|]. split.
        -- change (handed _) with (handed s). rewrite <-H3. split; intros _; [by left|by right].
        -- exists st. done.
      * eapply (gor_inv_mono s); [by apply vi_gors0|cbn; auto|cbn; auto|done|]. intros st0 ?? ?. by exists st0.
    + intros n' Hn'. rewrite insert_length. by apply vi_handed0.
  - (* stream *)
    pose proof (vi_lost s Hi Hm) as Hl. destruct Hi. unfold handed in *. rewrite Hf in *. cbn [fan_list] in *.
    rewrite Hl in *. cbn [app] in *.
    split; cbn.
    + intros n' g' Hg'. eapply (gor_inv_mono s); [by apply vi_gors0|cbn; auto|cbn; auto| |].
      * unfold handed. cbn. rewrite Hl, Hf. cbn. by rewrite app_nil_r.
      * intros st0 ?? ?. by exists st0.
    + unfold handed. cbn. rewrite Hl. cbn. by rewrite app_nil_r.
    + intros n' Hn'. unfold handed in Hn'. cbn in Hn'. rewrite Hl in Hn'. cbn in Hn'. rewrite app_nil_r in Hn'. by apply vi_handed0.
    + done.
    + done.
    + intros _ _. rewrite Hl. cbn. lia.
    + done.
    + done.
  - (* stream late *)
    destruct Hi. unfold handed in *. rewrite Hf in *. cbn [fan_list] in *.
    split; cbn.
    + intros n' g' Hg'. eapply (gor_inv_mono s); [by apply vi_gors0|cbn; auto|cbn; auto| |].
      * unfold handed. cbn. rewrite Hf. cbn. by rewrite app_nil_r.
      * intros st0 ?? ?. by exists st0.
    + unfold handed. cbn. by rewrite app_nil_r.
    + intros n' Hn'. unfold handed in Hn'. cbn in Hn'. rewrite app_nil_r in Hn'. by apply vi_handed0.
    + done.
    + intros Hx. by specialize (Hx e).
    + intros Hc Ha. rewrite app_nil_r. by apply vi_one0.
    + done.
    + done.
  - (* all done *)
    destruct Hi. split; cbn; try done.
    + intros _. apply vi_lost0. by rewrite Hm.
    + intros _ _. rewrite (vi_lost0) by by rewrite Hm. cbn. destruct (v_fan s); cbn; lia.
    + intros H. by left.
  - (* fan close *)
    destruct Hi. unfold handed in *. rewrite Hf in *. cbn [fan_list] in *.
    split; cbn; try done.
    + intros n' g' Hg'. eapply (gor_inv_mono s); [by apply vi_gors0|cbn; auto|cbn; auto| |].
      * unfold handed. cbn. by rewrite Hf.
      * intros st0 ?? ?. by exists st0.
  - (* return *)
    destruct Hi. assert (main_closed (v_main s)) as Hc by by left. split; cbn; try done.
    + intros _. by apply vi_done0.
    + intros H. by specialize (H None).
    + intros _. by apply vi_one0.
    + intros _. right. by exists None.
Qed.

Lemma v_inv_reach wait fns ina s : v_later wait (v_init fns ina) s → v_inv s.
Proof.
  intros H. revert s H. apply (rtc_ind_r (λ s, v_inv s)); [apply v_inv_init|]. intros y z _ Hs Hi. by eapply v_inv_step.
Qed.
