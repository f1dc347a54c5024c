(** Invocations of matchmaking functions: consequences of the invariant, the match
    counter, progress. *)
From Coq Require Import Ascii String ZArith NArith Lia ZifyBool.
From stdpp Require Import prelude strings gmap sorting.
From Verif.Model Require Import GoStrings Types Invoke.
From Verif.Spec Require Import InvokeSpec.
From Verif.Proofs Require Import WatchLemmas InvokeLemmas.
Local Open Scope Z_scope.

(** ** Relaying *)
Lemma relayed wait fns ina s : v_later wait (v_init fns ina) s →
  NoDup (v_streamed s) ∧
  ∀ n, n ∈ v_streamed s → ∃ k m, ReceivedAs s n k m ∧ ∀ id, TicketIn m id → (n, id) ∈ v_answered s.
Proof.
  intros H. apply v_inv_reach in H. split.
  - pose proof (vi_nodup s H) as Hn. unfold handed in Hn. by apply NoDup_app in Hn as (? & _).
  - intros n Hn. assert (n ∈ handed s) as Hh by (unfold handed; apply elem_of_app; by left).
    pose proof (vi_handed s H n Hh) as Hlt. apply lookup_lt_is_Some in Hlt as [g Hg].
    destruct (vi_gors s H n g Hg) as (H1 & H2 & H3 & _). apply H3 in Hh.
    exists (g_fn g), (g_match g). split; [by exists g|]. intros id Hid. apply (ids_tickets _ _ H1) in Hid.
    destruct Hh as [Hh|Hh]; rewrite Hh in H2; by apply H2.
Qed.

(** ** At most one match is missing *)
Lemma at_most_one_missing wait fns ina s : v_later wait (v_init fns ina) s →
  v_returned s → AllFinished s → (length (v_gors s) ≤ S (length (v_streamed s)))%nat.
Proof.
  intros H [e He] Ha. apply v_inv_reach in H. assert (main_closed (v_main s)) as Hc by (right; by exists e).
  pose proof (vi_one s H Hc Ha) as Hone.
  assert (∀ n, n ∈ seq 0 (length (v_gors s)) → n ∈ handed s) as Hsub.
  { intros n Hn. apply elem_of_seq in Hn. assert (is_Some (v_gors s !! n)) as [g Hg] by (apply lookup_lt_is_Some; lia).
    destruct (vi_gors s H n g Hg) as (_ & _ & H3 & st & H4 & H5 & H6). apply H3. right. apply H6.
    destruct (Ha (g_fn g)) as [ty Hty]; [by eapply lookup_lt_Some|]. rewrite H4 in Hty. by injection Hty. }
  assert (length (seq 0 (length (v_gors s))) ≤ length (handed s))%nat as Hlen.
  { apply submseteq_length. apply NoDup_submseteq; [apply NoDup_ListNoDup, seq_NoDup|done]. }
  rewrite seq_length in Hlen. unfold handed in Hlen. rewrite app_length in Hlen. lia.
Qed.

(** ** Crashes *)
Lemma crash_causes wait fns ina s : v_later wait (v_init fns ina) s → v_panic s = true →
  ∃ n k m, ReceivedAs s n k m ∧ ((∀ id, ¬ TicketIn m id) ∨ FnFailed s k).
Proof.
  intros H. revert s H. apply (rtc_ind_r (λ s, v_panic s = true →
    ∃ n k m, ReceivedAs s n k m ∧ ((∀ id, ¬ TicketIn m id) ∨ FnFailed s k))); [done|].
  intros s s' Hreach Hstep _. pose proof (v_inv_reach _ _ _ _ Hreach) as Hi. destruct Hstep as
    [ina' s E|ty rest s E Hm|s E Hm|k s E Hk|k s E Hk|k s E Hk|k i m ids s E Hk Hids|k i s E Hk|k i s E Hk
    |k s E Hk Hall|n g id rest s E Hg Hp|n id l1 l2 s E Hpe|n g s E Hg Hp Hnp|n g s E Hg Hp Hids|n g s E Hg Hp Hids
    |n g s E Hg Hp Hf|n g s E Hg Hp Hf|n g s E Hg Hp Hids|n s E Hf Hm|n e s E Hf Hm|s E Hm Hall|s E Hf Hm|s E Hm];
    intros Hpanic; cbn in Hpanic; try (rewrite E in Hpanic; discriminate Hpanic).
  - destruct (vi_gors s Hi n g Hg) as (H1 & _). exists n, (g_fn g), (g_match g). split; [by exists g|]. left.
    intros id Hid. apply (ids_tickets _ _ H1) in Hid. rewrite Hids in Hid. by apply elem_of_nil in Hid.
  - pose proof (vi_closed s Hi Hf) as Hc. destruct (vi_gors s Hi n g Hg) as (H1 & _ & _ & st & H4 & _ & H6).
    exists n, (g_fn g), (g_match g). split; [by exists g|]. right. exists FnGrpc. cbn.
    pose proof (vi_done s Hi Hc) as Hd. rewrite Forall_lookup in Hd. destruct (Hd _ _ H4) as [ok Hok]. cbn in Hok. subst.
    destruct ok; [|done]. specialize (H6 eq_refl). rewrite Hp in H6. done.
Qed.

(** ** The result *)
Lemma result_nil wait fns ina s e : v_later wait (v_init fns ina) s → v_main s = InvReturned e → e = None.
Proof.
  intros H. revert s H. apply (rtc_ind_r (λ s, v_main s = InvReturned e → e = None)); [done|].
  intros s s' _ Hstep IH Hm'. destruct Hstep; cbn in Hm'; try (by apply IH); try discriminate. by injection Hm'.
Qed.

(** ** The counter *)
Definition count_of (k : nat) (gs : list gor) : nat := length (filter (λ g, g_fn g = k) gs).
Definition ended_gors (s : istate) : nat := length (filter (λ g, ended s (g_fn g) = true) (v_gors s)).
Definition fn_ended (f : fn_type * fn_state) : Prop := f.2 = FnWaiting ∨ f.2 = FnDone true.
Global Instance fn_ended_dec f : Decision (fn_ended f).
Proof.
  unfold fn_ended. destruct f as [ty [| i | |[]]]; cbn; (left; by (left + right)) || (right; by intros [H|H]).
Defined.
Definition ended_fns (s : istate) : nat := length (filter fn_ended (v_fns s)).

Definition c_inv (s : istate) : Prop :=
  v_counted s = Z.of_nat (ended_gors s + ended_fns s) ∧
  ∀ k ty i, v_fns s !! k = Some (ty, FnStreaming i) → i = 1 + Z.of_nat (count_of k (v_gors s)).

Lemma filter_ext_len {A} (P Q : A → Prop) `{∀ x, Decision (P x), ∀ x, Decision (Q x)} (l : list A) :
  (∀ x, x ∈ l → P x ↔ Q x) → length (filter P l) = length (filter Q l).
Proof.
  induction l as [|a l IH]; intros Hx; [done|]. rewrite !filter_cons.
  assert (P a ↔ Q a) as Ha by (apply Hx; by left). assert (length (filter P l) = length (filter Q l)) as Hl.
  { apply IH. intros x Hin. apply Hx. by right. }
  destruct (decide (P a)), (decide (Q a)); cbn [length]; tauto || lia.
Qed.

Lemma count_split (P Q : gor → Prop) `{∀ x, Decision (P x), ∀ x, Decision (Q x)} k (l : list gor) :
  (∀ g, Q g ↔ P g ∨ g_fn g = k) → (∀ g, P g → g_fn g ≠ k) →
  length (filter Q l) = (length (filter P l) + count_of k l)%nat.
Proof.
  intros HQ HP. unfold count_of. induction l as [|g l IH]; [done|].
  rewrite !filter_cons. destruct (decide (P g)) as [p|p], (decide (g_fn g = k)) as [e|e], (decide (Q g)) as [q|q]; cbn [length].
  all: try (by destruct (HP g p)). all: try (rewrite HQ in q; tauto). all: lia.
Qed.

Lemma fns_filter_insert (l : list (fn_type * fn_state)) k x y : l !! k = Some x →
  (length (filter fn_ended (<[k := y]> l)) + (if decide (fn_ended x) then 1 else 0) =
   length (filter fn_ended l) + (if decide (fn_ended y) then 1 else 0))%nat.
Proof.
  intros H. destruct (insert_split l k x y H) as [H1 ->]. rewrite H1 at 3. rewrite !filter_app, !filter_cons, !app_length.
  destruct (decide (fn_ended x)), (decide (fn_ended y)); cbn [length]; lia.
Qed.

Lemma ended_insert s k x k' : is_Some (v_fns s !! k) →
  match <[k := x]> (v_fns s) !! k' with Some (_, FnWaiting) | Some (_, FnDone true) => true | _ => false end =
  if decide (k = k') then bool_decide (fn_ended x) else ended s k'.
Proof.
  intros Hk. destruct (decide (k = k')) as [->|Hne].
  - rewrite list_lookup_insert by by apply lookup_lt_is_Some. destruct x as [ty [| i | |[]]]; symmetry;
      (by apply bool_decide_false; intros [E|E]) || (apply bool_decide_true; (by left) || (by right)).
  - by rewrite list_lookup_insert_ne.
Qed.

Lemma count_map (P : nat → Prop) `{D : ∀ g : gor, Decision (P (g_fn g))} (l l' : list gor) : map g_fn l = map g_fn l' →
  length (filter (λ g, P (g_fn g)) l) = length (filter (λ g, P (g_fn g)) l').
Proof.
  revert l'. induction l as [|a l IH]; intros [|b l'] E; try done.
  cbn in E. injection E as E1 E2. rewrite !filter_cons. specialize (IH l' E2).
  destruct (decide (P (g_fn a))) as [p|p], (decide (P (g_fn b))) as [q|q]; cbn [length]; rewrite E1 in p; tauto || lia.
Qed.

Lemma c_inv_same s s' : c_inv s → v_counted s' = v_counted s → v_fns s' = v_fns s →
  map g_fn (v_gors s') = map g_fn (v_gors s) → c_inv s'.
Proof.
  intros [H1 H2] Hc Hf Hg.
  split.
  - assert (∀ k, ended s' k = ended s k) as He by (intros k; unfold ended; by rewrite Hf).
    rewrite Hc, H1. unfold ended_fns. rewrite Hf. f_equal. f_equal. unfold ended_gors.
    rewrite (filter_ext_len (λ g, ended s' (g_fn g) = true) (λ g, ended s (g_fn g) = true)) by (intros; by rewrite He).
    symmetry. eapply (count_map (λ k, ended s k = true)). done.
  - intros k ty i Hk. rewrite Hf in Hk. rewrite (H2 k ty i Hk). unfold count_of. by rewrite (count_map (λ x, x = k) _ _ Hg).
Qed.

Lemma gors_insert_fn (l : list gor) n g p : l !! n = Some g → map g_fn (<[n := set_phase g p]> l) = map g_fn l.
Proof.
  intros H. change (map g_fn ?x) with (g_fn <$> x). rewrite list_fmap_insert. apply list_insert_id.
  rewrite list_lookup_fmap, H. done.
Qed.

(** Changing a function from a state that has not ended. *)
Lemma c_inv_fn s k ty st st' c :
  c_inv s → v_fns s !! k = Some (ty, st) → ¬ fn_ended (ty, st) →
  (∀ i, st' = FnStreaming i → st = FnNew ∧ i = 1 + Z.of_nat (count_of k (v_gors s))) →
  c = v_counted s + (if decide (fn_ended (ty, st')) then 1 + Z.of_nat (count_of k (v_gors s)) else 0) →
  c_inv (with_counted (set_fn s k ty st') c).
Proof.
  intros [H1 H2] Hk Hne Hs Hcc. split; cbn.
  - unfold ended_gors, ended_fns in *. cbn. pose proof (fns_filter_insert (v_fns s) k _ (ty, st') Hk) as Hf.
    rewrite decide_False in Hf by done.
    assert (ended s k = false) as Hek.
    { unfold ended. rewrite Hk. destruct st as [| | |[]]; try done; exfalso; apply Hne; unfold fn_ended; cbn; by (left + right). }
    destruct (decide (fn_ended (ty, st'))) as [e|e].
    + assert (length (filter (λ g, ended (with_counted (set_fn s k ty st') c) (g_fn g) = true) (v_gors s)) =
             length (filter (λ g, ended s (g_fn g) = true) (v_gors s)) + count_of k (v_gors s))%nat as Hc.
      { apply count_split.
        - intros g. unfold ended at 1. cbn. rewrite (ended_insert s k (ty, st') (g_fn g)) by eauto.
          destruct (decide (k = g_fn g)) as [<-|Hn]; [rewrite bool_decide_true by done; tauto|].
          split; [by left|]. intros [?|?]; [done|by subst].
        - intros g Hg E. rewrite E, Hek in Hg. done. }
      cbn in Hc. rewrite Hc. lia.
    + assert (length (filter (λ g, ended (with_counted (set_fn s k ty st') c) (g_fn g) = true) (v_gors s)) =
             length (filter (λ g, ended s (g_fn g) = true) (v_gors s)))%nat as Hc.
      { apply filter_ext_len. intros g _. unfold ended at 1. cbn. rewrite (ended_insert s k (ty, st') (g_fn g)) by eauto.
        destruct (decide (k = g_fn g)) as [<-|Hn]; [|done]. rewrite bool_decide_false by done. by rewrite Hek. }
      cbn in Hc. rewrite Hc. lia.
  - intros k' ty' i Hk'. apply insert_inv in Hk' as [(<- & [= -> Hst] & _)|[_ Hk']].
    + by apply Hs.
    + by eapply H2.
Qed.

Lemma new_none s k ty : v_inv s → v_fns s !! k = Some (ty, FnNew) → count_of k (v_gors s) = 0%nat.
Proof.
  intros Hi Hk. unfold count_of. apply length_zero_iff_nil.
  destruct (filter _ _) as [|g l] eqn:El; [done|]. exfalso. assert (g ∈ filter (λ g, g_fn g = k) (v_gors s)) as Hg by (rewrite El; by left).
  apply elem_of_list_filter in Hg as [Hfn Hg]. apply elem_of_list_lookup in Hg as [n Hg]. destruct (vi_gors s Hi n g Hg) as (_ & _ & _ & st & H4 & H5 & _).
  rewrite Hfn, Hk in H4. injection H4 as -> <-. done.
Qed.

Lemma c_inv_step wait s s' : v_inv s → c_inv s → v_step wait s s' → c_inv s'.
Proof.
  intros Hi Hc Hstep. destruct Hstep as
    [ina s E|ty rest s E Hm|s E Hm|k s E Hk|k s E Hk|k s E Hk|k i m ids s E Hk Hids|k i s E Hk|k i s E Hk
    |k s E Hk Hall|n g id rest s E Hg Hp|n id l1 l2 s E Hpe|n g s E Hg Hp Hnp|n g s E Hg Hp Hids|n g s E Hg Hp Hids
    |n g s E Hg Hp Hf|n g s E Hg Hp Hf|n g s E Hg Hp Hids|n s E Hf Hm|n e s E Hf Hm|s E Hm Hall|s E Hf Hm|s E Hm];
    try (by apply (c_inv_same s)); try (apply (c_inv_same s); [done|done|done|by apply gors_insert_fn]).
  - (* launch *)
    destruct Hc as [H1 H2]. split; cbn.
    + rewrite H1. unfold ended_gors, ended_fns. cbn. rewrite filter_app, app_length. cbn. rewrite Nat.add_0_r. f_equal. f_equal.
      apply filter_ext_len. intros g Hg. apply elem_of_list_lookup in Hg as [n Hg].
      destruct (vi_gors s Hi n g Hg) as (_ & _ & _ & st & H4 & _). unfold ended. cbn. rewrite H4.
      by rewrite (lookup_app_l_Some _ _ _ _ H4).
    + intros k ty' i Hk. apply lookup_snoc_inv in Hk as [Hk|[_ [= -> ->]]]. by eapply H2.
  - (* rest *) apply (c_inv_fn s k FnRest FnNew (FnDone false) (v_counted s)); [done|done|by intros [H|H]|done|].
    rewrite decide_False; [lia|]. by intros [H|H].
  - apply (c_inv_fn s k FnGrpc FnNew (FnDone false) (v_counted s)); [done|done|by intros [H|H]|done|].
    rewrite decide_False; [lia|]. by intros [H|H].
  - apply (c_inv_fn s k FnGrpc FnNew (FnStreaming 1) (v_counted s)); [done|done|by intros [H|H]| |].
    + intros i [= <-]. split; [done|]. by rewrite (new_none s k FnGrpc Hi Hk).
    + rewrite decide_False; [lia|]. by intros [H|H].
  - (* recv *)
    destruct Hc as [H1 H2]. pose proof (H2 k _ _ Hk) as Hik. split; cbn.
    + rewrite H1. unfold ended_gors, ended_fns. cbn. rewrite filter_app, app_length.
      pose proof (fns_filter_insert (v_fns s) k _ (FnGrpc, FnStreaming (i + 1)) Hk) as Hf.
      rewrite !decide_False in Hf by by intros [H|H].
      assert (ended s k = false) as Hek by (unfold ended; by rewrite Hk).
      assert (∀ k', ended (with_gors (set_fn s k FnGrpc (FnStreaming (i + 1))) (v_gors s ++ [Gor k m ids (GRequest ids)])) k' = ended s k') as Hsame.
      { intros k'. unfold ended at 1. cbn. rewrite (ended_insert s k (FnGrpc, FnStreaming (i + 1)) k') by eauto.
        destruct (decide (k = k')) as [<-|]; [|done]. rewrite Hek. apply bool_decide_false. by intros [H|H]. }
      rewrite (filter_ext_len (λ g, ended (with_gors (set_fn s k FnGrpc (FnStreaming (i + 1)))
        (v_gors s ++ [Gor k m ids (GRequest ids)])) (g_fn g) = true) (λ g, ended s (g_fn g) = true) (v_gors s)) by (intros; by rewrite Hsame).
      rewrite filter_cons_False, filter_nil.
      2: { cbn. by rewrite Hsame, Hek. }
      cbn [length]. lia.
    + intros k' ty' i' Hk'. unfold count_of. rewrite filter_app, app_length.
      apply insert_inv in Hk' as [(<- & [= -> ->] & _)|[Hne Hk']].
      * rewrite filter_cons_True by done. cbn. unfold count_of in Hik. lia.
      * rewrite filter_cons_False by done. cbn. rewrite Nat.add_0_r. by eapply H2.
  - apply (c_inv_fn s k FnGrpc (FnStreaming i) (FnDone false) (v_counted s)); [done|done|by intros [H|H]|done|].
    rewrite decide_False; [lia|]. by intros [H|H].
  - destruct Hc as [H1 H2]. pose proof (H2 k _ _ Hk) as Hik.
    apply (c_inv_fn s k FnGrpc (FnStreaming i) FnWaiting (v_counted s + i)); [done|done|by intros [H|H]|done|].
    rewrite decide_True by by left. lia.
  - (* done: ended before and after *)
    destruct Hc as [H1 H2]. split; cbn.
    + rewrite H1. unfold ended_gors, ended_fns. cbn.
      pose proof (fns_filter_insert (v_fns s) k _ (FnGrpc, FnDone true) Hk) as Hf.
      rewrite !decide_True in Hf by ((by left) || (by right)).
      assert (∀ k', ended (set_fn s k FnGrpc (FnDone true)) k' = ended s k') as Hsame.
      { intros k'. unfold ended at 1. cbn. rewrite (ended_insert s k (FnGrpc, FnDone true) k') by eauto.
        destruct (decide (k = k')) as [<-|]; [|done]. unfold ended. rewrite Hk. apply bool_decide_true. by right. }
      rewrite (filter_ext_len (λ g, ended (set_fn s k FnGrpc (FnDone true)) (g_fn g) = true) (λ g, ended s (g_fn g) = true) (v_gors s))
        by (intros; by rewrite Hsame). lia.
    + intros k' ty' i' Hk'. apply insert_inv in Hk' as [(<- & [= -> ->] & _)|[Hne Hk']]. by eapply H2.
Qed.

Lemma counter_exact wait fns ina s : v_later wait (v_init fns ina) s →
  v_counted s = Z.of_nat (length (filter (λ g, ended s (g_fn g) = true) (v_gors s)) +
                          length (filter (λ k, ended s k = true) (seq 0 (length (v_fns s))))).
Proof.
  intros H. assert (c_inv s) as [Hc _].
  { revert s H. apply (rtc_ind_r (λ s, c_inv s)); [split; [done|by intros]|].
    intros y z Hr Hs Hi. eapply c_inv_step; [by eapply v_inv_reach|done|done]. }
  rewrite Hc. unfold ended_gors, ended_fns. f_equal. f_equal. unfold ended. generalize (v_fns s). clear. intros l.
  induction l as [|f l IH] using rev_ind; [done|].
  rewrite app_length, seq_app, !filter_app, !app_length. cbn [length seq]. rewrite IH. f_equal.
  - apply filter_ext_len. intros k Hk. apply elem_of_seq in Hk. by rewrite lookup_app_l by lia.
  - rewrite !filter_cons, !filter_nil. cbn [plus]. rewrite lookup_app_r, Nat.sub_diag by lia. cbn [lookup list_lookup].
    destruct f as [ty [| i | |[]]]; cbn; unfold fn_ended; cbn; repeat case_decide; cbn; try done; naive_solver.
Qed.

(** ** Progress *)
Definition fn_weight (f : fn_type * fn_state) : nat :=
  match f.2 with FnNew => 3 | FnStreaming _ => 2 | FnWaiting => 1 | FnDone _ => 0 end.
Definition gor_weight (g : gor) : nat :=
  match g_phase_of g with GRequest rest => 5 + 2 * length rest | GCheck => 4 | GSend => 3 | GCheckAfter => 1 | GDone => 0 end.
Definition main_weight (m : inv_main) : nat :=
  match m with InvLaunching l => 5 * length l + 3 | InvWaiting => 2 | InvClosed => 1 | InvReturned _ => 0 end.
Definition fan_weight (f : fan_state) : nat := match f with FanSending _ => 1 | _ => 0 end.
Definition sum_of {A} (f : A → nat) (l : list A) : nat := foldr (λ x n, f x + n)%nat 0%nat l.
Lemma sum_of_app {A} (f : A → nat) (l1 l2 : list A) : sum_of f (l1 ++ l2) = (sum_of f l1 + sum_of f l2)%nat.
Proof. induction l1 as [|a l1 IH]; cbn; [done|]. unfold sum_of in IH. rewrite IH. unfold sum_of. lia. Qed.
Lemma sum_of_cons {A} (f : A → nat) x (l : list A) : sum_of f (x :: l) = (f x + sum_of f l)%nat.
Proof. done. Qed.
Lemma sum_of_nil {A} (f : A → nat) : sum_of f [] = 0%nat.
Proof. done. Qed.
Global Arguments sum_of : simpl never.
Definition weight (s : istate) : nat :=
  main_weight (v_main s) + fan_weight (v_fan s) + sum_of fn_weight (v_fns s) + sum_of gor_weight (v_gors s) + length (v_pending s).

Lemma sum_insert {A} (f : A → nat) (l : list A) k x y : l !! k = Some x →
  (sum_of f (<[k := y]> l) + f x = sum_of f l + f y)%nat.
Proof.
  intros H. destruct (insert_split l k x y H) as [H1 ->]. rewrite H1 at 3. rewrite !sum_of_app, !sum_of_cons. lia.
Qed.

Lemma exists_not_done (l : list gor) : Forall (λ g, g_phase_of g = GDone) l ∨ ∃ n g, l !! n = Some g ∧ g_phase_of g ≠ GDone.
Proof.
  induction l as [|g l IH]; [left; constructor|]. destruct (g_phase_of g) eqn:Eg.
  1-4: right; exists 0%nat, g; by rewrite Eg.
  destruct IH as [IH|(n & g' & H1 & H2)]; [left; by constructor|]. right. by exists (S n), g'.
Qed.
Lemma exists_fn_not_done (l : list (fn_type * fn_state)) :
  Forall (λ f, ∃ ok, f.2 = FnDone ok) l ∨ ∃ k f, l !! k = Some f ∧ ∀ ok, f.2 ≠ FnDone ok.
Proof.
  induction l as [|f l IH]; [left; constructor|]. destruct f as [ty []] eqn:Ef.
  1-3: right; exists 0%nat, f; rewrite Ef; split; [done|]; by intros ok.
  destruct IH as [IH|(n & f' & H1 & H2)]; [left; constructor; [by eexists|done]|]. right. by exists (S n), f'.
Qed.

(** The goroutine [n] is not done: it, or the fan-in goroutine, can go on. *)
Lemma progress_gor wait s n g : v_panic s = false → v_pending s = [] → (∀ m, v_fan s ≠ FanSending m) →
  v_gors s !! n = Some g → g_phase_of g ≠ GDone →
  ∃ s', v_step wait s s' ∧ (v_panic s' = true ∨ weight s' < weight s)%nat.
Proof.
  intros Hp Ep Hf Hg Hd.
  assert (fan_weight (v_fan s) = 0%nat) as Ef by (destruct (v_fan s); [done|by destruct (Hf g0)|done]).
  assert (∀ p, (gor_weight (set_phase g p) < gor_weight g →
    sum_of gor_weight (<[n := set_phase g p]> (v_gors s)) < sum_of gor_weight (v_gors s)) ∧
    (S (gor_weight (set_phase g p)) < gor_weight g →
    S (sum_of gor_weight (<[n := set_phase g p]> (v_gors s))) < sum_of gor_weight (v_gors s)))%nat as Hs.
  { intros p. pose proof (sum_insert gor_weight (v_gors s) n g (set_phase g p) Hg). lia. }
  assert (gor_weight g = match g_phase_of g with GRequest rest => 5 + 2 * length rest
    | GCheck => 4 | GSend => 3 | GCheckAfter => 1 | GDone => 0 end)%nat as Hw by done.
  unfold weight. destruct (g_phase_of g) as [[|id rest]| | | |] eqn:Eg; [..|done].
  - eexists. split; [eapply V_answered; [done|done|done|rewrite Ep; apply not_elem_of_nil]|]. right. cbn.
    assert (gor_weight (set_phase g (if wait then GCheck else GSend)) < gor_weight g)%nat as Hx.
    { rewrite Hw. destruct wait; cbn; lia. }
    apply Hs in Hx. lia.
  - eexists. split; [by eapply V_request|]. right. cbn. rewrite Ep. cbn.
    assert (S (gor_weight (set_phase g (GRequest rest))) < gor_weight g)%nat as Hx.
    { rewrite Hw. cbn. lia. }
    apply Hs in Hx. lia.
  - destruct (g_ids g) as [|id ids] eqn:Ei.
    + eexists. split; [eapply V_check_panics; [done|done|by left|done]|by left].
    + eexists. split; [eapply V_check; [done|done|done|by rewrite Ei]|]. right. cbn.
      assert (gor_weight (set_phase g GSend) < gor_weight g)%nat as Hx by (rewrite Hw; cbn; lia).
      apply Hs in Hx. lia.
  - destruct (v_fan s) as [|m|] eqn:Efan.
    + eexists. split; [by eapply V_hand|]. right. cbn.
      assert (S (gor_weight (set_phase g (if wait then GDone else GCheckAfter))) < gor_weight g)%nat as Hx.
      { rewrite Hw. destruct wait; cbn; lia. }
      apply Hs in Hx. lia.
    + by destruct (Hf m).
    + eexists. split; [by eapply V_hand_panics|by left].
  - destruct (g_ids g) as [|id ids] eqn:Ei.
    + eexists. split; [eapply V_check_panics; [done|done|by right|done]|by left].
    + eexists. split; [eapply V_check_after; [done|done|done|by rewrite Ei]|]. right. cbn.
      assert (gor_weight (set_phase g GDone) < gor_weight g)%nat as Hx by (rewrite Hw; cbn; lia).
      apply Hs in Hx. lia.
Qed.

(** All goroutines of matches are done: a function can go on. *)
Lemma progress_fn wait s k f : v_inv s → v_panic s = false → Forall (λ g, g_phase_of g = GDone) (v_gors s) →
  v_fns s !! k = Some f → (∀ ok, f.2 ≠ FnDone ok) →
  ∃ s', v_step wait s s' ∧ (v_panic s' = true ∨ weight s' < weight s)%nat.
Proof.
  intros Hi Hp Hg Hk Hst.
  assert (∀ y, (fn_weight y < fn_weight f → sum_of fn_weight (<[k := y]> (v_fns s)) < sum_of fn_weight (v_fns s)))%nat as Hs.
  { intros y. pose proof (sum_insert fn_weight (v_fns s) k f y Hk). lia. }
  unfold weight. destruct f as [ty st], st as [|i| |ok]; cbn in Hst.
  - destruct ty; eexists; (split; [(by eapply V_no_connection) || (by eapply V_rest)|right]); cbn.
    + specialize (Hs (FnGrpc, FnDone false)). cbn in Hs. lia.
    + specialize (Hs (FnRest, FnDone false)). cbn in Hs. lia.
  - assert (ty = FnGrpc) as -> by (destruct ty; [done|by destruct (vi_grpc s Hi k _ _ Hk eq_refl)]).
    eexists. split; [by eapply V_eof|right]. cbn. specialize (Hs (FnGrpc, FnWaiting)). cbn in Hs. lia.
  - assert (ty = FnGrpc) as -> by (destruct ty; [done|by destruct (vi_grpc s Hi k _ _ Hk eq_refl)]).
    eexists. split; [eapply V_fn_done; [done|done|eapply Forall_impl; [exact Hg|by intros]]|right].
    cbn. specialize (Hs (FnGrpc, FnDone true)). cbn in Hs. lia.
  - by destruct (Hst ok).
Qed.

Lemma progress wait s : v_inv s → v_panic s = false → (∀ e, v_main s ≠ InvReturned e) →
  ∃ s', v_step wait s s' ∧ (v_panic s' = true ∨ weight s' < weight s)%nat.
Proof.
  intros Hi Hp Hm. destruct (v_pending s) as [|[n id] l] eqn:Ep.
  2: { eexists. split; [by apply (V_answer wait n id [] l)|]. right. unfold weight. cbn. rewrite Ep. cbn. lia. }
  destruct (exists_not_done (v_gors s)) as [Hg|(n & g & Hg & Hd)].
  2: { destruct (v_fan s) as [|m|] eqn:Ef.
       2: { eexists. split; [by apply (V_stream wait m)|]. right. unfold weight. cbn. rewrite Ef. cbn. lia. }
       all: eapply progress_gor; [done|done|by rewrite Ef|done|done]. }
  destruct (exists_fn_not_done (v_fns s)) as [Hf|(k & f & Hk & Hst)].
  2: by eapply progress_fn.
  unfold weight. destruct (v_main s) as [[|ty rest]| | |e] eqn:Em.
  - eexists. split; [by apply V_launched|]. right. cbn. lia.
  - eexists. split; [by eapply V_launch|]. right. cbn. rewrite sum_of_app, sum_of_cons, sum_of_nil. cbn. lia.
  - eexists. split; [by apply V_all_done|]. right. cbn. lia.
  - eexists. split; [by apply V_return|]. right. cbn. lia.
  - by destruct (Hm e).
Qed.

Lemma can_finish wait fns ina s : v_later wait (v_init fns ina) s →
  ∃ s', v_later wait s s' ∧ (v_panic s' = true ∨ v_returned s').
Proof.
  intros H. apply v_inv_reach in H. remember (weight s) as w eqn:Hw. revert s Hw H.
  induction (lt_wf w) as [w _ IH]. intros s -> Hi.
  destruct (v_panic s) eqn:Ep; [exists s; split; [apply rtc_refl|by left]|].
  destruct (v_main s) as [l| | |e] eqn:Em.
  4: { exists s. split; [apply rtc_refl|]. right. by exists e. }
  all: destruct (progress wait s Hi Ep) as (s' & Hs & [Hp|Hlt]); [by rewrite Em|exists s'; split; [by apply rtc_once|by left]|].
  all: destruct (IH (weight s') Hlt s' eq_refl) as (s'' & H1 & H2); [by eapply v_inv_step|]; exists s''; (split; [by eapply rtc_l|done]).
Qed.

(** ** With the wait on, a match without tickets is never sent *)
Lemma wait_sends_tickets fns ina s n k m : v_later true (v_init fns ina) s → n ∈ v_streamed s → ReceivedAs s n k m →
  ∃ id, TicketIn m id.
Proof.
  intros H Hn (g & Hg & Hk & Hm). pose proof (v_inv_reach _ _ _ _ H) as Hi.
  assert (∀ n g, v_gors s !! n = Some g → g_ids g = [] → (∃ l, g_phase_of g = GRequest l) ∨ g_phase_of g = GCheck) as Hall.
  { clear Hi Hn Hg Hk Hm g n k m. revert s H.
    apply (rtc_ind_r (λ s, ∀ n g, v_gors s !! n = Some g → g_ids g = [] →
      (∃ l, g_phase_of g = GRequest l) ∨ g_phase_of g = GCheck)); [done|].
    intros s s' _ Hstep IH n g Hg Hids. destruct Hstep; cbn in Hg; try (by eapply IH).
    - apply lookup_snoc_inv in Hg as [Hg|[_ ->]]; [by eapply IH|]. left. by eexists.
    - apply insert_inv in Hg as [(<- & -> & _)|[_ Hg]]; [left; by eexists|by eapply IH].
    - apply insert_inv in Hg as [(<- & -> & _)|[_ Hg]]; [by right|by eapply IH].
    - apply insert_inv in Hg as [(<- & -> & _)|[_ Hg]]; [done|by eapply IH].
    - apply insert_inv in Hg as [(<- & -> & _)|[_ Hg]]; [|by eapply IH].
      destruct (IH _ _ H0 Hids) as [[l Hl]|Hl]; congruence.
    - apply insert_inv in Hg as [(<- & -> & _)|[_ Hg]]; [done|by eapply IH]. }
  destruct (vi_gors s Hi n g Hg) as (H1 & _ & H3 & _). subst k m.
  assert (n ∈ handed s) as Hh by (unfold handed; apply elem_of_app; by left). apply H3 in Hh.
  destruct (g_ids g) as [|id ids] eqn:Ei.
  - destruct (Hall n g Hg Ei) as [[l Hl]|Hl]; rewrite Hl in Hh; by destruct Hh.
  - exists id. apply (ids_tickets _ _ H1). by left.
Qed.

Lemma finished_count wait fns ina s : v_later wait (v_init fns ina) s → AllFinished s →
  v_counted s = Z.of_nat (length (v_gors s) + length (v_fns s)).
Proof.
  intros H Ha. rewrite (counter_exact _ _ _ _ H). f_equal.
  assert (∀ k, (k < length (v_fns s))%nat → ended s k = true) as He.
  { intros k Hk. destruct (Ha k Hk) as [ty Hty]. unfold ended. by rewrite Hty. }
  pose proof (v_inv_reach _ _ _ _ H) as Hi. f_equal.
  - f_equal. assert (Forall (λ g, ended s (g_fn g) = true) (v_gors s)) as Hf.
    { apply Forall_lookup. intros n g Hg. destruct (vi_gors s Hi n g Hg) as (_ & _ & _ & st & H4 & _). apply He.
      by eapply lookup_lt_Some. }
    clear -Hf. induction Hf as [|g l Hg _ IH]; [done|]. rewrite filter_cons_True by done. by rewrite IH.
  - assert (Forall (λ k, ended s k = true) (seq 0 (length (v_fns s)))) as Hf.
    { apply Forall_forall. intros k Hk. apply elem_of_seq in Hk. apply He. lia. }
    rewrite <-(seq_length (length (v_fns s)) 0) at 2. clear -Hf. revert Hf. generalize (seq 0 (length (v_fns s))). intros l Hf.
    induction Hf as [|k l Hk _ IH]; [done|]. rewrite filter_cons_True by done. cbn. by rewrite IH.
Qed.
