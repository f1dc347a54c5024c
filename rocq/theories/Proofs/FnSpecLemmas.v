(** The functions of a request. *)
From Coq Require Import Ascii String ZArith NArith Lia.
From stdpp Require Import prelude strings gmap.
From Verif.Model Require Import GoStrings Types Wire Proto Dial ProtoMsg Invoke FnSpec.
From Verif.Spec Require Import InvokeSpec.
From Verif.Proofs Require Import WireLemmas ProtoLemmas ProtoMsgLemmas InvokeLemmas.

Definition not_launched (m : inv_main) : list fn_type := match m with InvLaunching l => l | _ => [] end.

Lemma insert_fst {A B} (l : list (A * B)) k a b c : l !! k = Some (a, b) → (<[k := (a, c)]> l).*1 = l.*1.
Proof.
  intros H. rewrite list_fmap_insert. cbn. apply list_insert_id. rewrite list_lookup_fmap, H. done.
Qed.

Lemma fns_in_order wait fns ina s : v_later wait (v_init fns ina) s →
  ((v_fns s).*1 ++ not_launched (v_main s) = fns)%list.
Proof.
  revert s. apply (rtc_ind_r (λ s, ((v_fns s).*1 ++ not_launched (v_main s) = fns)%list)); [done|].
  intros s s' _ Hs IH. destruct Hs as
    [ina' s E|ty rest s E Hm|s E Hm|k s E Hk|k s E Hk|k s E Hk|k i m ids s E Hk Hids|k i s E Hk|k i s E Hk
    |k s E Hk Hall|n g id rest s E Hg Hp|n id l1 l2 s E Hpe|n g s E Hg Hp Hnp|n g s E Hg Hp Hids|n g s E Hg Hp Hids
    |n g s E Hg Hp Hf|n g s E Hg Hp Hf|n g s E Hg Hp Hids|n s E Hf Hm|n e s E Hf Hm|s E Hm Hall|s E Hf Hm|s E Hm];
    cbn; try exact IH; try (rewrite (insert_fst _ _ _ _ _ Hk); exact IH); try (rewrite Hm in IH; exact IH).
  rewrite fmap_app, <-(assoc_L (++)). rewrite Hm in IH. exact IH.
Qed.

Lemma matches_from_grpc wait r ina s n k m : v_later wait (v_init (request_fns r) ina) s → ReceivedAs s n k m →
  ∃ f t, rq_mmfs r !! k = Some f ∧ dialled f = Some t.
Proof.
  intros H (g & Hg & Hk & _). pose proof (fns_in_order _ _ _ _ H) as Ho. apply v_inv_reach in H.
  destruct (vi_gors _ H n g Hg) as (_ & _ & _ & st & Hf & _). subst k.
  assert (request_fns r !! g_fn g = Some FnGrpc) as Hr.
  { rewrite <-Ho. apply lookup_app_l_Some. by rewrite list_lookup_fmap, Hf. }
  unfold request_fns in Hr. apply list_lookup_fmap_Some in Hr as (f & Hf' & Hr). exists f, (mmf_target (mf_host f) (mf_port f)).
  split; [done|]. unfold dialled. by rewrite <-Hr.
Qed.

Lemma undialled_fail wait r ina s k f : v_later wait (v_init (request_fns r) ina) s → v_returned s →
  rq_mmfs r !! k = Some f → dialled f = None → FnFailed s k ∧ ∀ n m, ¬ ReceivedAs s n k m.
Proof.
  intros H [e He] Hf Hd. split.
  - pose proof (fns_in_order _ _ _ _ H) as Ho. rewrite He in Ho. cbn in Ho. rewrite app_nil_r in Ho. apply v_inv_reach in H.
    assert (request_fns r !! k = Some FnRest) as Hr.
    { unfold request_fns. rewrite list_lookup_fmap, Hf. cbn. unfold dialled in Hd. by destruct (fn_type_of f). }
    rewrite <-Ho, list_lookup_fmap in Hr. destruct (v_fns s !! k) as [[ty st]|] eqn:E; [|done]. cbn in Hr. injection Hr as ->.
    assert (main_closed (v_main s)) as Hc by (right; by exists e). pose proof (vi_done _ H Hc) as Hall.
    rewrite Forall_lookup in Hall. destruct (Hall k _ E) as [ok Hok]. cbn in Hok. subst st.
    destruct (vi_grpc _ H k _ _ E eq_refl) as [Hx|Hx]; [done|]. injection Hx as ->. by exists FnRest.
  - intros n m Hr. destruct (matches_from_grpc _ _ _ _ _ _ _ H Hr) as (f' & t & Hf' & Ht). congruence.
Qed.

(** ** The type of a specification on the wire *)
Lemma rest_iff v : type_of_Z (u64_to_i32 v) = MMF_REST ↔ (v mod 2 ^ 32 = 0)%N.
Proof.
  assert ((v mod 2 ^ 32 = 0)%N ↔ (Z.of_N v mod 2 ^ 32 = 0)%Z) as ->.
  { change (2 ^ 32)%Z with (Z.of_N (2 ^ 32)). rewrite <-N2Z.inj_mod. lia. }
  unfold type_of_Z, u64_to_i32. cbv zeta. pose proof (Z.mod_pos_bound (Z.of_N v) (2 ^ 32) ltac:(done)) as Hb.
  revert Hb. generalize (Z.of_N v mod 2 ^ 32)%Z. intros z Hb.
  destruct (z <? 2 ^ 31)%Z eqn:E.
  - destruct (z =? 0)%Z eqn:E0; [split; [intros _; lia|done]|]. destruct (z =? 1)%Z; (split; [done|lia]).
  - destruct (z - 2 ^ 32 =? 0)%Z eqn:E0; [exfalso; lia|]. destruct (z - 2 ^ 32 =? 1)%Z; (split; [done|lia]).
Qed.

(** A field 4 of the right kind. *)
Definition type_field (f : field) : option N := match f with (4%N, WVar v) => Some v | _ => None end.

Lemma spec_step_type d f d' : spec_step d f = Some d' →
  mf_type d' = match type_field f with Some v => type_of_Z (u64_to_i32 v) | None => mf_type d end.
Proof.
  unfold spec_step, type_field. destruct f as [n v]. intros H.
  repeat (case_match; simplify_eq); done.
Qed.

Lemma spec_type d fs d' : fold_fields spec_step d fs = Some d' →
  mf_type d' = match last (omap type_field fs) with Some v => type_of_Z (u64_to_i32 v) | None => mf_type d end.
Proof.
  revert d'. induction fs as [|f fs IH] using rev_ind; intros d' H.
  - cbn in H. by injection H as ->.
  - rewrite fold_fields_app in H. destruct (fold_fields spec_step d fs) as [d1|]; [|done].
    specialize (IH d1 eq_refl). cbn [fold_fields] in H. destruct (spec_step d1 f) as [d2|] eqn:E; [|done]. injection H as <-.
    rewrite (spec_step_type _ _ _ E). rewrite omap_app. cbn. destruct (type_field f) as [v|]; [by rewrite last_snoc|].
    by rewrite app_nil_r.
Qed.

Lemma undialled_iff s f : unmarshal spec_step (MmfSpec "" "" 0 MMF_REST) s = Some f →
  ∃ fs, dec_fields s = Some fs ∧ (dialled f = None ↔ ∀ v, last (omap type_field fs) = Some v → (v mod 2 ^ 32 = 0)%N).
Proof.
  unfold unmarshal. destruct (dec_fields s) as [fs|]; [|done]. intros H. exists fs. split; [done|].
  apply spec_type in H. unfold dialled, fn_type_of. rewrite H. destruct (last (omap type_field fs)) as [v|]; cbn.
  - pose proof (rest_iff v) as Hr. split.
    + intros Hn v' [= <-]. apply Hr. by destruct (type_of_Z (u64_to_i32 v)).
    + intros Hv. by rewrite (proj2 Hr (Hv v eq_refl)).
  - split; [|done]. intros _ v'. done.
Qed.
