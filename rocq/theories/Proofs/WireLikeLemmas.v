(** Proofs for C160. *)
From Coq Require Import Ascii String ZArith NArith Lia.
From stdpp Require Import prelude strings gmap.
From Verif.Model Require Import GoStrings Types Wire Proto ProtoMsg.
From Verif.Spec Require Import WireLikeSpec.
From Verif.Proofs Require Import WireLemmas.
Local Open Scope list_scope.

(** A message type: its decoder, and the numbers and kinds of its fields. *)
Section message.
  Context {A : Type} (step : A → field → option A) (fs : list (N * wshape)).
  (** Fields with different numbers are decoded independently. *)
  Context (Hcom : ∀ a x y, x.1 ≠ y.1 → x.1 ∈ fs.*1 → y.1 ∈ fs.*1 → (b ← step a x; step b y) = (b ← step a y; step b x)).
  Context (Hunk : ∀ a x, x.1 ∉ fs.*1 → step a x = Some a).
  Context (Hsub : Forall (λ f, ∀ a s s', wlike f.2 s s' → step a (f.1, WLen s) = step a (f.1, WLen s')) fs).

  Lemma fold_cons a x l : fold_fields step a (x :: l) = b ← step a x; fold_fields step b l.
  Proof. simpl. by destruct (step a x). Qed.
  Lemma fold_filter a l : fold_fields step a l = fold_fields step a (filter (λ f, f.1 ∈ fs.*1) l).
  Proof using Hunk.
    revert a. induction l as [|x l IH]; intros a; [done|]. rewrite filter_cons. destruct (decide (x.1 ∈ fs.*1)) as [Hx|Hx].
    - rewrite !fold_cons. destruct (step a x); [apply IH|done].
    - rewrite fold_cons, Hunk by done. apply IH.
  Qed.
  Lemma fold_shuffled l l' : shuffled l l' → Forall (λ f, f.1 ∈ fs.*1) l → Forall (λ f, f.1 ∈ fs.*1) l' ∧ ∀ a, fold_fields step a l = fold_fields step a l'.
  Proof using Hcom.
    induction 1 as [|x l l' _ IH|x y l Hne|l1 l2 l3 _ IH1 _ IH2]; intros HF.
    - done.
    - apply Forall_cons in HF as [Hx HF]. destruct (IH HF) as [HF' E]. split; [by constructor|]. intros a. rewrite !fold_cons. destruct (step a x); [apply E|done].
    - apply Forall_cons in HF as [Hx HF]. apply Forall_cons in HF as [Hy HF]. split; [by repeat constructor|]. intros a.
      assert (∀ u v, fold_fields step a (u :: v :: l) = c ← (b ← step a u; step b v); fold_fields step c l) as E.
      { intros u v. rewrite fold_cons. destruct (step a u); [|done]. cbn [mbind option_bind]. by rewrite fold_cons. }
      by rewrite !E, Hcom.
    - destruct (IH1 HF) as [HF2 E1]. destruct (IH2 HF2) as [HF3 E2]. split; [done|]. intros a. by rewrite E1.
  Qed.
  Lemma message_like a s s' : wlike (WMsg fs) s s' → unmarshal step a s = unmarshal step a s'.
  Proof using Hcom Hunk Hsub.
    intros Hw. inversion Hw as [|fs' ? ? l l' m El El' Hsh HF]; subst; [done|]. unfold unmarshal. rewrite El, El', (fold_filter _ l), (fold_filter _ l').
    destruct (fold_shuffled _ _ Hsh) as [_ ->]; [apply Forall_forall; by intros x [Hx _]%elem_of_list_filter|].
    clear - HF Hsub. rewrite Forall_forall in Hsub. revert a. induction HF as [|[n v] [n' v'] m m' [E Hv] _ IH]; intros a; [done|]. simpl in E. subst n'.
    rewrite !fold_cons. assert (step a (n, v) = step a (n, v')) as ->.
    { destruct Hv as [E|(sh & x & y & Hin & Ex & Ey & Hl)]; simpl in *; subst; [done|]. by apply (Hsub _ Hin). }
    destruct (step a (n, v')); [apply IH|done].
  Qed.
End message.

Lemma text_like s s' : wlike WText s s' → s = s'.
Proof. by inversion 1. Qed.
Ltac number f := let n := fresh "n" in let v := fresh "v" in destruct f as [n v]; cbn [fst] in *.
Local Arguments unmarshal : simpl never.
Local Arguments utf8_valid : simpl never.
Ltac decide_all := repeat (cbn; try reflexivity; match goal with
  | |- context [match ?e with _ => _ end] => lazymatch e with context [match _ with _ => _ end] => fail | _ => first [match goal with H : e = _ |- _ => rewrite H end | destruct e eqn:?] end end).
(** The three conditions for a decoder of this model. *)
Definition good {A} (step : A → field → option A) (fs : list (N * wshape)) : Prop :=
  ∀ a s s', wlike (WMsg fs) s s' → unmarshal step a s = unmarshal step a s'.

Lemma good_by {A} (step : A → field → option A) fs :
  Forall (λ n, Forall (λ n', n = n' ∨ ∀ a v v', (b ← step a (n, v); step b (n', v')) = (b ← step a (n', v'); step b (n, v))) (fs.*1)) (fs.*1) →
  (∀ a n v, n ∉ fs.*1 → step a (n, v) = Some a) →
  Forall (λ f, ∀ a s s', wlike f.2 s s' → step a (f.1, WLen s) = step a (f.1, WLen s')) fs →
  good step fs.
Proof.
  intros H1 H2 H3 a s s'. apply message_like; [| |done].
  - intros b [n v] [n' v'] Hne Hn Hn'. simpl in *. rewrite Forall_forall in H1. specialize (H1 _ Hn). rewrite Forall_forall in H1. by destruct (H1 _ Hn') as [->|E].
  - intros b [n v] Hn. by apply H2.
Qed.

Ltac each := repeat first [apply Forall_nil_2 | apply Forall_cons_2]; cbn [fst snd].
Ltac com_tac := cbn [texts map fmap list_fmap fst]; each; first [left; reflexivity | right; intros [] [] []; cbn; unfold pool_step, dec_ext_entry, dec_entry; repeat match goal with |- context [@unmarshal ?A ?st] => generalize (@unmarshal A st); intro end; decide_all].
Ltac unk_tac := intros a n v Hn; cbn [texts map fmap list_fmap fst] in Hn; rewrite !not_elem_of_cons in Hn; destruct_and!;
  destruct n as [|[[[?|?|]|[?|?|]|]|[[?|?|]|[?|?|]|]|]]; try done; destruct a, v; done.
Ltac sub_tac := cbn [texts map]; each; intros a s s' Hs; first [apply text_like in Hs; subst; reflexivity | idtac].

Lemma ts_good : good ts_step (texts [1; 2]%N).
Proof. apply good_by; [com_tac|unk_tac|sub_tac]. Qed.
Lemma any_good : good any_step (texts [1; 2]%N).
Proof. apply good_by; [com_tac|unk_tac|sub_tac]. Qed.
Lemma entry_string_good : good entry_string_step [(1%N, WText); (2%N, WText)].
Proof. apply good_by; [com_tac|unk_tac|sub_tac]. Qed.
Lemma entry_double_good : good entry_double_step [(1%N, WText); (2%N, WText)].
Proof. apply good_by; [com_tac|unk_tac|sub_tac]. Qed.
Lemma entry_any_good : good entry_any_step [(1%N, WText); (2%N, any_w)].
Proof. apply good_by; [com_tac|unk_tac|sub_tac]. cbn. by rewrite (any_good _ _ _ Hs). Qed.
Lemma ext_entry_good m s s' : wlike (entry_w any_w) s s' → dec_ext_entry m s = dec_ext_entry m s'.
Proof. intros Hs. unfold dec_ext_entry. by rewrite (entry_any_good _ _ _ Hs). Qed.
Lemma filterable_good : good filterable_step [(1%N, WText); (2%N, entry_w WText); (3%N, entry_w WText); (4%N, time_w)].
Proof.
  apply good_by; [com_tac|unk_tac|sub_tac]; cbn.
  - by rewrite (entry_string_good _ _ _ Hs).
  - by rewrite (entry_double_good _ _ _ Hs).
  - by rewrite (ts_good _ _ _ Hs).
Qed.
Lemma ticket_good : good ticket_step [(1%N, WText); (2%N, time_w); (3%N, filterable_w); (4%N, entry_w any_w)].
Proof.
  apply good_by; [com_tac|unk_tac|sub_tac]; cbn.
  - by rewrite (ts_good _ _ _ Hs).
  - by rewrite (filterable_good _ _ _ Hs).
  - by rewrite (ext_entry_good _ _ _ Hs).
Qed.
Lemma assignment_good : good assignment_step [(1%N, WText); (2%N, entry_w any_w)].
Proof. apply good_by; [com_tac|unk_tac|sub_tac]; cbn. by rewrite (ext_entry_good _ _ _ Hs). Qed.
Lemma roster_good : good roster_step [(1%N, WText); (2%N, assignment_w); (3%N, ticket_w); (4%N, entry_w any_w)].
Proof.
  apply good_by; [com_tac|unk_tac|sub_tac]; cbn.
  - by rewrite (assignment_good _ _ _ Hs).
  - by rewrite (ticket_good _ _ _ Hs).
  - by rewrite (ext_entry_good _ _ _ Hs).
Qed.
Lemma tag_filter_good : good tag_filter_step (texts [1]%N).
Proof.
  apply good_by; [com_tac| |sub_tac].
  intros a n v Hn. cbn [texts map fmap list_fmap fst] in Hn. rewrite not_elem_of_cons in Hn. destruct Hn as [Hn _]. destruct n as [|[?|?|]], v; done.
Qed.
Lemma string_filter_good : good string_filter_step (texts [1; 2]%N).
Proof. exact entry_string_good. Qed.
Lemma double_filter_good : good double_filter_step (texts [1; 2; 3; 4]%N).
Proof. apply good_by; [com_tac|unk_tac|sub_tac]. Qed.
Lemma time_filter_good : good time_filter_step [(4%N, WText); (6%N, time_w); (7%N, time_w)].
Proof. apply good_by; [com_tac|unk_tac|sub_tac]; cbn; by rewrite (ts_good _ _ _ Hs). Qed.
Lemma pool_good : good pool_step [(1%N, WText); (2%N, WMsg (texts [1]%N)); (3%N, WMsg (texts [1; 2]%N)); (4%N, WMsg (texts [1; 2; 3; 4]%N));
        (5%N, WMsg [(4%N, WText); (6%N, time_w); (7%N, time_w)]); (6%N, roster_w); (7%N, entry_w any_w)].
Proof.
  apply good_by; [com_tac|unk_tac|sub_tac]; destruct a; cbn.
  - by rewrite (tag_filter_good _ _ _ Hs).
  - by rewrite (string_filter_good _ _ _ Hs).
  - by rewrite (double_filter_good _ _ _ Hs).
  - by rewrite (time_filter_good _ _ _ Hs).
  - by rewrite (roster_good _ _ _ Hs).
  - by rewrite (ext_entry_good _ _ _ Hs).
Qed.
Lemma entry_good {A} (step : A → field → option A) fs : good step fs → good (entry_step step) [(1%N, WText); (2%N, WMsg fs)].
Proof. intros Hg. apply good_by; [com_tac|unk_tac|sub_tac]; cbn. by rewrite (Hg _ _ _ Hs). Qed.
Lemma dec_entry_good {A} (step : A → field → option A) fs init m s s' : good step fs → wlike (entry_w (WMsg fs)) s s' →
  dec_entry step init m s = dec_entry step init m s'.
Proof. intros Hg Hs. unfold dec_entry. by rewrite (entry_good _ _ Hg _ _ _ Hs). Qed.
Lemma profile_good : good profile_step [(1%N, WText); (2%N, entry_w pool_w); (3%N, entry_w any_w)].
Proof.
  apply good_by; [com_tac|unk_tac|sub_tac]; cbn.
  - by rewrite (dec_entry_good _ _ _ _ _ _ pool_good Hs).
  - by rewrite (ext_entry_good _ _ _ Hs).
Qed.
Lemma match_good : good match_step [(1%N, WText); (2%N, entry_w roster_w); (3%N, entry_w any_w)].
Proof.
  apply good_by; [com_tac|unk_tac|sub_tac]; cbn.
  - by rewrite (dec_entry_good _ _ _ _ _ _ roster_good Hs).
  - by rewrite (ext_entry_good _ _ _ Hs).
Qed.
Lemma chunk_good : good chunk_step [(1%N, profile_w); (2%N, WText)].
Proof. apply good_by; [com_tac|unk_tac|sub_tac]; cbn; by rewrite (profile_good _ _ _ Hs). Qed.
Lemma spec_good : good spec_step (texts [1; 2; 3; 4]%N).
Proof. apply good_by; [com_tac|unk_tac|sub_tac]. Qed.
Lemma request_good : good request_step [(1%N, profile_w); (2%N, spec_w)].
Proof.
  apply good_by; [com_tac|unk_tac|sub_tac]; cbn.
  - by rewrite (profile_good _ _ _ Hs).
  - by rewrite (spec_good _ _ _ Hs).
Qed.
Lemma result_good : good result_step [(1%N, match_w)].
Proof.
  apply good_by; [com_tac| |sub_tac]; cbn; [|by rewrite (match_good _ _ _ Hs)].
  intros a n v Hn. rewrite not_elem_of_cons in Hn. destruct Hn as [Hn _]. destruct n as [|[?|?|]], v; done.
Qed.

(** ** Encodings by hand *)
Lemma shuffled_refl l : shuffled l l.
Proof. induction l; by constructor. Qed.
Lemma shuffled_app l m m' : shuffled m m' → shuffled (l ++ m) (l ++ m').
Proof. intros H. induction l as [|x l IH]; [done|]. simpl. by constructor. Qed.
Lemma self_fields (fs : list (N * wshape)) m : Forall2 (λ x y : field, x.1 = y.1 ∧ (x.2 = y.2 ∨ ∃ sh a b, (x.1, sh) ∈ fs ∧ x.2 = WLen a ∧ y.2 = WLen b ∧ wlike sh a b)) m m.
Proof. induction m; constructor; [split; [done|by left]|done]. Qed.
Lemma unknown_like fs pre u post : Forall wf_field (pre ++ u :: post) → u.1 ∉ fs.*1 →
  wlike (WMsg fs) (enc_fields (pre ++ u :: post)) (enc_fields (pre ++ post)).
Proof.
  intros HF Hu. assert (Forall wf_field (pre ++ post)) as HF'.
  { apply Forall_app in HF as [H1 H2]. apply Forall_cons in H2 as [_ H2]. by apply Forall_app. }
  eapply wl_msg; [by apply dec_enc_fields|by apply dec_enc_fields| |apply self_fields].
  rewrite !filter_app, filter_cons_False by done. apply shuffled_refl.
Qed.
Lemma moved_like fs pre x y post : Forall wf_field (pre ++ x :: y :: post) → x.1 ≠ y.1 →
  wlike (WMsg fs) (enc_fields (pre ++ x :: y :: post)) (enc_fields (pre ++ y :: x :: post)).
Proof.
  intros HF Hne. assert (Forall wf_field (pre ++ y :: x :: post)) as HF'.
  { by rewrite (perm_swap x y post). }
  eapply wl_msg; [by apply dec_enc_fields|by apply dec_enc_fields| |apply self_fields].
  rewrite !filter_app. apply shuffled_app. rewrite !filter_cons.
  repeat destruct (decide _); try apply shuffled_refl. by apply sh_swap.
Qed.
Local Arguments utf8_valid : simpl never.
Lemma last_text a b : utf8_valid a = true → utf8_valid b = true → (slen a < 2 ^ 64)%N → (slen b < 2 ^ 64)%N →
  unmarshal_ticket_err (enc_fields [(1%N, WLen a); (1%N, WLen b)]) = Some (Ticket b None None ∅).
Proof.
  intros Ha Hb La Lb. unfold unmarshal_ticket_err, unmarshal. rewrite dec_enc_fields; [|repeat constructor; simpl; lia || done].
  cbn [fold_fields ticket_step]. rewrite Ha. cbn. by rewrite Hb.
Qed.
Lemma functions_in_order a b x y : (slen a < 2 ^ 64)%N → (slen b < 2 ^ 64)%N →
  unmarshal_request (enc_fields [(2%N, WLen a)]) = Some (Request None [x]) → unmarshal_request (enc_fields [(2%N, WLen b)]) = Some (Request None [y]) →
  unmarshal_request (enc_fields [(2%N, WLen a); (2%N, WLen b)]) = Some (Request None [x; y]).
Proof.
  intros La Lb. unfold unmarshal_request. 
  assert (∀ l, Forall (λ f : field, ∃ s, f = (2%N, WLen s) ∧ (slen s < 2 ^ 64)%N) l → unmarshal request_step (Request None []) (enc_fields l) = fold_fields request_step (Request None []) l) as E.
  { intros l Hl. unfold unmarshal. rewrite dec_enc_fields; [done|]. eapply Forall_impl; [exact Hl|]. intros f (s & -> & Hs). split; [simpl; lia|exact Hs]. }
  rewrite !E by (repeat constructor; eauto). cbn [fold_fields request_step rq_profile rq_mmfs].
  destruct (unmarshal spec_step _ a); [|done]. destruct (unmarshal spec_step _ b); [|done]. cbn. by intros [= ->] [= ->].
Qed.
