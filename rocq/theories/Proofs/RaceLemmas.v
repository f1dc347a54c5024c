(** Proofs about Model/Race.v. *)
From Coq Require Import String Lia.
From stdpp Require Import prelude strings list relations.
From Verif.Model Require Import Race.
From Verif.Spec Require Import RaceSpec.

Lemma snoc_cases {A} (l : list A) a i b :
  (l ++ [a]) !! i = Some b → (l !! i = Some b ∧ i < length l) ∨ (i = length l ∧ b = a).
Proof.
  intros H. destruct (decide (i < length l)) as [Hl|Hl].
  - left. rewrite lookup_app_l in H by done. done.
  - right. rewrite lookup_app_r in H by lia.
    destruct (i - length l) as [|n] eqn:E; [|by destruct n].
    simpl in H. split; [lia|congruence].
Qed.

Lemma snoc_old {A} (l : list A) a i b : l !! i = Some b → (l ++ [a]) !! i = Some b.
Proof. intros H. by apply lookup_app_l_Some. Qed.

Lemma snoc_new {A} (l : list A) a : (l ++ [a]) !! length l = Some a.
Proof. rewrite lookup_app_r by done. by rewrite Nat.sub_diag. Qed.

Ltac at_snoc H := apply snoc_cases in H as [[H ?]|[? H]].

Ltac not_gone Hall :=
  match goal with
  | E : _ !! _ = Some ?m |- _ => exfalso; pose proof (Forall_lookup_1 _ _ _ _ Hall E) as E'; simpl in E'; done
  end.

(** Who does what. *)
Lemma who_does_what tr s i g a : r_run tr s → tr !! i = Some (g, a) →
  match g with
  | Fn => match a with AWr _ | ARd _ | AGo _ | AWait => True | _ => False end
  | Mg _ => match a with ARd _ | ADeact _ | ADone => True | _ => False end
  end.
Proof.
  intros Hr. revert i g a. induction Hr as [|tr s b s' Hr IH Hs]; intros i g a H; [done|].
  at_snoc H; [by eapply IH|]. subst b. inversion Hs; subst; done.
Qed.

(** Match goroutines have been started, in order. *)
Lemma started tr s k : r_run tr s → k < length (r_mgs s) → ∃ g, tr !! g = Some (Fn, AGo k).
Proof.
  intros Hr. revert k. induction Hr as [|tr s b s' Hr IH Hs]; intros k H; [simpl in H; lia|].
  assert (Hold : k < length (r_mgs s) → ∃ g, (tr ++ [b]) !! g = Some (Fn, AGo k)).
  { intros Hk. destruct (IH k Hk) as [g Hg]. exists g. by apply snoc_old. }
  inversion Hs; subst; simpl in *; rewrite ?insert_length in H; auto.
  rewrite app_length in H. simpl in H. destruct (decide (k < length ms)); [auto|].
  assert (k = length ms) as -> by lia. exists (length tr). apply snoc_new.
Qed.

Lemma go_bound tr s g k : r_run tr s → tr !! g = Some (Fn, AGo k) → k < length (r_mgs s).
Proof.
  intros Hr. revert g k. induction Hr as [|tr s b s' Hr IH Hs]; intros g k H; [done|].
  at_snoc H.
  - specialize (IH _ _ H). inversion Hs; subst; simpl in *; rewrite ?insert_length, ?app_length; simpl; lia.
  - subst b. inversion Hs; subst; simpl. rewrite app_length. simpl. lia.
Qed.

Lemma go_unique tr s g g' k : r_run tr s →
  tr !! g = Some (Fn, AGo k) → tr !! g' = Some (Fn, AGo k) → g = g'.
Proof.
  intros Hr. revert g g' k. induction Hr as [|tr s b s' Hr IH Hs]; intros g g' k H H'; [done|].
  at_snoc H; at_snoc H'; [by eapply IH| | |congruence].
  - subst b. pose proof (go_bound _ _ _ _ Hr H) as Hb. inversion Hs; subst. simpl in Hb. lia.
  - subst b. pose proof (go_bound _ _ _ _ Hr H') as Hb. inversion Hs; subst. simpl in Hb. lia.
Qed.

(** What a match goroutine does comes after the statement that starts it. *)
Lemma after_go tr s i k a : r_run tr s → tr !! i = Some (Mg k, a) →
  ∃ g, g < i ∧ tr !! g = Some (Fn, AGo k).
Proof.
  intros Hr. revert i k a. induction Hr as [|tr s b s' Hr IH Hs]; intros i k a H; [done|].
  at_snoc H.
  - destruct (IH _ _ _ H) as (g & Hg & E). exists g. split; [done|]. by apply snoc_old.
  - subst b i.
    assert (Hk : k < length (r_mgs s)).
    { inversion Hs; subst; simpl; eapply lookup_lt_Some; eauto. }
    destruct (started _ _ _ Hr Hk) as [g Hg]. exists g. split.
    + by eapply lookup_lt_Some.
    + by apply snoc_old.
Qed.

(** After tdwg.Wait: nothing is started and nothing is assigned. *)
Lemma waited_pc tr s i g : r_run tr s → tr !! i = Some (g, AWait) →
  (r_pc s = F_end ∨ r_pc s = F_ret) ∧ Forall (λ m, m = M_gone) (r_mgs s).
Proof.
  intros Hr. revert i g. induction Hr as [|tr s b s' Hr IH Hs]; intros i g H; [done|].
  at_snoc H.
  - destruct (IH _ _ H) as [Hpc Hall].
    inversion Hs; subst; simpl in *; try (destruct Hpc; congruence); auto.
    all: not_gone Hall.
  - subst b. inversion Hs; subst; simpl; auto.
Qed.

Lemma after_wait tr s i j g b : r_run tr s → tr !! i = Some (g, AWait) → i < j →
  tr !! j = Some b → ∃ v, b = (Fn, ARd v).
Proof.
  intros Hr. revert i j g b. induction Hr as [|tr s c s' Hr IH Hs]; intros i j g b H Hij Hb; [done|].
  at_snoc Hb.
  - at_snoc H; [by eapply IH|]. lia.
  - at_snoc H; [|lia]. subst c.
    destruct (waited_pc _ _ _ _ Hr H) as [Hpc Hall].
    inversion Hs; subst; simpl in *; try (destruct Hpc; congruence); eauto.
    all: not_gone Hall.
Qed.

(** Reads by match goroutines come after a failed deactivation. *)
Lemma failed_pc tr s k : r_run tr s → r_mgs s !! k = Some M_failed →
  ∃ i errs, tr !! i = Some (Mg k, ADeact errs) ∧ errs ≠ [].
Proof.
  intros Hr. revert k. induction Hr as [|tr s b s' Hr IH Hs]; intros k H; [done|].
  assert (Hold : r_mgs s !! k = Some M_failed →
    ∃ i errs, (tr ++ [b]) !! i = Some (Mg k, ADeact errs) ∧ errs ≠ []).
  { intros Hk. destruct (IH k Hk) as (i & errs & E & Hne). exists i, errs. split; [by apply snoc_old|done]. }
  inversion Hs; subst; simpl in *; auto.
  - apply lookup_app_Some in H as [H|[_ H]]; [auto|].
    apply list_lookup_singleton_Some in H as [_ H]. done.
  - destruct (decide (k0 = k)) as [->|Hne].
    + exists (length tr), errs. split; [apply snoc_new|]. intros ->.
      rewrite list_lookup_insert in H by (by eapply lookup_lt_Some). done.
    + rewrite list_lookup_insert_ne in H by done. auto.
  - destruct (decide (k0 = k)) as [->|Hne].
    + rewrite list_lookup_insert in H by (by eapply lookup_lt_Some). done.
    + rewrite list_lookup_insert_ne in H by done. auto.
  - destruct (decide (k0 = k)) as [->|Hne].
    + rewrite list_lookup_insert in H by (by eapply lookup_lt_Some). done.
    + rewrite list_lookup_insert_ne in H by done. auto.
Qed.

Lemma logged_after_failure tr s i k v : r_run tr s → tr !! i = Some (Mg k, ARd v) →
  ∃ d errs, d < i ∧ tr !! d = Some (Mg k, ADeact errs) ∧ errs ≠ [].
Proof.
  intros Hr. revert i k v. induction Hr as [|tr s b s' Hr IH Hs]; intros i k v H; [done|].
  at_snoc H.
  - destruct (IH _ _ _ H) as (d & errs & Hd & E & Hne). exists d, errs.
    split; [done|]. split; [by apply snoc_old|done].
  - subst b i. inversion Hs; subst.
    destruct (failed_pc _ _ k Hr ltac:(done)) as (d & errs & E & Hne). exists d, errs.
    split; [by eapply lookup_lt_Some|]. split; [by apply snoc_old|done].
Qed.

(** After starting a goroutine the function receives again before it returns. *)
Lemma receives_again tr s g k : r_run tr s → tr !! g = Some (Fn, AGo k) →
  r_pc s = F_recv ∨ ∃ j w, g < j ∧ tr !! j = Some (Fn, AWr w).
Proof.
  intros Hr. revert g k. induction Hr as [|tr s b s' Hr IH Hs]; intros g k H; [done|].
  at_snoc H.
  - destruct (IH _ _ H) as [Hpc|(j & w & Hj & E)].
    + inversion Hs; subst; simpl in *; try congruence; auto.
      right. exists (length tr), e. split; [by eapply lookup_lt_Some|]. apply snoc_new.
    + right. exists j, w. split; [done|]. by apply snoc_old.
  - subst b. inversion Hs; subst. simpl. auto.
Qed.

(** ** Happens-before *)

Lemma hb_closed tr (P : nat → Prop) i j :
  (∀ x y, P x → OrderedDirectly tr x y → P y) → HappensBefore tr i j → P i → P j.
Proof. intros Hc. induction 1 as [x y Hxy|x y z Hxy _ IH]; eauto. Qed.

(** The read of a match goroutine is not ordered before any assignment. *)
Lemma read_not_before_write tr s i k j w v : r_run tr s →
  tr !! i = Some (Mg k, ARd v) → tr !! j = Some (Fn, AWr w) → ¬ HappensBefore tr i j.
Proof.
  intros Hr Hi Hj Hhb.
  set (P := λ x, (∃ a, tr !! x = Some (Mg k, a)) ∨
                 (∃ x0, x0 ≤ x ∧ tr !! x0 = Some (Fn, AWait))).
  assert (HP : P j).
  { apply (hb_closed tr P i j); [|done|left; eauto].
    intros x y HPx (Hxy & gi & ai & gj & aj & Hx & Hy & Hord).
    destruct HPx as [(a & Ha)|(x0 & Hx0 & E0)].
    - rewrite Ha in Hx. inversion Hx; subst gi ai.
      destruct Hord as [<-|[(k' & -> & _)|(-> & ->)]].
      + left. eauto.
      + by pose proof (who_does_what _ _ _ _ _ Hr Ha).
      + right. exists y. split; [done|].
        destruct gj as [|k']; [done|]. by pose proof (who_does_what _ _ _ _ _ Hr Hy).
    - right. exists x0. split; [lia|done]. }
  destruct HP as [(a & Ha)|(x0 & Hx0 & E0)]; [congruence|].
  assert (x0 < j) as Hlt. { destruct (decide (x0 = j)) as [->|]; [congruence|lia]. }
  destruct (after_wait _ _ _ _ _ _ Hr E0 Hlt Hj) as [v' E]. congruence.
Qed.

(** An assignment after a goroutine was started is not ordered before anything the
    goroutine does. *)
Lemma write_not_before_read tr s g i k j w a : r_run tr s →
  tr !! g = Some (Fn, AGo k) → g < j → tr !! j = Some (Fn, AWr w) →
  tr !! i = Some (Mg k, a) → ¬ HappensBefore tr j i.
Proof.
  intros Hr Hg Hgj Hj Hi Hhb.
  set (P := λ x, (∃ b, tr !! x = Some (Fn, b) ∧ j ≤ x) ∨
                 (∃ k' b, tr !! x = Some (Mg k', b) ∧ k' ≠ k)).
  assert (HP : P i).
  { apply (hb_closed tr P j i); [|done|left; eauto].
    intros x y HPx (Hxy & gi & ai & gj & aj & Hx & Hy & Hord).
    destruct HPx as [(b & Hb & Hjx)|(k' & b & Hb & Hk')].
    - rewrite Hb in Hx. inversion Hx; subst gi ai.
      destruct Hord as [<-|[(k' & -> & ->)|(-> & ->)]].
      + left. exists aj. split; [done|lia].
      + right. exists k', aj. split; [done|]. intros ->.
        pose proof (go_unique _ _ _ _ _ Hr Hg Hb). lia.
      + by pose proof (who_does_what _ _ _ _ _ Hr Hb).
    - rewrite Hb in Hx. inversion Hx; subst gi ai.
      destruct Hord as [<-|[(k'' & -> & _)|(-> & ->)]].
      + right. eauto.
      + by pose proof (who_does_what _ _ _ _ _ Hr Hb).
      + left. destruct gj as [|k'']; [|by pose proof (who_does_what _ _ _ _ _ Hr Hy)].
        exists AWait. split; [done|].
        destruct (decide (j ≤ y)) as [|Hn]; [done|]. exfalso.
        destruct (after_wait _ _ y j _ _ Hr Hy ltac:(lia) Hj) as [v' E]. congruence. }
  destruct HP as [(b & Hb & _)|(k' & b & Hb & Hk')]; congruence.
Qed.

(** Exactly when there is a race. *)
Lemma race_iff tr s : r_run tr s →
  HasRace tr ↔ ∃ k i v j w g, Logged tr i k v ∧ tr !! g = Some (Fn, AGo k) ∧
    g < j ∧ tr !! j = Some (Fn, AWr w).
Proof.
  intros Hr. split.
  - intros (i & j & gi & ai & gj & aj & Hi & Hj & Hne & (w & ->) & (v & Hacc) & Hn1 & Hn2).
    pose proof (who_does_what _ _ _ _ _ Hr Hi) as Wi.
    destruct gi as [|ki]; [|done].
    destruct gj as [|k]; [done|].
    pose proof (who_does_what _ _ _ _ _ Hr Hj) as Wj.
    destruct Hacc as [->| ->]; [done|].
    destruct (after_go _ _ _ _ _ Hr Hj) as (g & Hgj & Hg).
    exists k, j, v, i, w, g. split; [done|]. split; [done|]. split; [|done].
    destruct (decide (g < i)) as [|Hge]; [done|]. exfalso. apply Hn1.
    assert (i ≠ g) as Hneq by (intros ->; congruence).
    apply tc_l with g.
    + split; [lia|]. exists Fn, (AWr w), Fn, (AGo k). auto.
    + apply tc_once. split; [done|]. exists Fn, (AGo k), (Mg k), (ARd v).
      split; [done|]. split; [done|]. right. left. eauto.
  - intros (k & i & v & j & w & g & Hi & Hg & Hgj & Hj). unfold Logged in Hi.
    exists j, i, Fn, (AWr w), (Mg k), (ARd v).
    split; [done|]. split; [done|]. split; [done|]. split; [by eexists|]. split; [eexists; auto|].
    split; [eapply write_not_before_read; eauto|eapply read_not_before_write; eauto].
Qed.

Lemma no_race_if_deactivated tr s : r_run tr s → AllDeactivated tr → ¬ HasRace tr.
Proof.
  intros Hr Hall H. apply (race_iff _ _ Hr) in H as (k & i & v & _ & _ & _ & Hi & _).
  destruct (logged_after_failure _ _ _ _ _ Hr Hi) as (d & errs & _ & Hd & Hne).
  by apply Hne, (Hall _ _ _ Hd).
Qed.

Lemma race_when_returned tr s i k v : r_run tr s → r_pc s = F_ret → Logged tr i k v → HasRace tr.
Proof.
  intros Hr Hpc Hi. destruct (after_go _ _ _ _ _ Hr Hi) as (g & _ & Hg).
  destruct (receives_again _ _ _ _ Hr Hg) as [E|(j & w & Hj & E)]; [congruence|].
  apply (race_iff _ _ Hr). exists k, i, v, j, w, g. auto.
Qed.

(** ** What is logged *)

(** The variable holds what was assigned last. *)
Lemma err_last tr s : r_run tr s →
  (r_pc s = F_decl) ∨
  ∃ i, tr !! i = Some (Fn, AWr (r_err s)) ∧ ∀ j g w, i < j → tr !! j ≠ Some (g, AWr w).
Proof.
  induction 1 as [|tr s b s' Hr IH Hs]; [by left|]. right.
  assert (Hw : ∀ e, b = (Fn, AWr e) → r_err s' = e →
    ∃ i, (tr ++ [b]) !! i = Some (Fn, AWr (r_err s')) ∧ ∀ j g w, i < j → (tr ++ [b]) !! j ≠ Some (g, AWr w)).
  { intros e -> ->. exists (length tr). split; [apply snoc_new|].
    intros j g w Hj H. at_snoc H; lia. }
  assert (Ho : r_pc s ≠ F_decl → (∀ e, b.2 ≠ AWr e) → r_err s' = r_err s →
    ∃ i, (tr ++ [b]) !! i = Some (Fn, AWr (r_err s')) ∧ ∀ j g w, i < j → (tr ++ [b]) !! j ≠ Some (g, AWr w)).
  { intros Hpc Hb ->. destruct IH as [?|(i & Hi & Hl)]; [done|].
    exists i. split; [by apply snoc_old|]. intros j g w Hj H. at_snoc H; [by eapply Hl|].
    subst b. by eapply Hb. }
  assert (Hd : r_pc s = F_decl → r_mgs s = []).
  { clear -Hr. induction Hr as [|tr s b s' Hr IH Hs]; [done|].
    inversion Hs; subst; simpl in *; try done; try (by destruct (decide _)).
    - by destruct v.
    - intros ->. rewrite IH in H by done. done.
    - intros ->. rewrite IH in H by done. done.
    - intros ->. rewrite IH in H by done. done. }
  inversion Hs; subst; simpl in *; try (by eapply Hw); try (by apply Ho).
  all: apply Ho; try done; intros ->; rewrite Hd in H by done; done.
Qed.

Lemma logged_value tr s i k v : r_run tr s → Logged tr i k v →
  ∃ j, j < i ∧ tr !! j = Some (Fn, AWr v) ∧ ∀ x g w, j < x → x < i → tr !! x ≠ Some (g, AWr w).
Proof.
  intros Hr. revert i k v. unfold Logged.
  induction Hr as [|tr s b s' Hr IH Hs]; intros i k v H; [done|].
  at_snoc H.
  - destruct (IH _ _ _ H) as (j & Hj & E & Hl). exists j. split; [done|].
    split; [by apply snoc_old|]. intros x g w Hjx Hxi Hx. at_snoc Hx; [by eapply Hl|]. lia.
  - subst b i. inversion Hs; subst.
    destruct (err_last _ _ Hr) as [E|(j & Hj & Hl)].
    + exfalso. simpl in E. subst.
      assert (Hk : k < length (r_mgs (RState F_decl v ms))) by (simpl; by eapply lookup_lt_Some).
      destruct (started _ _ _ Hr Hk) as [g Hg].
      destruct (receives_again _ _ _ _ Hr Hg) as [E|(j & w & _ & E)]; [done|].
      clear -Hr E. remember (RState F_decl v ms) as s eqn:Es.
      assert (Hpc : r_pc s = F_decl) by (by subst). clear Es.
      revert j w E Hpc. induction Hr as [|tr s b s' Hr IH Hs]; intros j w E Hpc; [done|].
      at_snoc E.
      * inversion Hs; subst; simpl in *; try done; try (by destruct (decide _)); try (by destruct v0); by eapply IH.
      * subst b. inversion Hs; subst; simpl in *; done.
    + simpl in Hj. exists j. split; [by eapply lookup_lt_Some|]. split; [by apply snoc_old|].
      intros x g w Hjx Hxi Hx. at_snoc Hx; [by eapply Hl|lia].
Qed.

(** When a match goroutine is started the variable is nil. *)
Lemma go_nil tr s g k : r_run tr s → tr !! g = Some (Fn, AGo k) →
  ∃ j, j < g ∧ tr !! j = Some (Fn, AWr ENil) ∧ ∀ x g' w, j < x → x < g → tr !! x ≠ Some (g', AWr w).
Proof.
  intros Hr. revert g k.
  assert (Hgot : ∀ tr s, r_run tr s → r_pc s = F_got → r_err s = ENil).
  { intros tr' s'. induction 1 as [|tr' s' b s'' Hr' IH Hs]; [done|].
    inversion Hs; subst; simpl in *; try done; try (by destruct (decide _)).
    by destruct v. }
  induction Hr as [|tr s b s' Hr IH Hs]; intros g k H; [done|].
  at_snoc H.
  - destruct (IH _ _ H) as (j & Hj & E & Hl). exists j. split; [done|].
    split; [by apply snoc_old|]. intros x g' w Hjx Hxi Hx. at_snoc Hx; [by eapply Hl|]. lia.
  - subst b g. inversion Hs; subst.
    pose proof (Hgot _ _ Hr eq_refl) as E0. simpl in E0. subst v.
    destruct (err_last _ _ Hr) as [E|(j & Hj & Hl)]; [done|].
    simpl in Hj. exists j. split; [by eapply lookup_lt_Some|]. split; [by apply snoc_old|].
    intros x g' w Hjx Hxi Hx. at_snoc Hx; [by eapply Hl|lia].
Qed.

(** A log message says nil, or what a later Recv said. *)
Lemma logged_nil_or_later tr s i k v : r_run tr s → Logged tr i k v →
  v = ENil ∨ ∃ g j, tr !! g = Some (Fn, AGo k) ∧ g < j ∧ j < i ∧ tr !! j = Some (Fn, AWr v).
Proof.
  intros Hr H. destruct (logged_value _ _ _ _ _ Hr H) as (j & Hji & Hj & Hl).
  destruct (after_go _ _ _ _ _ Hr H) as (g & Hgi & Hg).
  destruct (go_nil _ _ _ _ Hr Hg) as (j' & Hjg & Hj' & Hl').
  destruct (decide (g < j)) as [Hlt|Hge]; [right; eauto 10|]. left.
  assert (j ≠ g) by (intros ->; congruence).
  destruct (decide (j < j')) as [H1|H1].
  { exfalso. apply (Hl j' Fn ENil); [done|lia|done]. }
  destruct (decide (j' < j)) as [H2|H2].
  { exfalso. apply (Hl' j Fn v); [done|lia|done]. }
  assert (j = j') as -> by lia. congruence.
Qed.

(** A function goroutine that has come to the end of its stream returns after its
    match goroutines. *)
Definition ended (tr : trace) (s : rstate) : Prop :=
  (match r_pc s with F_decl | F_type | F_dialled | F_run | F_ran => r_mgs s = [] | _ => True end) ∧
  (r_pc s = F_end ∨ r_pc s = F_ret → r_err s = EEof → Forall (λ m, m = M_gone) (r_mgs s)) ∧
  (∀ g k, tr !! g = Some (Fn, AGo k) → k < length (r_mgs s)) ∧
  (∀ k, r_mgs s !! k = Some M_gone → ∃ d, tr !! d = Some (Mg k, ADone)).

Lemma run_ended tr s : r_run tr s → ended tr s.
Proof.
  induction 1 as [|tr s a s' Hr IH Hs].
  { split_and!; cbn; try done; intros; try by constructor. }
  destruct IH as (I1 & I2 & I3 & I4).
  assert (K4 : ∀ k, (∃ d, tr !! d = Some (Mg k, ADone)) → ∃ d, (tr ++ [a]) !! d = Some (Mg k, ADone)).
  { intros k (d & Hd). exists d. by apply lookup_app_l_Some. }
  assert (K3 : ∀ g k, (tr ++ [a]) !! g = Some (Fn, AGo k) → tr !! g = Some (Fn, AGo k) ∨ a = (Fn, AGo k)).
  { intros g k Hg. apply lookup_app_Some in Hg as [Hg|[_ Hg]]; [by left|].
    apply list_lookup_singleton_Some in Hg as [_ ->]. by right. }
  destruct Hs; cbn [r_pc r_err r_mgs] in *.
  all: split_and!; cbn [r_pc r_err r_mgs]; auto.
  all: try (intros g k' Hg; apply K3 in Hg as [Hg|Hg]; [|by inversion Hg]; specialize (I3 g k' Hg); rewrite ?insert_length, ?app_length; lia).
  all: try (intros k' Hk'; apply list_lookup_insert_Some in Hk' as [(-> & E & _)|[_ Hk']]; [|by apply K4, I4]; by case_decide).
  all: try (intros [X|X]; discriminate X).
  all: try (intros _ ->; try discriminate; by rewrite I1).
  - done.
  - by case_decide.
  - by case_decide.
  - by destruct v.
  - intros [X|X]; destruct v; discriminate.
  - intros g k Hg. apply K3 in Hg as [Hg|Hg]; [specialize (I3 g k Hg)|inversion Hg; subst]; rewrite app_length; cbn; lia.
  - intros k Hk. apply lookup_app_Some in Hk as [Hk|[_ Hk]]; [by apply K4, I4|].
    apply list_lookup_singleton_Some in Hk as [_ Hk]. discriminate.
  - destruct pc; try done; by rewrite I1 in *.
  - intros X Y. specialize (I2 X Y). rewrite Forall_lookup in I2. by apply I2 in H.
  - destruct pc; try done; by rewrite I1 in *.
  - intros X Y. specialize (I2 X Y). rewrite Forall_lookup in I2. by apply I2 in H.
  - intros k0 Hk. apply list_lookup_insert_Some in Hk as [(_ & E & _)|[_ Hk]]; [discriminate|by apply K4, I4].
  - destruct pc; try done; by rewrite I1 in *.
  - intros X Y. specialize (I2 X Y). rewrite Forall_lookup in I2. by apply I2 in H.
  - intros k0 Hk. apply list_lookup_insert_Some in Hk as [(<- & _ & _)|[_ Hk]]; [|by apply K4, I4].
    exists (length tr). apply list_lookup_middle. done.
Qed.

Lemma eof_waits tr s g k :
  r_run tr s → r_pc s = F_ret → r_err s = EEof → tr !! g = Some (Fn, AGo k) → ∃ d, tr !! d = Some (Mg k, ADone).
Proof.
  intros Hr Hp He Hg. destruct (run_ended _ _ Hr) as (_ & I2 & I3 & I4).
  destruct (lookup_lt_is_Some_2 _ _ (I3 g k Hg)) as [m Hm].
  assert (E : m = M_gone) by exact (proj1 (Forall_lookup _ _) (I2 (or_intror Hp) He) _ _ Hm). subst m. by apply I4.
Qed.
