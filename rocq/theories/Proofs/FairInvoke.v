(** Fair executions of an invocation alongside its server: it comes to its end. *)
From Coq Require Import Ascii String ZArith NArith Lia.
From stdpp Require Import prelude strings gmap relations.
From Verif.Model Require Import GoStrings Types Cache Handlers Queues System RedisSystem Invoke InvokeSystem.
From Verif.Spec Require Import InvokeSpec StateSpec SystemSpec FairSpec FairInvokeSpec.
From Verif.Proofs Require Import InvokeLemmas InvokeMore InvokeSystemLemmas FairLemmas.
Local Open Scope nat_scope.

Definition main_w (m : inv_main) : nat :=
  match m with InvLaunching rest => 3 + length rest | InvWaiting => 2 | InvClosed => 1 | InvReturned _ => 0 end.
Definition fn_w (x : fn_state) : nat :=
  match x with FnNew => 3 | FnStreaming _ => 2 | FnWaiting => 1 | FnDone _ => 0 end.
Definition phase_w (p : g_phase) : nat :=
  match p with GRequest rest => 4 + length rest | GCheck => 3 | GSend => 2 | GCheckAfter => 1 | GDone => 0 end.

(** What a step of the invocation does to its parts. *)
Section parts.
Context (wait : bool).

Definition main_moves (v v' : istate) : Prop :=
  v_main v' = v_main v ∨ main_w (v_main v') < main_w (v_main v).
Definition fns_move (v v' : istate) : Prop :=
  (∀ k x, v_fns v !! k = Some x → ∃ x', v_fns v' !! k = Some x' ∧
     (x' = x ∨ fn_w x'.2 < fn_w x.2 ∨ ∃ i, x.2 = FnStreaming i ∧ x'.2 = FnStreaming (i + 1))) ∧
  (length (v_fns v') = length (v_fns v) ∨ ∃ rest, v_main v = InvLaunching rest).
Definition gors_move (v v' : istate) : Prop :=
  (∀ n g, v_gors v !! n = Some g → ∃ g', v_gors v' !! n = Some g' ∧
     g_fn g' = g_fn g ∧ g_match g' = g_match g ∧ g_ids g' = g_ids g ∧
     (g_phase_of g' = g_phase_of g ∨ phase_w (g_phase_of g') < phase_w (g_phase_of g))) ∧
  (∀ n g', v_gors v' !! n = Some g' → (∃ g, v_gors v !! n = Some g) ∨ ∃ ty i, v_fns v !! g_fn g' = Some (ty, FnStreaming i)).

Lemma gors_same v v' : v_gors v' = v_gors v → gors_move v v'.
Proof. intros E. unfold gors_move. rewrite E. split; [|by eauto]. intros n g Hg. exists g. repeat (split; [done|]). by left. Qed.
Lemma gors_set v v' n g p : v_gors v !! n = Some g → v_gors v' = <[n := set_phase g p]> (v_gors v) →
  (p = g_phase_of g ∨ phase_w p < phase_w (g_phase_of g)) → gors_move v v'.
Proof.
  intros Hg E Hp. unfold gors_move. rewrite E. split.
  - intros m h Hh. destruct (decide (n = m)) as [<-|Hne].
    + rewrite Hg in Hh. injection Hh as <-. exists (set_phase g p).
      rewrite list_lookup_insert by (by eapply lookup_lt_Some). by repeat (split; [done|]).
    + rewrite list_lookup_insert_ne by done. exists h. repeat (split; [done|]). by left.
  - intros m h Hh. left. apply insert_inv in Hh as [(<- & _ & [g1 H1])|[_ H1]]; eauto.
Qed.
Lemma gors_new v v' k i m ids : v_fns v !! k = Some (FnGrpc, FnStreaming i) →
  v_gors v' = v_gors v ++ [Gor k m ids (GRequest ids)] → gors_move v v'.
Proof.
  intros Hk E. unfold gors_move. rewrite E. split.
  - intros n g Hg. exists g. split; [by apply lookup_app_l_Some|]. repeat (split; [done|]). by left.
  - intros n g Hg. apply lookup_snoc_inv in Hg as [Hg|[_ ->]]; [eauto|]. right. cbn. eauto.
Qed.
Lemma fns_same v v' : v_fns v' = v_fns v → fns_move v v'.
Proof. intros E. unfold fns_move. rewrite E. split; [|by left]. intros k x Hx. exists x. split; [done|]. by left. Qed.
Lemma fns_set v v' k ty x x' : v_fns v !! k = Some (ty, x) → v_fns v' = <[k := (ty, x')]> (v_fns v) →
  (fn_w x' < fn_w x ∨ ∃ i, x = FnStreaming i ∧ x' = FnStreaming (i + 1)) → fns_move v v'.
Proof.
  intros Hk E H. unfold fns_move. rewrite E. split; [|left; by rewrite insert_length].
  intros m y Hy. destruct (decide (k = m)) as [<-|Hne].
  - rewrite Hk in Hy. injection Hy as <-. exists (ty, x').
    rewrite list_lookup_insert by (by eapply lookup_lt_Some). split; [done|]. by right.
  - rewrite list_lookup_insert_ne by done. exists y. split; [done|]. by left.
Qed.

Lemma v_step_parts v v' : v_step wait v v' → main_moves v v' ∧ fns_move v v' ∧ gors_move v v'.
Proof.
  unfold main_moves.
  destruct 1 as
    [ina s E|ty rest s E Hm|s E Hm|k s E Hk|k s E Hk|k s E Hk|k i m ids s E Hk Hids|k i s E Hk|k i s E Hk
    |k s E Hk Hall|n g id rest s E Hg Hph|n id l1 l2 s E Hpd|n g s E Hg Hph Hn|n g s E Hg Hph Hids|n g s E Hg Hph Hids
    |n g s E Hg Hph Hf|n g s E Hg Hph Hf|n g s E Hg Hph Hids|n s E Hf Hm|n e s E Hf Hm|s E Hm Hall|s E Hf Hm|s E Hm];
    cbn [with_main with_fan with_fns with_gors with_pending with_answered with_streamed with_lost with_inactive with_counted crash set_fn set_gor
         v_main];
    (split; [try (by left); try (right; rewrite Hm; cbn; lia)|]).
  all: try (split; [by apply fns_same|by apply gors_same]).
  all: try (split; [by apply fns_same|eapply gors_set; [exact Hg|reflexivity|]; rewrite Hph; right; try destruct wait; cbn; lia]).
  all: try (split; [eapply fns_set; [exact Hk|reflexivity|left; cbn; lia]|by apply gors_same]).
  - split; [|by apply gors_same]. split; [|right; eauto]. cbn [v_fns]. intros k x Hx.
    exists x. split; [by apply lookup_app_l_Some|by left].
  - split; [eapply fns_set; [exact Hk|reflexivity|right; eauto]|by eapply gors_new].
Qed.
End parts.

Section alongside.
Context {St : Type} (step : St → St → Prop) (calls : St → list call) (inactive : St → gset string) (wait : bool).
Notation istep := (is_step step calls inactive wait).

Lemma is_step_parts z z' : istep z z' → main_moves (is_inv z) (is_inv z') ∧ fns_move (is_inv z) (is_inv z') ∧ gors_move (is_inv z) (is_inv z').
Proof.
  destruct 1 as [s s' v cs Hp Hs|s v v' cs Hv Hl Ep Ea _|s s' v k i m ids cs Hp Hk Hm Hs Hc|s v cs n g rest j c Hp Hg Hph Hj Hc Hr];
    cbn [is_inv].
  - split; [by left|]. split; [by apply fns_same|by apply gors_same].
  - by eapply v_step_parts.
  - split; [by left|]. split; [eapply fns_set; [exact Hk|reflexivity|right; eauto]|by eapply gors_new].
  - split; [by left|]. split; [by apply fns_same|]. eapply gors_set; [exact Hg|reflexivity|]. rewrite Hph.
    destruct rest; [by left|right; cbn; lia].
Qed.

Lemma is_step_alive z z' : istep z z' → v_panic (is_inv z) = false.
Proof. destruct 1 as [| s v v' cs Hv | |]; cbn; try done. by destruct Hv. Qed.

Context (Hkeep : ∀ s s', step s s' → keeps_calls (calls s) (calls s')).
Context (f : nat → isys St).
Context (HE : Execution istep f) (HF : FairInvocation istep f).
Context (Hok : ∀ n, is_inv_ok calls (f n)) (Hinv : ∀ n, v_inv (is_inv (f n))).
Context (Hret : ∀ n i c, calls (is_server (f n)) !! i = Some c →
  ∃ m c', n <= m ∧ calls (is_server (f m)) !! i = Some c' ∧ returned c').
Notation v_ n := (is_inv (f n)).

Lemma alive n : v_panic (v_ n) = false.
Proof. exact (is_step_alive _ _ (HE n)). Qed.

(** The steps that are possible. *)
Lemma own_possible n v' : v_step wait (v_ n) v' → length (v_gors v') = length (v_gors (v_ n)) →
  v_pending v' = v_pending (v_ n) → v_answered v' = v_answered (v_ n) → v_inactive v' = v_inactive (v_ n) →
  istep (f n) (ISys (is_server (f n)) v' (is_calls (f n))).
Proof. intros H1 H2 H3 H4 H5. destruct (f n) as [s v cs]. by apply IS_own. Qed.

(** ** The fan-in goroutine *)
Lemma fan_free n : ∃ m, n <= m ∧ ∀ g, v_fan (v_ m) ≠ FanSending g.
Proof.
  destruct (v_fan (v_ n)) as [|g|] eqn:E; [exists n; split; [done|by rewrite E]| |exists n; split; [done|by rewrite E]].
  apply (leads_at_once istep f (λ z z', InvMoves FanMoves (is_inv z) (is_inv z'))
    (λ z, ∃ g, v_fan (is_inv z) = FanSending g) (λ z, ∀ g, v_fan (is_inv z) ≠ FanSending g)); [apply HF| | | |by exists g].
  - intros k _. destruct (v_fan (v_ (S k))); [right; done|left; eauto|right; done].
  - intros k [g1 E1] HA. cbn [InvMoves] in HA. intros g2 E2.
    assert (Hs := HE k). destruct Hs as [s s' v cs Hp Hs|s v v' cs Hv Hl Ep Ea _|s s' v j i m ids cs Hp Hk Hm Hs Hc|s v cs j g0 rest j0 c Hp Hg Hph Hj Hc Hr];
      cbn in *; try congruence.
    destruct Hv; cbn in *; congruence.
  - intros k [g1 E1]. exists k. split; [done|]. right.
    destruct (v_main (v_ k)) as [r| | |e] eqn:Em.
    all: first [eexists; split; [eapply own_possible; [eapply (V_stream_late _ g1 e); [apply alive|exact E1|exact Em]|done..]|cbn; by rewrite E1]
               |eexists; split; [eapply own_possible; [eapply (V_stream _ g1); [apply alive|exact E1|intros e; by rewrite Em]|done..]|cbn; by rewrite E1]].
Qed.

(** ** The goroutines of matches *)
Lemma gor_stays n m i g : n <= m → v_gors (v_ n) !! i = Some g → ∃ g', v_gors (v_ m) !! i = Some g' ∧
  g_fn g' = g_fn g ∧ g_match g' = g_match g ∧ g_ids g' = g_ids g ∧
  (g_phase_of g' = g_phase_of g ∨ phase_w (g_phase_of g') < phase_w (g_phase_of g)).
Proof using HE.
  clear Hret Hok Hinv HF Hkeep. intros Hle Hg. induction Hle as [|m Hle IH]; [exists g; auto 10|]. destruct IH as (g1 & H1 & E1 & E2 & E3 & E4).
  destruct (is_step_parts _ _ (HE m)) as (_ & _ & [Hm _]). destruct (Hm i g1 H1) as (g2 & H2 & F1 & F2 & F3 & F4).
  exists g2. split; [done|]. split; [congruence|]. split; [congruence|]. split; [congruence|].
  destruct F4 as [F4|F4]; [rewrite F4; exact E4|]. right. destruct E4 as [E4|E4]; [rewrite <-E4; done|lia].
Qed.

Lemma call_kept n m i c : n <= m → calls (is_server (f n)) !! i = Some c → returned c →
  ∃ c', calls (is_server (f m)) !! i = Some c' ∧ returned c'.
Proof.
  intros Hle Hc Hr. induction Hle as [|m Hle IH]; [eauto|]. destruct IH as (c1 & H1 & R1).
  assert (keeps_calls (calls (is_server (f m))) (calls (is_server (f (S m))))) as Hk.
  { assert (Hs := HE m). destruct Hs; cbn; auto using keeps_refl. }
  destruct (Hk i c1 H1) as (c2 & H2 & _ & R2). eauto.
Qed.

Lemma calls_stay n m i j : n <= m → is_calls (f n) !! i = Some j → is_calls (f m) !! i = Some j.
Proof.
  intros Hle Hj. induction Hle as [|m Hle IH]; [done|]. assert (Hs := HE m). destruct Hs; cbn in *; try done.
  by apply lookup_app_l_Some.
Qed.

Definition gor_is (i : nat) (P : g_phase → Prop) (z : isys St) : Prop := ∃ g, v_gors (is_inv z) !! i = Some g ∧ P (g_phase_of g).
Definition gor_mu (i : nat) (z : isys St) : nat := match v_gors (is_inv z) !! i with Some g => phase_w (g_phase_of g) | None => 0 end.

Lemma phase_0 p : phase_w p = 0 → p = GDone.
Proof. destruct p; cbn; try lia. done. Qed.

(** It can go on, now or later, if it is not done. *)
Lemma gor_possible n i g : v_gors (v_ n) !! i = Some g → g_phase_of g ≠ GDone →
  ∃ m, n <= m ∧ (gor_is i (λ p, p = GDone) (f m) ∨ ∃ s, istep (f m) s ∧ InvMoves (MatchMoves i) (v_ m) (is_inv s)).
Proof.
  intros Hg Hnd.
  (* first to a time when the call has returned, then to one when the fan-in goroutine is free *)
  destruct (io_call _ _ (Hok n) i g Hg) as (j & c & Hj & Hc & _).
  destruct (Hret n j c Hc) as (m1 & c1 & Hm1 & Hc1 & Hr1). destruct (fan_free m1) as (m & Hm & Hfree).
  destruct (call_kept m1 m j c1 Hm Hc1 Hr1) as (c2 & Hc2 & Hr2).
  assert (Hj2 := calls_stay n m i j ltac:(lia) Hj).
  destruct (gor_stays n m i g ltac:(lia) Hg) as (g' & Hg' & _). exists m. split; [lia|].
  assert (Hset : ∀ p, v_gors (set_gor (v_ m) i g' p) !! i = Some (set_phase g' p)).
  { intros p. apply list_lookup_insert. by eapply lookup_lt_Some. }
  destruct (g_phase_of g') as [[|id rest]| | | |] eqn:Ep; [| | | | |by left; exists g'].
  - right. eexists. split.
    + eapply own_possible; [eapply (V_answered _ i g'); [apply alive|exact Hg'|exact Ep|]|cbn; by rewrite ?insert_length|done..].
      rewrite (io_pending _ _ (Hok m)). apply not_elem_of_nil.
    + cbn [is_inv InvMoves]. exists g', (set_phase g' (if wait then GCheck else GSend)). split; [done|]. split; [apply Hset|].
      left. rewrite Ep. cbn. by destruct wait.
  - right. assert (Ha := alive m). destruct (f m) as [s v cs]. cbn [is_inv is_server is_calls] in *. eexists. split.
    + eapply (IS_answered step calls inactive wait s v cs i g' (id :: rest) j c2); done.
    + cbn [is_inv InvMoves]. exists g', (set_phase g' (GRequest [])). split; [done|]. split; [exact (Hset _)|]. left. rewrite Ep. done.
  - right. destruct (g_ids g') as [|id ids] eqn:Ei.
    + eexists. split; [eapply own_possible; [eapply (V_check_panics _ i g'); [apply alive|exact Hg'|by left|done]|done..]|].
      cbn [is_inv InvMoves]. exists g', g'. split; [done|]. split; [done|]. by right.
    + eexists. split; [eapply own_possible; [eapply (V_check _ i g'); [apply alive|exact Hg'|done|by rewrite Ei]|cbn; by rewrite ?insert_length|done..]|].
      cbn [is_inv InvMoves]. exists g', (set_phase g' GSend). split; [done|]. split; [apply Hset|]. left. rewrite Ep. done.
  - right. destruct (v_fan (v_ m)) as [|x|] eqn:Ef; [|by destruct (Hfree x)|].
    + eexists. split; [eapply own_possible; [eapply (V_hand _ i g'); [apply alive|exact Hg'|done|done]|cbn; by rewrite ?insert_length|done..]|].
      cbn [is_inv InvMoves]. exists g', (set_phase g' (if wait then GDone else GCheckAfter)). split; [done|]. split; [exact (Hset _)|].
      left. rewrite Ep. cbn. by destruct wait.
    + eexists. split; [eapply own_possible; [eapply (V_hand_panics _ i g'); [apply alive|exact Hg'|done|done]|done..]|].
      cbn [is_inv InvMoves]. exists g', g'. split; [done|]. split; [done|]. by right.
  - right. destruct (g_ids g') as [|id ids] eqn:Ei.
    + eexists. split; [eapply own_possible; [eapply (V_check_panics _ i g'); [apply alive|exact Hg'|by right|done]|done..]|].
      cbn [is_inv InvMoves]. exists g', g'. split; [done|]. split; [done|]. by right.
    + eexists. split; [eapply own_possible; [eapply (V_check_after _ i g'); [apply alive|exact Hg'|done|by rewrite Ei]|cbn; by rewrite ?insert_length|done..]|].
      cbn [is_inv InvMoves]. exists g', (set_phase g' GDone). split; [done|]. split; [apply Hset|]. left. rewrite Ep. done.
Qed.

Lemma gor_ends n i g : v_gors (v_ n) !! i = Some g → ∃ m, n <= m ∧ gor_is i (λ p, p = GDone) (f m).
Proof.
  intros Hg. destruct (decide (phase_w (g_phase_of g) = 0)) as [E|E]; [exists n; split; [done|]; exists g; auto using phase_0|].
  assert (Hn : g_phase_of g ≠ GDone) by (intros E'; by rewrite E' in E).
  apply (leads_to istep f (λ z z', InvMoves (MatchMoves i) (is_inv z) (is_inv z'))
    (gor_is i (λ p, p ≠ GDone)) (gor_is i (λ p, p = GDone)) (gor_mu i)); [apply HF| | | |by exists g].
  - intros k (g1 & Hg1 & Hn1). destruct (gor_stays k (S k) i g1 ltac:(lia) Hg1) as (g2 & Hg2 & _ & _ & _ & Hp).
    destruct (decide (phase_w (g_phase_of g2) = 0)) as [E2|E2]; [right; exists g2; auto using phase_0|left].
    split; [exists g2; split; [done|intros E'; by rewrite E' in E2]|]. unfold gor_mu. rewrite Hg1, Hg2.
    destruct Hp as [->|Hp]; [done|lia].
  - intros k (g1 & Hg1 & Hn1) (g2 & g3 & Hg2 & Hg3 & [Hne|Hp]); [|by rewrite alive in Hp]. left.
    rewrite Hg1 in Hg2. injection Hg2 as <-.
    destruct (gor_stays k (S k) i g1 ltac:(lia) Hg1) as (g4 & Hg4 & _ & _ & _ & Hp).
    rewrite Hg3 in Hg4. injection Hg4 as <-. unfold gor_mu. rewrite Hg1, Hg3. by destruct Hp.
  - intros k (g1 & Hg1 & Hn1). exact (gor_possible k i g1 Hg1 Hn1).
Qed.

Lemma gor_done_stays n m i : n <= m → gor_is i (λ p, p = GDone) (f n) → gor_is i (λ p, p = GDone) (f m).
Proof.
  intros Hle (g & Hg & Hp). destruct (gor_stays n m i g Hle Hg) as (g' & Hg' & _ & _ & _ & [E|E]).
  - exists g'. split; [done|congruence].
  - rewrite Hp in E. cbn in E. lia.
Qed.

(** All up to some number. *)
Lemma gors_end n b : b <= length (v_gors (v_ n)) → ∃ m, n <= m ∧ ∀ i, i < b → gor_is i (λ p, p = GDone) (f m).
Proof.
  induction b as [|b IH]; intros Hb; [exists n; split; [done|]; intros; lia|].
  destruct (IH ltac:(lia)) as (m & Hm & H). assert (is_Some (v_gors (v_ n) !! b)) as [g Hg] by (apply lookup_lt_is_Some; lia).
  destruct (gor_ends n b g Hg) as (m' & Hm' & H'). exists (m `max` m'). split; [lia|]. intros i Hi.
  destruct (decide (i = b)) as [->|Hne]; [eapply gor_done_stays; [|exact H']; lia|].
  eapply gor_done_stays; [|apply H; lia]. lia.
Qed.

(** ** Functions *)
Definition fn_is (k : nat) (P : fn_state → Prop) (z : isys St) : Prop := ∃ ty x, v_fns (is_inv z) !! k = Some (ty, x) ∧ P x.
Definition fn_mu (k : nat) (z : isys St) : nat := match v_fns (is_inv z) !! k with Some x => fn_w x.2 | None => 0 end.

Lemma fn_stays n m k x : n <= m → v_fns (v_ n) !! k = Some x → ∃ x', v_fns (v_ m) !! k = Some x' ∧
  (x' = x ∨ fn_w x'.2 < fn_w x.2 ∨ ∃ i j, x.2 = FnStreaming i ∧ x'.2 = FnStreaming j).
Proof.
  intros Hle Hx. induction Hle as [|m Hle IH]; [eauto|]. destruct IH as (y & Hy & IH).
  destruct (is_step_parts _ _ (HE m)) as (_ & [Hm _] & _). destruct (Hm k y Hy) as (z & Hz & H).
  exists z. split; [done|]. destruct H as [->|[H|(i & E1 & E2)]]; [done| |].
  - right. left. destruct IH as [->|[IH|(i & j & E1 & E2)]]; [done|lia|]. rewrite E2 in H. rewrite E1. cbn in *. lia.
  - right. destruct IH as [->|[IH|(i' & j & F1 & F2)]].
    + right. eauto.
    + left. rewrite E2. rewrite E1 in IH. cbn in *. lia.
    + right. eauto.
Qed.

Lemma fn_0 x : fn_w x = 0 → ∃ ok, x = FnDone ok.
Proof. destruct x; cbn; try lia. eauto. Qed.

(** Goroutines of a function that does not stream are not started any more. *)
Lemma gors_of n m i g : n <= m → v_gors (v_ m) !! i = Some g → (∀ k, n <= k → k <= m → ∀ ty j, v_fns (v_ k) !! g_fn g ≠ Some (ty, FnStreaming j)) →
  is_Some (v_gors (v_ n) !! i).
Proof.
  intros Hle. revert g. induction Hle as [|m Hle IH]; intros g Hg Hns; [eauto|].
  destruct (is_step_parts _ _ (HE m)) as (_ & _ & Hm & Hnew). destruct (Hnew i g Hg) as [[g0 Hg0]|(ty & j & E)].
  - destruct (Hm i g0 Hg0) as (g1 & Hg1 & E & _). rewrite Hg in Hg1. injection Hg1 as <-.
    apply (IH g0 Hg0). intros k H1 H2. rewrite <-E. apply Hns; lia.
  - exfalso. exact (Hns m Hle ltac:(lia) ty j E).
Qed.

Lemma fn_possible n k ty x : v_fns (v_ n) !! k = Some (ty, x) → fn_w x ≠ 0 →
  ∃ m, n <= m ∧ (fn_is k (λ x, fn_w x = 0) (f m) ∨ ∃ s, istep (f m) s ∧ InvMoves (FnGoesOn k) (v_ m) (is_inv s)).
Proof.
  intros Hk Hx.
  assert (Hset : ∀ m x y, v_fns (v_ m) !! k = Some x → <[k := y]> (v_fns (v_ m)) !! k = Some y).
  { intros m a b Ha. apply list_lookup_insert. by eapply lookup_lt_Some. }
  destruct x as [|i| |ok]; [| | |done].
  - exists n. split; [done|]. right. destruct ty.
    + eexists. split; [eapply own_possible; [eapply (V_no_connection _ k); [apply alive|exact Hk]|done..]|].
      cbn [is_inv InvMoves]. eexists _, _. split; [exact Hk|]. split; [exact (Hset _ _ _ Hk)|]. done.
    + eexists. split; [eapply own_possible; [eapply (V_rest _ k); [apply alive|exact Hk]|done..]|].
      cbn [is_inv InvMoves]. eexists _, _. split; [exact Hk|]. split; [exact (Hset _ _ _ Hk)|]. done.
  - exists n. split; [done|]. right. destruct ty; [|by destruct (vi_grpc _ (Hinv n) k _ _ Hk eq_refl)].
    eexists. split; [eapply own_possible; [eapply (V_fail _ k i); [apply alive|exact Hk]|done..]|].
    cbn [is_inv InvMoves]. eexists _, _. split; [exact Hk|]. split; [exact (Hset _ _ _ Hk)|]. done.
  - destruct ty; [|by destruct (vi_grpc _ (Hinv n) k _ _ Hk eq_refl)].
    destruct (gors_end n (length (v_gors (v_ n))) ltac:(done)) as (m & Hm & Hd). exists m. split; [done|].
    destruct (fn_stays n m k _ Hm Hk) as ([ty' x'] & Hk' & H).
    assert (Hcase : (ty', x') = (FnGrpc, FnWaiting) ∨ fn_w x' = 0).
    { destruct H as [H|[H|(i & j & E & _)]]; [by left|right; cbn in H; lia|done]. }
    destruct Hcase as [[= -> ->]|H0]; [|left; by exists ty', x'].
    right. eexists. split.
    + eapply own_possible; [eapply (V_fn_done _ k); [apply alive|exact Hk'|]|done..].
      rewrite Forall_lookup. intros i g Hg Hfn.
      assert (is_Some (v_gors (v_ n) !! i)) as Hi.
      { eapply gors_of; [exact Hm|exact Hg|]. rewrite Hfn. intros q H1 H2 ty j E.
        destruct (fn_stays n q k _ H1 Hk) as (y & Hy & Hy'). rewrite E in Hy. injection Hy as <-. cbn in Hy'.
        destruct Hy' as [Hy'|[Hy'|(? & ? & Hy' & _)]]; [done|lia|done]. }
      destruct (Hd i) as (g' & Hg' & Hp); [by apply lookup_lt_is_Some|]. rewrite Hg in Hg'. by injection Hg' as <-.
    + cbn [is_inv InvMoves]. eexists _, _. split; [exact Hk'|]. split; [exact (Hset _ _ _ Hk')|]. done.
Qed.

Lemma fn_ends n k x : v_fns (v_ n) !! k = Some x → ∃ m, n <= m ∧ fn_is k (λ x, fn_w x = 0) (f m).
Proof.
  intros Hx. destruct x as [ty x]. destruct (decide (fn_w x = 0)) as [E|E]; [exists n; split; [done|]; by exists ty, x|].
  apply (leads_to istep f (λ z z', InvMoves (FnGoesOn k) (is_inv z) (is_inv z'))
    (fn_is k (λ x, fn_w x ≠ 0)) (fn_is k (λ x, fn_w x = 0)) (fn_mu k)); [apply HF| | | |by exists ty, x].
  - intros j (ty1 & x1 & H1 & Hn1). destruct (fn_stays j (S j) k _ ltac:(lia) H1) as ([ty2 x2] & H2 & H).
    destruct (decide (fn_w x2 = 0)) as [E2|E2]; [right; by exists ty2, x2|left].
    split; [by exists ty2, x2|]. unfold fn_mu. rewrite H1, H2. cbn.
    destruct H as [[= -> ->]|[H|(i1 & i2 & F1 & F2)]]; [done|cbn in H; lia|]. cbn in *. subst. done.
  - intros j (ty1 & x1 & H1 & Hn1) ([ty2 x2] & [ty3 x3] & H2 & H3 & Hne & Hst). left.
    rewrite H1 in H2. injection H2 as <- <-. destruct (fn_stays j (S j) k _ ltac:(lia) H1) as (y & Hy & H).
    rewrite H3 in Hy. injection Hy as <-. unfold fn_mu. rewrite H1, H3. cbn in *.
    destruct H as [[= -> ->]|[H|(i1 & i2 & F1 & F2)]]; [done|lia|]. subst. discriminate (Hst i2 eq_refl).
  - intros j (ty1 & x1 & H1 & Hn1). exact (fn_possible j k ty1 x1 H1 Hn1).
Qed.

Lemma fn_done_stays n m k : n <= m → fn_is k (λ x, fn_w x = 0) (f n) → fn_is k (λ x, fn_w x = 0) (f m).
Proof.
  intros Hle (ty & x & Hx & H0). destruct (fn_stays n m k _ Hle Hx) as ([ty' x'] & Hx' & H). exists ty', x'. split; [done|].
  destruct H as [[= -> ->]|[H|(i & j & E & _)]]; [done|cbn in H; lia|]. cbn in E. subst. done.
Qed.
Lemma fns_end n b : b <= length (v_fns (v_ n)) → ∃ m, n <= m ∧ ∀ i, i < b → fn_is i (λ x, fn_w x = 0) (f m).
Proof.
  induction b as [|b IH]; intros Hb; [exists n; split; [done|]; intros; lia|].
  destruct (IH ltac:(lia)) as (m & Hm & H). assert (is_Some (v_fns (v_ n) !! b)) as [x Hx] by (apply lookup_lt_is_Some; lia).
  destruct (fn_ends n b x Hx) as (m' & Hm' & H'). exists (m `max` m'). split; [lia|]. intros i Hi.
  destruct (decide (i = b)) as [->|Hne]; [eapply fn_done_stays; [|exact H']; lia|].
  eapply fn_done_stays; [|apply H; lia]. lia.
Qed.

(** ** The handler *)
Lemma main_stays n m : n <= m → v_main (v_ m) = v_main (v_ n) ∨ main_w (v_main (v_ m)) < main_w (v_main (v_ n)).
Proof.
  induction 1 as [|m Hle IH]; [by left|]. destruct (is_step_parts _ _ (HE m)) as ([->|H] & _); [done|].
  right. destruct IH as [<-|IH]; [done|lia].
Qed.
Lemma fns_length n m : n <= m → (∀ rest, v_main (v_ n) ≠ InvLaunching rest) → length (v_fns (v_ m)) = length (v_fns (v_ n)).
Proof.
  intros Hle Hn. induction Hle as [|m Hle IH]; [done|].
  destruct (is_step_parts _ _ (HE m)) as (_ & [_ [->|(rest & E)]] & _); [done|]. exfalso.
  destruct (main_stays n m Hle) as [E'|H]; [rewrite E in E'; by apply (Hn rest)|].
  rewrite E in H. destruct (v_main (v_ n)); cbn in H; try lia. by eapply Hn.
Qed.

Lemma main_possible n : main_w (v_main (v_ n)) ≠ 0 →
  ∃ m, n <= m ∧ (main_w (v_main (v_ m)) = 0 ∨ ∃ s, istep (f m) s ∧ InvMoves HandlerMoves (v_ m) (is_inv s)).
Proof.
  destruct (v_main (v_ n)) as [[|ty rest]| | |e] eqn:E; intros Hn; [| | | |done].
  - exists n. split; [done|]. right. eexists. split; [eapply own_possible; [eapply V_launched; [apply alive|exact E]|done..]|].
    cbn. by rewrite E.
  - exists n. split; [done|]. right. eexists. split; [eapply own_possible; [eapply V_launch; [apply alive|exact E]|done..]|].
    cbn. rewrite E. intros [= E']. apply (f_equal length) in E'. cbn in E'. lia.
  - destruct (fns_end n (length (v_fns (v_ n))) ltac:(done)) as (m & Hm & Hd).
    destruct (main_stays n m Hm) as [E'|H].
    + exists m. split; [done|]. right. eexists. split; [eapply own_possible; [eapply V_all_done; [apply alive|congruence|]|done..]|].
      * rewrite Forall_lookup. intros k x Hx. destruct (Hd k) as (ty & x' & Hx' & H0).
        { rewrite <-(fns_length n m Hm); [by eapply lookup_lt_Some|]. intros rest. by rewrite E. }
        rewrite Hx in Hx'. injection Hx' as ->. cbn. by apply fn_0.
      * cbn. rewrite E', E. done.
    + rewrite E in H. exists m. split; [done|]. destruct (v_main (v_ m)) as [r| | |e] eqn:Em; cbn in H; try lia; [|by left].
      right. eexists. split; [eapply own_possible; [eapply V_return; [apply alive|exact Em]|done..]|]. cbn. by rewrite Em.
  - exists n. split; [done|]. right. eexists. split; [eapply own_possible; [eapply V_return; [apply alive|exact E]|done..]|].
    cbn. by rewrite E.
Qed.

Lemma returns n : ∃ m, n <= m ∧ main_w (v_main (v_ m)) = 0.
Proof.
  destruct (decide (main_w (v_main (v_ n)) = 0)) as [E|E]; [by exists n|].
  apply (leads_to istep f (λ z z', InvMoves HandlerMoves (is_inv z) (is_inv z'))
    (λ z, main_w (v_main (is_inv z)) ≠ 0) (λ z, main_w (v_main (is_inv z)) = 0) (λ z, main_w (v_main (is_inv z)))); [apply HF| | | |done].
  - intros k Hk. destruct (decide (main_w (v_main (v_ (S k))) = 0)); [by right|left]. split; [done|].
    destruct (main_stays k (S k) ltac:(lia)) as [->|H]; lia.
  - intros k Hk HA. cbn in HA. left. destruct (main_stays k (S k) ltac:(lia)) as [E1|H]; [done|lia].
  - intros k Hk. exact (main_possible k Hk).
Qed.

Lemma main_0 m : main_w m = 0 → ∃ e, m = InvReturned e.
Proof. destruct m; cbn; try lia. eauto. Qed.

(** ** All goroutines *)
Lemma settles n : ∃ m, n <= m ∧ v_returned (v_ m) ∧
  (∀ k x, v_fns (v_ m) !! k = Some x → ∃ ok, x.2 = FnDone ok) ∧ (∀ i g, v_gors (v_ m) !! i = Some g → g_phase_of g = GDone).
Proof.
  destruct (returns n) as (m1 & Hm1 & H1). destruct (main_0 _ H1) as [e E1].
  destruct (gors_end m1 (length (v_gors (v_ m1))) ltac:(done)) as (m & Hm & Hd). exists m. split; [lia|].
  assert (Hret' : ∀ q, m1 <= q → v_main (v_ q) = InvReturned e).
  { intros q Hq. destruct (main_stays m1 q Hq) as [->|H]; [done|lia]. }
  assert (Hfn : ∀ q, m1 <= q → ∀ k x, v_fns (v_ q) !! k = Some x → ∃ ok, x.2 = FnDone ok).
  { intros q Hq k x Hx. assert (Hd' := vi_done _ (Hinv q) (or_intror (ex_intro _ e (Hret' q Hq)))).
    rewrite Forall_lookup in Hd'. exact (Hd' k x Hx). }
  split; [exists e; by apply Hret'|]. split; [by apply Hfn|].
  intros i g Hg. assert (is_Some (v_gors (v_ m1) !! i)) as Hi.
  { eapply gors_of; [exact Hm|exact Hg|]. intros q H2 H3 ty j E. destruct (Hfn q H2 _ _ E) as [ok Eok]. done. }
  destruct (Hd i) as (g' & Hg' & Hp); [by apply lookup_lt_is_Some|]. rewrite Hg in Hg'. by injection Hg' as <-.
Qed.

Definition quiet (v : istate) : Prop :=
  v_returned v ∧ (∀ k x, v_fns v !! k = Some x → ∃ ok, x.2 = FnDone ok) ∧ (∀ i g, v_gors v !! i = Some g → g_phase_of g = GDone).

(** After that only the fan-in goroutine moves. *)
Lemma quiet_step z z' : istep z z' → quiet (is_inv z) →
  v_main (is_inv z') = v_main (is_inv z) ∧ v_fns (is_inv z') = v_fns (is_inv z) ∧ v_gors (is_inv z') = v_gors (is_inv z) ∧
  (v_fan (is_inv z') = v_fan (is_inv z) ∧ v_streamed (is_inv z') = v_streamed (is_inv z) ∧ v_lost (is_inv z') = v_lost (is_inv z) ∨
   (∃ g, v_fan (is_inv z) = FanSending g ∧ v_fan (is_inv z') = FanIdle) ∨
   v_fan (is_inv z) = FanIdle ∧ v_fan (is_inv z') = FanClosed).
Proof.
  intros Hs ([e Q1] & Q2 & Q3).
  assert (Hf : ∀ k ty x, v_fns (is_inv z) !! k = Some (ty, x) → (∀ ok, x ≠ FnDone ok) → False).
  { intros k ty x Hk Hx. destruct (Q2 k _ Hk) as [ok E]. by eapply Hx. }
  assert (Hg : ∀ i g, v_gors (is_inv z) !! i = Some g → g_phase_of g ≠ GDone → False) by (intros i g Hi Hn; by apply Hn, (Q3 i)).
  destruct Hs as [s s' v cs Hp Hs|s v v' cs Hv Hl Ep Ea Ei|s s' v k i m ids cs Hp Hk Hm Hs Hc|s v cs n g rest j c Hp Hg' Hph Hj Hc Hr];
    cbn [is_inv] in *.
  - cbn. auto 10.
  - clear Ep Ea Ei. destruct Hv as
      [ina s0 E|ty rest s0 E Hm|s0 E Hm|k s0 E Hk|k s0 E Hk|k s0 E Hk|k i m ids s0 E Hk Hids|k i s0 E Hk|k i s0 E Hk
      |k s0 E Hk Hall|n g id rest s0 E Hgn Hph|n id l1 l2 s0 E Hpd|n g s0 E Hgn Hph Hn|n g s0 E Hgn Hph Hids|n g s0 E Hgn Hph Hids
      |n g s0 E Hgn Hph Hfn|n g s0 E Hgn Hph Hfn|n g s0 E Hgn Hph Hids|n s0 E Hfn Hm|n e' s0 E Hfn Hm|s0 E Hm Hall|s0 E Hfn Hm|s0 E Hm];
      cbn in *; try congruence; try (by auto 10);
      try (exfalso; by eapply Hf; [exact Hk|done]);
      try (exfalso; eapply Hg; [exact Hgn|rewrite Hph; done]).
    + repeat (split; [done|]). right. left. eauto.
  - exfalso. by eapply Hf; [exact Hk|done].
  - exfalso. eapply Hg; [exact Hg'|]. by rewrite Hph.
Qed.

Lemma quiet_keeps z z' : istep z z' → quiet (is_inv z) → quiet (is_inv z').
Proof.
  intros Hs Q. destruct (quiet_step z z' Hs Q) as (E1 & E2 & E3 & _). unfold quiet, v_returned. by rewrite E1, E2, E3.
Qed.

Lemma fan_closes n : quiet (v_ n) → ∃ m, n <= m ∧ quiet (v_ m) ∧ v_fan (v_ m) = FanClosed.
Proof.
  intros Q. set (w := λ x, match x with FanSending _ => 2 | FanIdle => 1 | FanClosed => 0 end).
  destruct (decide (w (v_fan (v_ n)) = 0)) as [E|E]; [exists n; split; [done|]; split; [done|]; by destruct (v_fan (v_ n))|].
  apply (leads_to istep f (λ z z', InvMoves FanMoves (is_inv z) (is_inv z'))
    (λ z, quiet (is_inv z) ∧ w (v_fan (is_inv z)) ≠ 0) (λ z, quiet (is_inv z) ∧ v_fan (is_inv z) = FanClosed)
    (λ z, w (v_fan (is_inv z)))); [apply HF| | | |done].
  - intros k [Qk Hk]. assert (Q' := quiet_keeps _ _ (HE k) Qk).
    destruct (quiet_step _ _ (HE k) Qk) as (_ & _ & _ & [(E1 & _)|[(g & E1 & E2)|(E1 & E2)]]).
    + left. rewrite E1. split; [by split|done].
    + left. rewrite E1, E2. cbn. split; [split; [done|lia]|lia].
    + right. by split.
  - intros k [Qk Hk] HA. cbn in HA. assert (Q' := quiet_keeps _ _ (HE k) Qk).
    destruct (quiet_step _ _ (HE k) Qk) as (_ & _ & _ & [(E1 & _)|[(g & E1 & E2)|(E1 & E2)]]).
    + done.
    + left. rewrite E1, E2. cbn. lia.
    + right. by split.
  - intros k [Qk Hk]. exists k. split; [done|]. right. destruct Qk as ([e Em] & _).
    destruct (v_fan (v_ k)) as [|g|] eqn:Ef; [| |done].
    + eexists. split; [eapply own_possible; [eapply V_fan_close; [apply alive|exact Ef|right; eauto]|done..]|]. cbn. by rewrite Ef.
    + eexists. split; [eapply own_possible; [eapply V_stream_late; [apply alive|exact Ef|exact Em]|done..]|]. cbn. by rewrite Ef.
Qed.

(** The invocation comes to its end, and nothing of it happens after that. *)
Lemma over n : ∃ m, n <= m ∧ ∀ k, m <= k → Over (v_ k) ∧ v_gors (v_ k) = v_gors (v_ m) ∧
  v_streamed (v_ k) = v_streamed (v_ m) ∧ v_lost (v_ k) = v_lost (v_ m).
Proof.
  destruct (settles n) as (m1 & Hm1 & H1). destruct (fan_closes m1 H1) as (m & Hm & Q & Ef). exists m. split; [lia|].
  intros k Hk.
  assert (quiet (v_ k) ∧ v_fan (v_ k) = FanClosed ∧ v_gors (v_ k) = v_gors (v_ m) ∧
    v_streamed (v_ k) = v_streamed (v_ m) ∧ v_lost (v_ k) = v_lost (v_ m)) as ((Q1 & Q2 & Q3) & E1 & E2 & E3 & E4).
  { induction Hk as [|k Hk (IQ & I1 & I2 & I3 & I4)]; [by split_and!|].
    assert (Q' := quiet_keeps _ _ (HE k) IQ).
    destruct (quiet_step _ _ (HE k) IQ) as (_ & _ & E3 & [(E1 & F1 & F2)|[(g & E1 & E2)|(E1 & E2)]]); [|congruence..].
    split_and!; congruence || done. }
  split_and!; done.
Qed.

(** Every match that was received has been passed to the caller. *)
Lemma all_handed n i : v_fan (v_ n) = FanClosed → (∀ i g, v_gors (v_ n) !! i = Some g → g_phase_of g = GDone) →
  i < length (v_gors (v_ n)) → i ∈ v_streamed (v_ n) ++ v_lost (v_ n).
Proof.
  intros Ef Hd Hi. apply lookup_lt_is_Some in Hi as [g Hg]. destruct (vi_gors _ (Hinv n) i g Hg) as (_ & _ & Hp & _).
  assert (past_send (g_phase_of g)) as Hps by (right; exact (Hd i g Hg)). apply Hp in Hps.
  unfold handed in Hps. rewrite Ef in Hps. cbn in Hps. by rewrite app_nil_r in Hps.
Qed.
End alongside.
