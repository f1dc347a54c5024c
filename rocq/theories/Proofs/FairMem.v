(** Fair executions of an instance with the in-memory store: every call returns and
    every update is applied. *)
From Coq Require Import Ascii String ZArith NArith Lia ZifyBool ZifyN.
From stdpp Require Import prelude strings gmap relations.
From Verif.Model Require Import GoStrings Types Proto Cache Replica Handlers MemRepl Queues System.
From Verif.Spec Require Import IdSpec CacheSpec SystemSpec FairSpec.
From Verif.Proofs Require Import HistoryLemmas HistoryMore InstLemmas MemSystemLemmas MemSystemMore MemSystemLive MemSystemOrder RedisSystemOrder FairLemmas.
Local Open Scope nat_scope.

(** ** Steps *)
Lemma mstep_call cfg s s' i c : mstep cfg s s' → in_calls (ms_inst s) !! i = Some c →
  ∃ c', in_calls (ms_inst s') !! i = Some c' ∧ cl_ups c' = cl_ups c ∧
    ((cl_sent c' = cl_sent c ∧ cl_got c' = cl_got c) ∨
     (cl_sent c' = S (cl_sent c) ∧ cl_sent c < length (cl_ups c) ∧ cl_got c' = cl_got c) ∨
     (cl_sent c' = cl_sent c ∧ waiting c ∧ length (cl_got c') = S (length (cl_got c)))).
Proof.
  destruct 1 as [x x' m t h Hl| | | |]; cbn [ms_inst in_calls]; intros Hc;
    try (exists c; split; [done|]; split; [done|]; by left).
  by eapply lstep_call.
Qed.

Inductive mem_incoming (cfg : config) (x x' : inst mem_call) : Prop :=
| MI_local : incoming cfg x x' → mem_incoming cfg x x'
| MI_give l u : in_poll x = PGet l → in_poll x' = PGet (l ++ [u]) → in_stream x' = in_stream x →
    applied x' = applied x → mem_incoming cfg x x'
| MI_timeout l : in_poll x = PGet l → in_poll x' = PPush l → in_stream x' = in_stream x →
    applied x' = applied x → mem_incoming cfg x x'.

Lemma mstep_incoming cfg s s' : mstep cfg s s' → mem_incoming cfg (ms_inst s) (ms_inst s').
Proof.
  destruct 1 as [x x' m t h Hl| | | |]; cbn [ms_inst].
  - apply MI_local. by eapply lstep_incoming.
  - apply MI_local, In_same; reflexivity.
  - eapply MI_give; reflexivity.
  - apply MI_local, In_same; reflexivity.
  - eapply MI_timeout; reflexivity.
Qed.

Definition collecting {S} (o : out_pc S) : Prop := ∃ b, o = OCollect b.

Lemma mstep_outgoing cfg s s' : minv cfg s → mstep cfg s s' →
  outgoing cfg mem_begin (ms_inst s) (ms_inst s') ∨
  (¬ collecting (in_out (ms_inst s)) ∧ ¬ collecting (in_out (ms_inst s')) ∧
   out_w (in_out (ms_inst s')) < out_w (in_out (ms_inst s))).
Proof.
  intros Hinv Hs. pose proof (mi_call _ _ Hinv) as Hc.
  destruct Hs as [x x' m t h Hl|cs b ds q todo p st x c ev m t h t1 t2 u r m' H1 H2 E
    |cs b ds q todo u r l st x c ev m t h|cs b ds p st x c ev m t h|cs o l st x c ev m t h];
    cbn [ms_inst in_out] in *.
  - left. by eapply lstep_outgoing.
  - right. split; [by intros []|]. split; [by intros []|]. cbn. lia.
  - right. split; [by intros []|]. split; [by intros []|]. cbn. rewrite app_length. cbn. lia.
  - right. destruct Hc as (_ & Hc & _). cbn [mc_batch mc_done] in Hc. unfold to_deliver. rewrite distribute_zip by done.
    split; [by intros []|]. split; [by intros []|]. cbn [out_w mc_todo mc_done mc_offer length].
    rewrite zip_with_length, map_length. lia.
  - left. by apply Out_same.
Qed.

Section run.
Context (cfg : config) (t0 : instant) (f : nat → msys).
Hypothesis t0_pos : (0 <= t0)%Z.
Hypothesis starts : mreach cfg t0 (f 0).
Hypothesis runs : Pausing (mstep cfg) f.
Hypothesis fair : FairMem cfg f.

Notation x_ n := (ms_inst (f n)).

Lemma run_later n m : n <= m → rtc (mstep cfg) (f n) (f m).
Proof. apply pausing_later, runs. Qed.
Lemma run_reach n : mreach cfg t0 (f n).
Proof. eapply rtc_transitive; [exact starts|]. apply run_later. lia. Qed.
Lemma run_inv n : minv cfg (f n).
Proof. eapply mreach_inv; [exact t0_pos|]. apply run_reach. Qed.

Lemma run_incoming n : mem_incoming cfg (x_ n) (x_ (S n)).
Proof. destruct (runs n) as [->|Hs]; [by apply MI_local, In_same|by apply mstep_incoming]. Qed.
Lemma run_outgoing n :
  outgoing cfg mem_begin (x_ n) (x_ (S n)) ∨
  (¬ collecting (in_out (x_ n)) ∧ ¬ collecting (in_out (x_ (S n))) ∧ out_w (in_out (x_ (S n))) < out_w (in_out (x_ n))).
Proof. destruct (runs n) as [->|Hs]; [left; by apply Out_same|apply mstep_outgoing; [apply run_inv|done]]. Qed.
Lemma run_call n i c : in_calls (x_ n) !! i = Some c →
  ∃ c', in_calls (x_ (S n)) !! i = Some c' ∧ cl_ups c' = cl_ups c ∧
    ((cl_sent c' = cl_sent c ∧ cl_got c' = cl_got c) ∨
     (cl_sent c' = S (cl_sent c) ∧ cl_sent c < length (cl_ups c) ∧ cl_got c' = cl_got c) ∨
     (cl_sent c' = cl_sent c ∧ waiting c ∧ length (cl_got c') = S (length (cl_got c)))).
Proof.
  destruct (runs n) as [->|Hs]; [|by eapply mstep_call]. intros Hc. exists c. split; [done|]. split; [done|]. by left.
Qed.

Lemma mem_stream_cap s : mreach cfg t0 s → length (in_stream (ms_inst s)) <= cfg_in_max cfg.
Proof.
  revert s. apply (rtc_ind_r (λ s, length (in_stream (ms_inst s)) <= cfg_in_max cfg)); [cbn; lia|]. intros s s' _ Hs IH.
  destruct (mstep_incoming _ _ _ Hs) as [[_ E _|u l _ _ E _ Hl|_ _ E _|u E _ _ _|u l _ E _ _ _ _]|l u _ _ E _|l _ _ E _];
    rewrite ?E in *; rewrite ?app_length in *; cbn [length] in *; lia.
Qed.

(** Expiration cycles end. *)
Lemma not_expiring n : ∃ m, n <= m ∧ in_expiring (x_ m) = false.
Proof.
  destruct (in_expiring (x_ n)) eqn:E; [|exists n; split; [lia|done]].
  apply (leads_at_once (mstep cfg) f (λ s s', Moves CycleEnds (ms_inst s) (ms_inst s'))
           (λ s, in_expiring (ms_inst s) = true) (λ s, in_expiring (ms_inst s) = false)); [apply fair| | | |done].
  - intros k _. destruct (in_expiring (x_ (S k))); auto.
  - by intros k _ [_ H].
  - intros k Hk. exists k. split; [lia|]. right.
    destruct (f k) as [[cs o p st x c ev] m t h]. cbn [ms_inst in_expiring] in Hk. subst x.
    destruct (some_orders cfg c t) as [ords Ho]. eexists. split; [eapply M_local, L_expire; exact Ho|]. done.
Qed.

(** Nothing is applied during a step that is not such a step. *)
Lemma applies s u st c ev cs o p m t h :
  s = MSys (Inst cs o p (u :: st) false c ev) m t h →
  ∃ s', mstep cfg s s' ∧ Moves UpdateApplied (ms_inst s) (ms_inst s').
Proof.
  intros ->. eexists. split; [eapply M_local, L_apply|]. cbn. unfold applied. cbn [in_events].
  rewrite hev_updates_app. cbn. intros H. apply (f_equal length) in H. rewrite app_length in H. cbn in H. lia.
Qed.
Lemma applies_direct s u l c ev cs o m t h :
  s = MSys (Inst cs o (PPush (u :: l)) [] false c ev) m t h →
  ∃ s', mstep cfg s s' ∧ Moves UpdateApplied (ms_inst s) (ms_inst s') ∧ Moves PollerMoves (ms_inst s) (ms_inst s').
Proof.
  intros ->. eexists. split; [eapply M_local, L_apply_direct|]. cbn. unfold applied. cbn [in_events].
  rewrite hev_updates_app. cbn. split.
  - intros H. apply (f_equal length) in H. rewrite app_length in H. cbn in H. lia.
  - intros H. injection H as H. apply (f_equal length) in H. cbn in H. lia.
Qed.

Definition pushing (s : msys) : Prop := ∃ l, in_poll (ms_inst s) = PPush l.
Definition getting (s : msys) : Prop := ∃ l, in_poll (ms_inst s) = PGet l.
Definition push_left (s : msys) : nat := match in_poll (ms_inst s) with PPush l => length l | _ => 0 end.

Lemma pushing_keep n : pushing (f n) → (pushing (f (S n)) ∧ push_left (f (S n)) <= push_left (f n)) ∨ getting (f (S n)).
Proof.
  intros [l0 E0]. unfold pushing, getting, push_left.
  destruct (run_incoming n) as [[_ _ E|u l E1 E2 _ _ _|E1 E2 _ _|u _ E _ _|u l _ _ E1 E2 _ _]|l u E1 _ _ _|l E1 _ _ _];
    rewrite ?E0 in *; try done.
  - left. rewrite E. eauto.
  - injection E1 as ->. rewrite E2. left. split; [eauto|cbn; lia].
  - right. eauto.
  - left. rewrite E. eauto.
  - injection E1 as ->. rewrite E2. left. split; [eauto|cbn; lia].
Qed.

Lemma pushing_moves n : pushing (f n) → Moves PollerMoves (x_ n) (x_ (S n)) →
  push_left (f (S n)) < push_left (f n) ∨ getting (f (S n)).
Proof.
  intros [l0 E0] Hm. unfold pushing, getting, push_left. cbn [Moves] in Hm.
  destruct (run_incoming n) as [[_ _ E|u l E1 E2 _ _ _|E1 E2 _ _|u _ E _ _|u l _ _ E1 E2 _ _]|l u E1 _ _ _|l E1 _ _ _];
    rewrite ?E0 in *; try done.
  - injection E1 as ->. rewrite E2. left. cbn. lia.
  - right. eauto.
  - injection E1 as ->. rewrite E2. left. cbn. lia.
Qed.

Lemma push_possible n u l : in_poll (x_ n) = PPush (u :: l) → length (in_stream (x_ n)) < cfg_in_max cfg →
  ∃ s, mstep cfg (f n) s ∧ Moves PollerMoves (x_ n) (ms_inst s).
Proof.
  destruct (f n) as [[cs o p st x c ev] m t h]. cbn [ms_inst in_poll in_stream]. intros -> Hl.
  eexists. split; [eapply M_local, L_push; exact Hl|]. cbn. intros H. injection H as H.
  apply (f_equal length) in H. cbn in H. lia.
Qed.
Lemma pushed_possible n : in_poll (x_ n) = PPush [] → ∃ s, mstep cfg (f n) s ∧ Moves PollerMoves (x_ n) (ms_inst s).
Proof.
  destruct (f n) as [[cs o p st x c ev] m t h]. cbn [ms_inst in_poll in_stream]. intros ->.
  eexists. split; [eapply M_local, L_pushed|]. done.
Qed.

(** The poller comes back to GetUpdates. *)
Lemma polls_again n : ∃ m, n <= m ∧ getting (f m).
Proof.
  destruct (in_poll (x_ n)) as [l0|l0|] eqn:E.
  { exists n. split; [lia|]. by exists l0. }
  2: { by destruct (mi_poll _ _ (run_inv n)). }
  apply (leads_to (mstep cfg) f (λ s s', Moves PollerMoves (ms_inst s) (ms_inst s')) pushing getting push_left).
  - apply fair.
  - exact pushing_keep.
  - exact pushing_moves.
  - intros k Hk.
    assert (Hkept : ∀ j, k <= j → pushing (f j) ∨ ∃ j', k <= j' ∧ j' <= j ∧ getting (f j')).
    { intros j Hj. eapply (kept f pushing getting); [|exact Hj|exact Hk].
      intros i Hi. destruct (pushing_keep i Hi) as [[]|]; auto. }
    destruct (fair UpdateApplied k) as [(j & Hj & Ha)|(k2 & Hno)].
    + (* just after an update was applied *)
      destruct (Hkept (S j) ltac:(lia)) as [[l' El]|(j' & H1 & _ & H3)]; [|exists j'; split; [done|by left]].
      exists (S j). split; [lia|]. right. destruct l' as [|u l']; [by apply pushed_possible|].
      pose proof (mem_stream_cap _ (run_reach j)) as Hcap. cbn [Moves] in Ha.
      destruct (run_incoming j) as [[Ea _ _|u' l _ _ _ Ea _|_ _ _ Ea|u' Es _ _ Ex|u' l Es1 Es2 _ _ _ Ex]|l u' _ _ _ Ea|l _ _ _ Ea];
        try done.
      * apply (push_possible _ u l' El). rewrite Es in Hcap. cbn in Hcap. lia.
      * clear -Es2 Ex El. destruct (f (S j)) as [[cs o p st x c ev] m t h] eqn:Ef. cbn [ms_inst in_poll in_stream in_expiring] in *.
        subst. destruct (applies_direct _ u l' c ev cs o m t h eq_refl) as (s' & Hs & _ & Hm). by exists s'.
    + destruct (not_expiring (k `max` k2)) as (j & Hj & Hx).
      destruct (Hkept j ltac:(lia)) as [[l' El]|(j' & H1 & _ & H3)]; [|exists j'; split; [done|by left]].
      exists j. split; [lia|]. right. destruct l' as [|u l']; [by apply pushed_possible|].
      specialize (Hno j). destruct (f j) as [[cs o p st x c ev] m t h]. cbn [ms_inst in_poll in_stream in_expiring] in *. subst.
      destruct st as [|u' st].
      * destruct (applies_direct _ u l' c ev cs o m t h eq_refl) as (s' & Hs & _ & Hm). by exists s'.
      * exfalso. destruct (applies _ u' st c ev cs o (PPush (u :: l')) m t h eq_refl) as (s' & Hs & Hm).
        exact (Hno s' ltac:(lia) Hs Hm).
  - by exists l0.
Qed.

(** ** The outgoing queue *)
Definition busy (s : msys) : Prop := ¬ collecting (in_out (ms_inst s)).
Definition drained (s : msys) : Prop := in_out (ms_inst s) = OCollect [].

Lemma busy_keep n : busy (f n) →
  (busy (f (S n)) ∧ out_w (in_out (x_ (S n))) <= out_w (in_out (x_ n))) ∨ drained (f (S n)).
Proof.
  intros Hb. unfold busy, drained in *.
  destruct (run_outgoing n) as [[E|b q E _ _|b b' E _|d l E E'|E|E E']|(_ & H2 & H3)].
  - left. rewrite E. auto.
  - destruct Hb. by eexists.
  - destruct Hb. by eexists.
  - left. rewrite E, E'. split; [by intros []|cbn; lia].
  - by destruct (ok_alive _ _ _ _ _ (mi_inst _ _ (run_inv (S n)))).
  - by right.
  - left. split; [done|lia].
Qed.

Lemma busy_moves n : busy (f n) → Moves QueueMoves (x_ n) (x_ (S n)) →
  out_w (in_out (x_ (S n))) < out_w (in_out (x_ n)) ∨ drained (f (S n)).
Proof.
  intros Hb Hm. unfold busy, drained in *. cbn [Moves] in Hm.
  destruct (run_outgoing n) as [[E|b q E _ _|b b' E _|d l E E'|E|E E']|(_ & H2 & H3)].
  - done.
  - destruct Hb. by eexists.
  - destruct Hb. by eexists.
  - left. rewrite E, E'. cbn. lia.
  - by destruct (ok_alive _ _ _ _ _ (mi_inst _ _ (run_inv (S n)))).
  - by right.
  - by left.
Qed.

Lemma queue_possible n : busy (f n) → getting (f n) → ∃ s, mstep cfg (f n) s ∧ Moves QueueMoves (x_ n) (ms_inst s).
Proof.
  intros Hb [l0 Hp]. pose proof (run_inv n) as Hinv. destruct Hinv as [Hin Hc _ _ _ _]. unfold busy in Hb.
  destruct (f n) as [[cs o p st x c ev] m t h]. cbn [ms_inst in_expiring in_stream in_poll in_out] in *. subst p.
  destruct o as [b|mc|l|].
  - destruct Hb. by eexists.
  - destruct mc as [b ds todo off]. destruct Hc as (Hc1 & Hc2 & Hc3 & Hc4). cbn [mc_batch mc_done mc_todo mc_offer] in *.
    destruct todo as [|q todo].
    + rewrite Hc4 by done. eexists. split; [eapply M_sent|]. cbn [Moves ms_inst in_out].
      unfold to_deliver. by rewrite distribute_zip by done.
    + destruct off as [[u r]|].
      * eexists. split; [eapply M_give|]. cbn [Moves ms_inst in_out]. intros H. injection H as H _.
        apply (f_equal length) in H. rewrite app_length in H. cbn in H. lia.
      * destruct (mem_send1 m (rq_update q) (t, t)) as [[u r] m'] eqn:E.
        eexists. split; [eapply (M_id _ _ _ _ _ _ _ _ _ _ _ _ t _ t t); [lia|lia|exact E]|]. done.
  - destruct l as [|[i r] l].
    { eexists. split; [eapply M_local, L_delivered|]. done. }
    assert (Hne : ∀ l' : list (nat * response), ODeliver (S := mem_call) l' ≠ ODeliver ((i, r) :: l') ).
    { intros l' H. injection H as H. apply (f_equal length) in H. cbn in H. lia. }
    pose proof (ok_results _ _ _ _ _ Hin) as Hre. cbn [in_out out_results in_calls] in Hre.
    apply Forall_cons in Hre as [Hlt _]. cbn [fst] in Hlt.
    destruct (lookup_lt_is_Some_2 _ _ Hlt) as [cl Hcl].
    pose proof (ok_calls _ _ _ _ _ Hin i cl Hcl) as Hok.
    pose proof (call_ok_counts _ _ _ _ _ _ _ Hok) as Hn. cbn [in_out out_results] in Hn.
    rewrite results_hd in Hn by done. cbn [length] in Hn.
    pose proof (ok_sent _ _ _ _ _ _ _ Hok) as Hs. pose proof (ok_issues _ _ _ _ _ _ _ Hok) as His.
    destruct (issues_room _ _ _ His) as [[Hcap Hle]|Hle].
    + eexists. split; [eapply M_local, L_deliver_direct; [exact Hcl|exact Hcap|split; lia]|]. apply Hne.
    + eexists. split; [eapply M_local, L_deliver_buffered; [exact Hcl|unfold returned; lia|lia]|]. apply Hne.
  - by destruct (ok_alive _ _ _ _ _ Hin).
Qed.

Lemma busy_drains n : busy (f n) → ∃ m, n <= m ∧ drained (f m).
Proof.
  apply (leads_to (mstep cfg) f (λ s s', Moves QueueMoves (ms_inst s) (ms_inst s')) busy drained (λ s, out_w (in_out (ms_inst s)))).
  - apply fair.
  - exact busy_keep.
  - exact busy_moves.
  - intros k Hk. destruct (polls_again k) as (j & Hj & Hg).
    destruct (kept f busy drained) with (n := k) (m := j) as [Hb|(j' & H1 & _ & H3)]; [|done|done| |].
    + intros i Hi. destruct (busy_keep i Hi) as [[]|]; auto.
    + exists j. split; [done|]. right. by apply queue_possible.
    + exists j'. split; [done|]. by left.
Qed.

Definition filling (s : msys) : Prop := ∃ q b, in_out (ms_inst s) = OCollect (q :: b).
Definition room (s : msys) : nat :=
  match in_out (ms_inst s) with OCollect b => Z.to_nat (cfg_out_threshold cfg - Z.of_nat (length b)) | _ => 0 end.

Lemma filling_leaves n : filling (f n) → ∃ m, n <= m ∧ busy (f m).
Proof.
  assert (Hkey : ∀ k, filling (f k) →
    (in_out (x_ (S k)) = in_out (x_ k)) ∨ (filling (f (S k)) ∧ room (f (S k)) < room (f k)) ∨ busy (f (S k))).
  { intros k (q0 & b0 & E0). unfold filling, room, busy.
    destruct (run_outgoing k) as [[E|b q E E' Hl|b b' E E'|d l E E'|E|E E']|(H1 & H2 & H3)]; rewrite ?E0 in *; try done.
    - by left.
    - injection E as <-. right. left. rewrite E'. split; [by eexists _, _|]. rewrite app_length in *. cbn [length] in *. lia.
    - right. right. rewrite E'. by intros [].
    - right. right. rewrite E. by intros [].
    - destruct H1. by eexists. }
  apply (leads_to (mstep cfg) f (λ s s', Moves QueueMoves (ms_inst s) (ms_inst s')) filling busy room).
  - apply fair.
  - intros k Hk. destruct (Hkey k Hk) as [E|[[H1 H2]|H]]; [|left; split; [done|lia]|by right].
    left. unfold filling, room in *. rewrite E. auto.
  - intros k Hk Hm. destruct (Hkey k Hk) as [E|[[H1 H2]|H]]; [done|by left|by right].
  - intros k (q & b & E). exists k. split; [lia|]. right.
    destruct (f k) as [[cs o p st x c ev] m t h]. cbn [ms_inst in_out] in *. subst o.
    eexists. split; [eapply M_local, L_out_timeout|]. cbn [Moves ms_inst in_out].
    by destruct (after_select_cases mem_begin (cfg_out_threshold cfg) (q :: b) QTimeout) as [[_ [H|H]]|[_ ->]].
Qed.

Lemma drains n : ∃ m, n <= m ∧ drained (f m).
Proof.
  destruct (in_out (x_ n)) as [[|q b]|mc|l|] eqn:E.
  - exists n. split; [lia|done].
  - destruct (filling_leaves n) as (m & Hm & Hb); [by eexists _, _|]. destruct (busy_drains m Hb) as (j & Hj & Hd).
    exists j. split; [lia|done].
  - apply busy_drains. unfold busy. rewrite E. by intros [].
  - apply busy_drains. unfold busy. rewrite E. by intros [].
  - apply busy_drains. unfold busy. rewrite E. by intros [].
Qed.

(** ** A call *)
Definition unsent (i : nat) (s : msys) : nat :=
  match in_calls (ms_inst s) !! i with Some c => length (cl_ups c) - cl_sent c | None => 0 end.
Definition unanswered (i : nat) (s : msys) : nat :=
  match in_calls (ms_inst s) !! i with Some c => length (cl_ups c) - length (cl_got c) | None => 0 end.
Definition sending (i : nat) (s : msys) : Prop :=
  ∃ c, in_calls (ms_inst s) !! i = Some c ∧ cl_sent c < length (cl_ups c).
Definition all_sent (i : nat) (s : msys) : Prop :=
  ∃ c, in_calls (ms_inst s) !! i = Some c ∧ cl_sent c = length (cl_ups c).
Definition awaiting (i : nat) (s : msys) : Prop := ∃ c, in_calls (ms_inst s) !! i = Some c ∧ waiting c.
Definition finished (i : nat) (s : msys) : Prop := ∃ c, in_calls (ms_inst s) !! i = Some c ∧ returned c.

Lemma call_sends i n : sending i (f n) → ∃ m, n <= m ∧ all_sent i (f m).
Proof.
  assert (Hkey : ∀ k, sending i (f k) →
    (sending i (f (S k)) ∧ unsent i (f (S k)) <= unsent i (f k) ∧
     (Moves (CallMoves i) (x_ k) (x_ (S k)) → unsent i (f (S k)) < unsent i (f k))) ∨ all_sent i (f (S k))).
  { intros k (c & Hc & Hlt). unfold sending, all_sent, unsent. rewrite Hc.
    destruct (run_call k _ _ Hc) as (c' & Hc' & Eu & [[E1 E2]|[(E1 & _ & E2)|(_ & [E _] & _)]]); [| |lia].
    - left. rewrite Hc', E1, Eu. split; [by exists c'; rewrite E1, Eu|]. split; [lia|].
      intros (d & d' & Hd & Hd' & Hne). rewrite Hc in Hd. rewrite Hc' in Hd'. simplify_eq. destruct Hne; congruence.
    - rewrite Hc', E1, Eu. destruct (decide (S (cl_sent c) = length (cl_ups c))) as [H|H].
      + right. exists c'. by rewrite E1, Eu.
      + left. split; [exists c'; rewrite E1, Eu; split; [done|lia]|]. split; [lia|]. lia. }
  apply (leads_to (mstep cfg) f (λ s s', Moves (CallMoves i) (ms_inst s) (ms_inst s')) (sending i) (all_sent i) (unsent i)).
  - apply fair.
  - intros k Hk. destruct (Hkey k Hk) as [(H1 & H2 & _)|H]; auto.
  - intros k Hk Hm. destruct (Hkey k Hk) as [(_ & _ & H)|H]; auto.
  - intros k Hk. destruct (drains k) as (j & Hj & Hd).
    destruct (kept f (sending i) (all_sent i)) with (n := k) (m := j) as [(c & Hc & Hlt)|(j' & H1 & _ & H3)]; [|done|done| |].
    + intros l Hl. destruct (Hkey l Hl) as [(H1 & _)|H]; auto.
    + exists j. split; [done|]. right. destruct (lookup_lt_is_Some_2 (cl_ups c) (cl_sent c) Hlt) as [u Hu].
      unfold drained in Hd. destruct (f j) as [[cs o p st x ca ev] m t h]. cbn [ms_inst in_out in_calls] in *. subst o.
      eexists. split; [eapply M_local, (L_accept _ _ cs [] p st x ca ev i c u Hc Hu)|]. cbn [Moves ms_inst in_calls].
      exists c, (sent_one c). split; [done|]. split; [apply list_lookup_insert; by eapply lookup_lt_Some|]. left. cbn. lia.
    + exists j'. split; [done|]. by left.
Qed.

Lemma call_receives i n : awaiting i (f n) → ∃ m, n <= m ∧ finished i (f m).
Proof.
  assert (Hkey : ∀ k, awaiting i (f k) →
    (awaiting i (f (S k)) ∧ unanswered i (f (S k)) <= unanswered i (f k) ∧
     (Moves (CallMoves i) (x_ k) (x_ (S k)) → unanswered i (f (S k)) < unanswered i (f k))) ∨ finished i (f (S k))).
  { intros k (c & Hc & Hs & Hlt). unfold awaiting, finished, waiting, returned, unanswered. rewrite Hc.
    destruct (run_call k _ _ Hc) as (c' & Hc' & Eu & [[E1 E2]|[(E1 & Hlt' & E2)|(E1 & _ & E2)]]); [|lia|].
    - left. rewrite Hc', E2, Eu. split; [by exists c'; rewrite E1, E2, Eu|]. split; [lia|].
      intros (d & d' & Hd & Hd' & Hne). rewrite Hc in Hd. rewrite Hc' in Hd'. simplify_eq. destruct Hne; congruence.
    - rewrite Hc', E2, Eu. destruct (decide (S (length (cl_got c)) = length (cl_ups c))) as [H|H].
      + right. exists c'. by rewrite E1, E2, Eu.
      + left. split; [exists c'; rewrite E1, E2, Eu; split; [done|]; split; [done|lia]|]. split; [lia|]. lia. }
  apply (leads_to (mstep cfg) f (λ s s', Moves (CallMoves i) (ms_inst s) (ms_inst s')) (awaiting i) (finished i) (unanswered i)).
  - apply fair.
  - intros k Hk. destruct (Hkey k Hk) as [(H1 & H2 & _)|H]; auto.
  - intros k Hk Hm. destruct (Hkey k Hk) as [(_ & _ & H)|H]; auto.
  - intros k Hk. destruct (drains k) as (j & Hj & Hd).
    destruct (kept f (awaiting i) (finished i)) with (n := k) (m := j) as [(c & Hc & Hw)|(j' & H1 & _ & H3)]; [|done|done| |].
    + intros l Hl. destruct (Hkey l Hl) as [(H1 & _)|H]; auto.
    + exists j. split; [done|]. right.
      pose proof (call_ok_counts _ _ _ _ _ _ _ (ok_calls _ _ _ _ _ (mi_inst _ _ (run_inv j)) i c Hc)) as Hn.
      unfold drained in Hd. rewrite Hd in Hn. cbn [out_results out_reqs] in Hn. unfold reqs_of, results_of in Hn.
      rewrite !filter_nil in Hn. cbn [length] in Hn. destruct (cl_buf c) as [|r buf] eqn:Eb.
      { destruct Hw as [Hw1 Hw2]. cbn in Hn. lia. }
      destruct (f j) as [[cs o p st x ca ev] m t h]. cbn [ms_inst in_out in_calls] in *.
      eexists. split; [eapply M_local, (L_receive _ _ cs o p st x ca ev i c r buf Hc Hw Eb)|]. cbn [Moves ms_inst in_calls].
      exists c, (receive r buf c). split; [done|]. split; [apply list_lookup_insert; by eapply lookup_lt_Some|]. right. cbn.
      intros H. apply (f_equal length) in H. rewrite app_length in H. cbn in H. lia.
    + exists j'. split; [done|]. by left.
Qed.

Lemma run_call_stays n m i c : n <= m → in_calls (x_ n) !! i = Some c →
  ∃ c', in_calls (x_ m) !! i = Some c' ∧ cl_ups c' = cl_ups c.
Proof.
  intros Hle Hc. induction Hle as [|m Hle IH]; [by exists c|]. destruct IH as (c1 & Hc1 & E1).
  destruct (run_call m _ _ Hc1) as (c2 & Hc2 & E2 & _). exists c2. split; [done|congruence].
Qed.

Lemma mem_every_call_returns n i c : in_calls (x_ n) !! i = Some c →
  ∃ m c', n <= m ∧ in_calls (x_ m) !! i = Some c' ∧ cl_ups c' = cl_ups c ∧ returned c'.
Proof.
  intros Hc.
  assert (∃ m, n <= m ∧ finished i (f m)) as (m & Hm & c' & Hc' & Hr).
  { pose proof (ok_sent _ _ _ _ _ _ _ (ok_calls _ _ _ _ _ (mi_inst _ _ (run_inv n)) i c Hc)) as Hs.
    assert (∃ m, n <= m ∧ all_sent i (f m)) as (m & Hm & c1 & Hc1 & E1).
    { destruct (decide (cl_sent c = length (cl_ups c))) as [E|E]; [exists n; split; [lia|]; by exists c|].
      apply call_sends. exists c. split; [done|lia]. }
    pose proof (call_ok_counts _ _ _ _ _ _ _ (ok_calls _ _ _ _ _ (mi_inst _ _ (run_inv m)) i c1 Hc1)) as Hn.
    destruct (decide (length (cl_got c1) = length (cl_ups c1))) as [E|E].
    - exists m. split; [done|]. exists c1. split; [done|]. by split.
    - destruct (call_receives i m) as (m' & Hm' & Hf); [exists c1; split; [done|]; split; [done|lia]|].
      exists m'. split; [lia|done]. }
  destruct (run_call_stays n m i c Hm Hc) as (c2 & Hc2 & E2). rewrite Hc' in Hc2. injection Hc2 as <-.
  by exists m, c'.
Qed.

(** ** Everything written is applied *)
Definition at_hand (s : msys) : Prop :=
  in_stream (ms_inst s) ≠ [] ∨ ∃ u l, in_poll (ms_inst s) = PPush (u :: l).

Lemma applied_grows n : (applied (x_ (S n)) = applied (x_ n)) ∨ ∃ u, applied (x_ (S n)) = applied (x_ n) ++ [u].
Proof.
  destruct (run_incoming n) as [[E _ _|u l _ _ _ E _|_ _ _ E|u _ _ E _|u l _ _ _ _ E _]|l u _ _ _ E|l _ _ _ E]; eauto.
Qed.

Lemma at_hand_keep n : at_hand (f n) → at_hand (f (S n)) ∨ Moves UpdateApplied (x_ n) (x_ (S n)).
Proof.
  unfold at_hand. cbn [Moves]. intros Hh.
  destruct (run_incoming n) as [[_ E1 E2|u l _ E E1 _ _|E E1 E2 _|u _ _ E _|u l _ _ _ _ E _]|l u E E1 E2 _|l E E1 E2 _].
  - left. by rewrite E1, E2.
  - left. left. rewrite E1. by destruct (in_stream (x_ n)).
  - rewrite E, E1, E2 in *. destruct Hh as [H|(u & l & H)]; [auto|done].
  - right. rewrite E. intros H. apply (f_equal length) in H. rewrite app_length in H. cbn in H. lia.
  - right. rewrite E. intros H. apply (f_equal length) in H. rewrite app_length in H. cbn in H. lia.
  - rewrite E, E1, E2 in *. destruct Hh as [H|(? & ? & H)]; [auto|done].
  - rewrite E, E1, E2 in *. destruct Hh as [H|(? & ? & H)]; [auto|done].
Qed.

Lemma at_hand_kept n m : n <= m → at_hand (f n) →
  at_hand (f m) ∨ ∃ j, n <= j ∧ Moves UpdateApplied (x_ j) (x_ (S j)).
Proof.
  intros Hle Hh. induction Hle as [|m Hle IH]; [by left|]. destruct IH as [IH|IH]; [|by right].
  destruct (at_hand_keep m IH) as [H|H]; [by left|]. right. by exists m.
Qed.

Lemma at_hand_possible n : at_hand (f n) → ∃ m s, n <= m ∧ mstep cfg (f m) s ∧ Moves UpdateApplied (x_ m) (ms_inst s).
Proof.
  intros Hh. destruct (not_expiring n) as (m & Hm & Hx).
  destruct (at_hand_kept n m Hm Hh) as [Ha|(j & Hj & Hmv)].
  2: { exists j, (f (S j)). split; [done|]. split; [|done]. destruct (runs j) as [E|Hs]; [|done]. cbn [Moves] in Hmv. by rewrite E in Hmv. }
  exists m. unfold at_hand in Ha. destruct (f m) as [[cs o p st x c ev] ms t h]. cbn [ms_inst in_stream in_poll in_expiring] in *. subst x.
  destruct st as [|u st].
  - destruct Ha as [H|(u & l & ->)]; [done|]. destruct (applies_direct _ u l c ev cs o ms t h eq_refl) as (s & Hs & H & _).
    by exists s.
  - destruct (applies _ u st c ev cs o p ms t h eq_refl) as (s & Hs & H). by exists s.
Qed.

Lemma getting_ends n l : in_poll (x_ n) = PGet l → l ≠ [] → ∃ m, n <= m ∧ at_hand (f m).
Proof.
  intros E Hl.
  apply (leads_at_once (mstep cfg) f (λ s s', Moves PollEnds (ms_inst s) (ms_inst s'))
           (λ s, ∃ l, in_poll (ms_inst s) = PGet l ∧ l ≠ []) at_hand); [apply fair| | | |by exists l].
  - intros k (l1 & E1 & H1).
    destruct (run_incoming k) as [[_ _ E2|? ? E2 _ _ _ _|E2 _ _ _|u _ E2 _ _|u l2 _ _ E2 _ _ _]|l2 u E2 E3 _ _|l2 E2 E3 _ _];
      rewrite ?E1 in E2; try done.
    + left. rewrite E2. by exists l1.
    + left. rewrite E2. by exists l1.
    + left. exists (l2 ++ [u]). split; [done|]. by destruct l2.
    + right. injection E2 as <-. right. destruct l1 as [|u l1]; [done|]. rewrite E3. by eexists _, _.
  - intros k (l1 & E1 & H1) [_ (l3 & E3)].
    destruct (run_incoming k) as [[_ _ E2|? ? E2 _ _ _ _|E2 _ _ _|u _ E2 _ _|u l2 _ _ E2 _ _ _]|l2 u E2 E4 _ _|l2 E2 E4 _ _];
      rewrite ?E1, ?E3 in *; try done.
    injection E2 as <-. right. destruct l1 as [|u l1]; [done|]. rewrite E3, E4. by eexists _, _.
  - intros k (l1 & E1 & H1). exists k. split; [lia|]. right.
    destruct (f k) as [[cs o p st x c ev] m t h]. cbn [ms_inst in_poll] in E1. subst p.
    eexists. split; [eapply M_poll_timeout|]. cbn. split; by eexists.
Qed.

Lemma mem_everything_applied n : ∃ m, n <= m ∧
  map sn_upd (ms_hist (f n)) `prefix_of` applied (x_ m).
Proof.
  set (h := length (ms_hist (f n))).
  assert (∃ m, n <= m ∧ h <= length (applied (x_ m))) as (m & Hm & Hh).
  { destruct (decide (h <= length (applied (x_ n)))) as [Hd|Hd]; [by exists n|].
    apply (leads_to (mstep cfg) f (λ s s', Moves UpdateApplied (ms_inst s) (ms_inst s'))
             (λ s, h <= length (ms_hist s) ∧ length (applied (ms_inst s)) < h) (λ s, h <= length (applied (ms_inst s)))
             (λ s, h - length (applied (ms_inst s)))); [apply fair| | | |split; [done|lia]].
    - intros k [H1 H2]. destruct (mrtc_grows _ _ _ (run_later k (S k) ltac:(lia))) as [[l E] _].
      destruct (applied_grows k) as [Ea|[u Ea]]; rewrite Ea, E, ?app_length; cbn [length]; lia.
    - intros k [H1 H2] Hm. cbn [Moves] in Hm. left.
      destruct (applied_grows k) as [Ea|[u Ea]]; [done|]. rewrite Ea, app_length. cbn [length]. lia.
    - intros k [H1 H2]. pose proof (mi_read _ _ (run_inv k)) as Hr. apply (f_equal length) in Hr.
      unfold read_so_far in Hr. rewrite map_length in Hr.
      assert (∃ j, k <= j ∧ at_hand (f j)) as (j & Hj & Ha).
      { destruct (in_stream (x_ k)) as [|u st] eqn:Es; [|exists k; split; [done|]; left; by rewrite Es].
        destruct (in_poll (x_ k)) as [[|u l]|[|u l]|] eqn:Ep.
        - exfalso. unfold applied in H2. rewrite !app_length in Hr. cbn in Hr. lia.
        - by eapply getting_ends.
        - exfalso. unfold applied in H2. rewrite !app_length in Hr. cbn in Hr. lia.
        - exists k. split; [done|]. right. by eexists _, _.
        - by destruct (mi_poll _ _ (run_inv k)). }
      destruct (at_hand_possible j Ha) as (i & s & Hi & Hs & Hm). exists i. split; [lia|]. right. by exists s. }
  exists m. split; [done|].
  destruct (mrtc_grows _ _ _ (run_later n m Hm)) as [[l E] _].
  pose proof (mi_read _ _ (run_inv m)) as Hr. rewrite E, map_app in Hr. unfold read_so_far in Hr.
  assert (Hp : map sn_upd (ms_hist (f n)) = take h (applied (x_ m))).
  { apply (f_equal (take h)) in Hr. rewrite take_app_alt in Hr by (by rewrite map_length). rewrite Hr.
    by rewrite take_app_le by done. }
  rewrite Hp. exists (drop h (applied (x_ m))). by rewrite take_drop.
Qed.

(** ** A ticket created and then activated becomes active *)
Lemma mem_eventually_active n m i ci v r j cj :
  in_calls (x_ n) !! i = Some ci → Creates ci v → r ∈ cl_got ci →
  n <= m → length (in_calls (x_ n)) <= j → in_calls (x_ m) !! j = Some cj →
  Update CmdActivate (r_result r) ""%string ∈ cl_ups cj →
  ∃ k, m <= k ∧ ∀ k', k <= k' →
    (∀ w, Update CmdDeactivate (r_result r) w ∉ applied (x_ k')) →
    (∀ x, x ∈ hev_visits (in_events (x_ k')) →
          ¬ OlderThan (cfg_ticket_ttl cfg) x.2 (r_result r) ∧ ¬ ExpiredAt x.2 (stored_ticket (r_result r) v)) →
    Active (in_cache (x_ k')) (r_result r) ∧
    c_tickets (in_cache (x_ k')) !! r_result r = Some (stored_ticket (r_result r) v).
Proof.
  intros Hi Hc Hr Hnm Hj Hcj Hu.
  destruct (mem_every_call_returns m j cj Hcj) as (k1 & c1 & Hk1 & Hc1 & Eu & Hret). rewrite <-Eu in Hu.
  destruct (mem_order cfg t0 (f n) (f k1) i ci v r j c1 (Update CmdActivate (r_result r) "")) as (h1 & h2 & h3 & E);
    try done; [apply run_reach|apply run_later; lia|].
  destruct (mem_everything_applied k1) as (k2 & Hk2 & [h4 Hp]).
  exists k2. split; [lia|]. intros k' Hk' Hnd Hvis.
  destruct (mrtc_grows _ _ _ (run_later k2 k' Hk')) as [_ [es Ees]].
  destruct (mem_cache _ _ _ t0_pos (run_reach k')) as (Hh & -> & _).
  apply (active_at_the_end cfg (in_events (x_ k')) h1 h2 (h3 ++ h4 ++ hev_updates es)); [| |done|done].
  - rewrite Ees, hev_updates_app. fold (applied (x_ k2)). rewrite Hp, E. rewrite <-!app_assoc. simpl. by rewrite <-!app_assoc.
  - assert (Hut : tickets_for (r_result r) (map sn_upd (ms_hist (f k'))) = [v]).
    { assert (Hnd2 := mem_ids_nodup _ _ _ t0_pos (run_reach k')).
      destruct (run_inv k') as [_ _ Ho _ _ _]. apply Forall_app in Ho as [Ho _].
      destruct (mrtc_grows _ _ _ (run_later k1 k' ltac:(lia))) as [[l El] _].
      assert (Hin : Update CmdTicket (r_result r) v ∈ map sn_upd (ms_hist (f k'))).
      { rewrite El, map_app, E. apply elem_of_app. left. apply elem_of_app. right. apply elem_of_list_here. }
      apply elem_of_list_fmap in Hin as (e & Ee & He). by eapply tickets_for_unique. }
    assert (Hge : ∃ w, w ∈ tickets_for (r_result r) (hev_updates (in_events (x_ k')))).
    { exists v. unfold tickets_for. apply elem_of_list_omap. exists (Update CmdTicket (r_result r) v). split; [|cbn; by rewrite decide_True].
      rewrite Ees, hev_updates_app. fold (applied (x_ k2)). rewrite Hp, E. apply elem_of_app. left. apply elem_of_app. left.
      apply elem_of_app. right. apply elem_of_list_here. }
    rewrite Hh, tickets_for_app in Hut. unfold applied in Hut. destruct Hge as [w Hw].
    destruct (tickets_for (r_result r) (hev_updates (in_events (x_ k')))) as [|w1 ws]; [by apply elem_of_nil in Hw|].
    cbn in Hut. injection Hut as -> Hut. apply app_eq_nil in Hut as [-> _]. done.
Qed.
End run.
