(** Fair executions of a watch alongside its server. *)
From Coq Require Import Ascii String ZArith NArith Lia.
From stdpp Require Import prelude strings gmap relations.
From Verif.Model Require Import GoStrings Types Cache Replica Handlers MemRepl Queues RedisRepl RedisReader System RedisSystem Watch WatchSystem.
From Verif.Spec Require Import CacheSpec RedisSpec SystemSpec WatchSpec AssignSpec FairSpec FairWatchSpec.
From Verif.Proofs Require Import HistoryLemmas HistoryMore MemSystemMore RedisSystemLemmas RedisSystemRead RedisSystemMore WatchLemmas AssignLemmas AssignMem AssignRedis
  FairLemmas FairMem FairIdle FairRedisMore.
Local Open Scope nat_scope.

(** ** Steps of a watch *)
Lemma w_step_handler ttl ids w w' : w_step ttl ids w w' →
  w_handler w' = w_handler w ∨
  (∃ id rest nw nw', w_handler w = Launching (id :: rest) nw ∧ w_handler w' = Launching rest nw') ∨
  (∃ nw dl, w_handler w = Launching [] nw ∧ w_handler w' = Receiving 0 dl) ∨
  (∃ i dl, w_handler w = Receiving i dl ∧ i < length ids ∧ w_handler w' = Receiving (S i) dl) ∨
  (∃ i dl, w_handler w = Receiving i dl ∧ length ids <= i ∧ w_handler w' = Returned false) ∨
  (∃ i dl, w_handler w = Receiving i dl ∧ w_handler w' = Returned true).
Proof.
  destruct 1 as [d w E Hd|asg w E|id rest newest w E Hl|newest w E Hl|j id a w E Hj Ha|i dl j id a w E Hr Hi Hj
    |i dl w E Hr Hi|i dl w E Hr Hi Hdl|b j id a w E Hr Hj]; cbn [w_handler]; auto.
  - right; left. by eexists _, _, _, _.
  - right; right; left. by eexists _, _.
  - right; right; right; left. by eexists _, _.
  - right; right; right; right; left. by eexists _, _.
  - right; right; right; right; right. by eexists _, _.
Qed.

Lemma w_step_poller ttl ids w w' j id p : w_step ttl ids w w' → w_pollers w !! j = Some (id, p) →
  ∃ p', w_pollers w' !! j = Some (id, p') ∧
    (p' = p ∨ (p = Polling ∧ ∃ a, p' = Sending a) ∨ (∃ a, p = Sending a ∧ p' = Finished)).
Proof.
  destruct 1 as [d w E Hd|asg w E|id' rest newest w E Hl|newest w E Hl|j' id' a w E Hj Ha|i dl j' id' a w E Hr Hi Hj
    |i dl w E Hr Hi|i dl w E Hr Hi Hdl|b j' id' a w E Hr Hj]; cbn [w_pollers]; intros Hp; try (exists p; by auto).
  - exists p. split; [by apply lookup_app_l_Some|by left].
  - destruct (decide (j' = j)) as [->|Hne].
    + rewrite Hp in Hj. injection Hj as -> ->. exists (Sending a). split; [|right; left; split; [done|by exists a]].
      apply list_lookup_insert. by eapply lookup_lt_Some.
    + exists p. rewrite list_lookup_insert_ne by done. by auto.
  - destruct (decide (j' = j)) as [->|Hne].
    + rewrite Hp in Hj. injection Hj as -> ->. exists Finished. split; [|right; right; by exists a].
      apply list_lookup_insert. by eapply lookup_lt_Some.
    + exists p. rewrite list_lookup_insert_ne by done. by auto.
Qed.

(** Again and again no expiration cycle is under way and the polling goroutines would
    find what is stored. *)
Definition FreshLooks {St} (f : nat → St * wstate) (assignments : St → gmap string assignment) : Prop :=
  ∀ n, ∃ m, n <= m ∧ w_assignments (f m).2 = assignments (f m).1.

Section run.
Context {St : Type} (step : St → St → Prop) (assignments : St → gmap string assignment).
Context (ttl : Z) (ids : list string) (now : instant) (asg : gmap string assignment) (g : Z) (s0 : St).
Context (f : nat → St * wstate).
Notation along := (along step assignments ttl ids).
Hypothesis starts : f 0 = (s0, w_init ids now asg g).
Hypothesis runs : Execution along f.
Hypothesis fair : FairWatch along f.

Lemma fw_alive n : w_panic (f n).2 = false.
Proof.
  pose proof (runs n) as H. destruct H as [s s' w E H|s a w E H|s w w' H _]; cbn; try done. by destruct H.
Qed.
Lemma fw_step n : w_step ttl ids (f n).2 (f (S n)).2.
Proof.
  pose proof (runs n) as H. destruct H as [s s' w E H|s a w E H|s w w' H _]; cbn; [| |done].
  - unfold sees. rewrite E. by apply W_env.
  - unfold sees. rewrite E. by apply W_env.
Qed.
Lemma fw_later n : rtc along (s0, w_init ids now asg g) (f n).
Proof. rewrite <-starts. apply (pausing_later along f 0 n (execution_pausing _ _ runs)). lia. Qed.
Lemma fw_reach n : w_later ttl ids (w_init ids now asg g) (f n).2.
Proof. exact (along_later step assignments ttl ids _ _ (fw_later n)). Qed.
Lemma fw_inv n : w_inv ttl ids g now (f n).2.
Proof. eapply w_inv_reach, fw_reach. Qed.
Lemma fw_server n m : n <= m → rtc step (f n).1 (f m).1.
Proof. intros H. apply (along_server step assignments ttl ids). by apply (pausing_later _ _ _ _ (execution_pausing _ _ runs)). Qed.

(** A step of the watch alone. *)
Lemma fw_possible n w' : w_step ttl ids (f n).2 w' → w_assignments w' = w_assignments (f n).2 → along (f n) ((f n).1, w').
Proof. intros H E. destruct (f n) as [s w]. by apply AL_watch. Qed.

(** All polling goroutines are started. *)
Definition launching (z : St * wstate) : Prop := ∃ rest nw, w_handler z.2 = Launching rest nw.
Definition launched (z : St * wstate) : Prop := (∃ i dl, w_handler z.2 = Receiving i dl) ∨ ∃ b, w_handler z.2 = Returned b.
Lemma fw_launched n : ∃ m, n <= m ∧ launched (f m).
Proof.
  assert (launching (f n) ∨ launched (f n)) as [Hl|Hl].
  { unfold launching, launched. destruct (w_handler (f n).2); eauto. }
  2: by exists n.
  apply (leads_to along f (λ z z', WatchMoves WatchGoesOn z.2 z'.2) launching launched
    (λ z, match w_handler z.2 with Launching rest _ => length rest | _ => 0 end)); [apply fair| | | |done].
  - intros k (rest & nw & E). rewrite E.
    destruct (w_step_handler _ _ _ _ (fw_step k)) as [E'|[(id & r & a & b & E1 & E2)|[(a & dl & E1 & E2)|[(i & dl & E1 & _)|[(i & dl & E1 & _)|(i & dl & E1 & _)]]]]];
      try congruence.
    + left. split; [exists rest, nw; by rewrite E', E|]. rewrite E', E. done.
    + left. rewrite E1 in E. injection E as <- <-. rewrite E2. split; [by exists r, b|cbn; lia].
    + right. left. by exists 0, dl.
  - intros k (rest & nw & E) Hm. cbn in Hm. rewrite E.
    destruct (w_step_handler _ _ _ _ (fw_step k)) as [E'|[(id & r & a & b & E1 & E2)|[(a & dl & E1 & E2)|[(i & dl & E1 & _)|[(i & dl & E1 & _)|(i & dl & E1 & _)]]]]];
      try congruence.
    + left. rewrite E1 in E. injection E as <- <-. rewrite E2. cbn. lia.
    + right. left. by exists 0, dl.
  - intros k (rest & nw & E). exists k. split; [done|]. right. destruct rest as [|id rest].
    + eexists. split; [apply fw_possible; [exact (W_begin ttl ids nw _ (fw_alive k) E)|done]|]. cbn. rewrite E. done.
    + eexists. split; [apply fw_possible; [exact (W_launch ttl ids id rest nw _ (fw_alive k) E)|done]|]. cbn. rewrite E.
      intros H. injection H as H _. apply (f_equal length) in H. cbn in H. lia.
Qed.

(** After that the goroutines are those of the ids. *)
Lemma fw_pollers n : launched (f n) → (w_pollers (f n).2).*1 = ids.
Proof.
  intros H. destruct (fw_inv n) as (_ & Hh & _). unfold handler_inv in Hh.
  destruct H as [(i & dl & E)|([] & E)]; rewrite E in Hh; by destruct Hh.
Qed.
Lemma fw_room n i dl j id p : w_handler (f n).2 = Receiving i dl → w_pollers (f n).2 !! j = Some (id, p) → p ≠ Finished → i < length ids.
Proof.
  intros E Hj Hp. destruct (fw_inv n) as (_ & Hh & Hs & _). unfold handler_inv in Hh. rewrite E in Hh. destruct Hh as (E1 & E2 & _).
  apply Permutation_length in Hs. rewrite app_length, fmap_length, E2 in Hs. rewrite E1 in Hs.
  pose proof (unfinished_elem _ _ _ _ Hj Hp) as Hu. destruct (unfinished (w_pollers (f n).2)); [by apply elem_of_nil in Hu|]. cbn in Hs. lia.
Qed.
Lemma launched_stays n m : n <= m → launched (f n) → launched (f m).
Proof.
  intros Hle Hl. induction Hle as [|m _ IH]; [done|].
  destruct (w_step_handler _ _ _ _ (fw_step m)) as [E'|[(id & r & a & b & E1 & E2)|[(a & dl & E1 & E2)|[(i & dl & E1 & _ & E2)|[(i & dl & E1 & _ & E2)|(i & dl & E1 & E2)]]]]].
  - unfold launched. by rewrite E'.
  - destruct IH as [(? & ? & E)|(? & E)]; congruence.
  - destruct IH as [(? & ? & E)|(? & E)]; congruence.
  - left. by exists (S i), dl.
  - right. by exists false.
  - right. by exists true.
Qed.

(** One goroutine whose id has an assignment from time [k0] on. *)
Definition served (j : nat) (id : string) (z : St * wstate) : Prop := w_pollers z.2 !! j = Some (id, Finished).
Definition gone_off (z : St * wstate) : Prop := w_timed_out z.2.
Definition unserved (j : nat) (id : string) (z : St * wstate) : Prop :=
  (∃ i dl, w_handler z.2 = Receiving i dl) ∧ ∃ p, w_pollers z.2 !! j = Some (id, p) ∧ p ≠ Finished.

Lemma served_stays j id n m : n <= m → served j id (f n) → served j id (f m).
Proof.
  intros Hle Hs. induction Hle as [|m _ IH]; [done|].
  destruct (w_step_poller _ _ _ _ _ _ _ (fw_step m) IH) as (p' & Hp & [->|[[? _]|(a & ? & _)]]); done.
Qed.
Lemma gone_off_stays n m : n <= m → gone_off (f n) → gone_off (f m).
Proof.
  intros Hle Hs. induction Hle as [|m _ IH]; [done|]. unfold gone_off, w_timed_out in *.
  destruct (w_step_handler _ _ _ _ (fw_step m)) as [E'|[(id & r & a & b & E1 & E2)|[(a & dl & E1 & E2)|[(i & dl & E1 & _ & E2)|[(i & dl & E1 & _ & E2)|(i & dl & E1 & E2)]]]]]; congruence.
Qed.

(** When time goes on, every watch ends. *)
Lemma fw_ends : TimePasses f → ∃ m b, w_handler (f m).2 = Returned b.
Proof.
  intros Ht. destruct (fw_launched 0) as (n & _ & [(i0 & dl & E0)|(b & Hb)]); [|by exists n, b].
  assert (∃ m, n <= m ∧ ∃ b, w_handler (f m).2 = Returned b) as (m & _ & b & Hb); [|by exists m, b].
  assert (Hstep : ∀ k, (∃ i, w_handler (f k).2 = Receiving i dl) →
    w_handler (f (S k)).2 = w_handler (f k).2 ∨
    (∃ i, w_handler (f k).2 = Receiving i dl ∧ i < length ids ∧ w_handler (f (S k)).2 = Receiving (S i) dl) ∨
    ∃ b, w_handler (f (S k)).2 = Returned b).
  { intros k (i & E).
    destruct (w_step_handler _ _ _ _ (fw_step k)) as [E'|[(? & r & a & b & E1 & E2)|[(a & ? & E1 & E2)|[(j & dl' & E1 & Hl & E2)|[(? & ? & E1 & _ & E2)|(? & ? & E1 & E2)]]]]];
      try congruence; [by left| |right; right; by exists false|right; right; by exists true].
    right. left. rewrite E in E1. injection E1 as <- <-. by exists i. }
  apply (leads_to along f (λ z z', WatchMoves WatchGoesOn z.2 z'.2) (λ z, ∃ i, w_handler z.2 = Receiving i dl)
    (λ z, ∃ b, w_handler z.2 = Returned b) (λ z, match w_handler z.2 with Receiving i _ => length ids - i | _ => 0 end)); [apply fair| | | |by exists i0].
  - intros k Hp. destruct (Hstep k Hp) as [E|[(i & E & Hl & E')|Hb]]; [|rewrite E, E'|by right].
    + left. rewrite E. split; [done|lia].
    + left. split; [by exists (S i)|lia].
  - intros k Hp Hm. destruct (Hstep k Hp) as [E|[(i & E & Hl & E')|Hb]]; [done|rewrite E, E'; left; lia|by right].
  - intros k Hp. destruct (Ht dl) as (t & Hge).
    assert (Hkeep : ∀ j, (∃ i, w_handler (f j).2 = Receiving i dl) → (∃ i, w_handler (f (S j)).2 = Receiving i dl) ∨ ∃ b, w_handler (f (S j)).2 = Returned b).
    { intros j Hj. destruct (Hstep j Hj) as [E|[(i & E & Hl & E')|Hb]]; [left; by rewrite E|left; by exists (S i)|by right]. }
    destruct (kept f (λ z, ∃ i, w_handler z.2 = Receiving i dl) (λ z, ∃ b, w_handler z.2 = Returned b) Hkeep k (k `max` t) ltac:(lia) Hp)
      as [Hr|(j & H1 & _ & H3)]; [|exists j; split; [done|by left]].
    exists (k `max` t). split; [lia|]. right. destruct Hr as [i E].
    destruct (decide (i < length ids)) as [Hi|Hi].
    + eexists. split; [apply fw_possible; [exact (W_timeout ttl ids i dl _ (fw_alive _) E Hi (Hge (k `max` t) ltac:(lia)))|done]|]. cbn. by rewrite E.
    + eexists. split; [apply fw_possible; [exact (W_return ttl ids i dl _ (fw_alive _) E ltac:(lia))|done]|]. cbn. by rewrite E.
Qed.

(** The server, while the watch goes on. *)
Lemma fw_pausing : Pausing step (λ n, (f n).1).
Proof.
  intros n. pose proof (runs n) as H. destruct H as [s s' w E H|s a w E H|s w w' H _]; cbn; [by right|by left|by left].
Qed.
Lemma fw_server_fair A : FairTo along f (λ z z', A z.1 z'.1) → FairTo step (λ n, (f n).1) A.
Proof.
  intros H n. destruct (H n) as [Hm|(k & Hk)]; [by left|]. right. exists k. intros m s Hm Hs Ha.
  apply (Hk m (s, sees (assignments s) (f m).2) Hm); [|done].
  pose proof (fw_alive m) as Hal. destruct (f m) as [s1 w1]. by apply AL_server.
Qed.
Lemma fw_fresh A : (∀ s, ¬ A s s) → FairTo step (λ n, (f n).1) A → (∀ n, ∃ m s, n <= m ∧ step (f m).1 s ∧ A (f m).1 s) → FreshLooks f assignments.
Proof using runs.
  clear s0 starts fair.
  intros Hirr Hf Hp n. destruct (Hf n) as [(m & Hm & Ha)|(k & Hk)].
  - exists (S m). split; [lia|]. pose proof (runs m) as H. revert Ha.
    destruct H as [s s' w E H|s a w E H|s w w' H _]; cbn; [done| |]; intros Ha; by apply Hirr in Ha.
  - destruct (Hp k) as (m & s & Hm & Hs & Ha). exfalso. by apply (Hk m s).
Qed.

Hypothesis fresh : FreshLooks f assignments.

Lemma fw_kept j id n : unserved j id (f n) → unserved j id (f (S n)) ∨ served j id (f (S n)) ∨ gone_off (f (S n)).
Proof.
  intros ((i & dl & E) & p & Hp & Hne).
  destruct (w_step_poller _ _ _ _ _ _ _ (fw_step n) Hp) as (p' & Hp' & _).
  assert (p' = Finished ∨ p' ≠ Finished) as [->|Hne'] by (destruct p'; auto); [by right; left|].
  destruct (w_step_handler _ _ _ _ (fw_step n)) as [E'|[(? & r & a & b & E1 & E2)|[(a & ? & E1 & E2)|[(? & ? & E1 & _ & E2)|[(? & ? & E1 & Hl & E2)|(? & ? & E1 & E2)]]]]];
    try congruence.
  - left. split; [rewrite E'; by exists i, dl|by exists p'].
  - left. split; [by eexists _, _|by exists p'].
  - exfalso. rewrite E in E1. injection E1 as <- <-. pose proof (fw_room _ _ _ _ _ _ E Hp Hne). lia.
  - by right; right.
Qed.

Lemma fw_served (X : St → Prop) j id k0 n : (∀ k, k0 <= k → X (f k).1 ∨ is_Some (assignments (f k).1 !! id)) →
  k0 <= n → launched (f n) → ids !! j = Some id → ∃ m, n <= m ∧ (gone_off (f m) ∨ X (f m).1 ∨ served j id (f m)).
Proof.
  intros Has Hkn Hl Hj.
  assert (∃ p, w_pollers (f n).2 !! j = Some (id, p)) as [p Hp].
  { rewrite <-(fw_pollers n Hl), list_lookup_fmap in Hj. destruct (w_pollers (f n).2 !! j) as [[id' p]|]; [|done].
    injection Hj as ->. by exists p. }
  assert (p = Finished ∨ p ≠ Finished) as [->|Hne] by (destruct p; auto); [exists n; split; [done|by right; right]|].
  destruct Hl as [Hr|([] & Hr)]; [|exists n; split; [done|by left]|].
  2: { exfalso. apply (normal_end_stops ttl ids now asg g _ (fw_reach n) Hr). by exists j, id, p. }
  set (f' := from f n).
  assert (Hgo : ∀ k, unserved j id (f' k) → ∃ m, k <= m ∧ (served j id (f' m) ∨ gone_off (f' m) ∨ X (f' m).1)).
  { apply (leads_to along f' (λ z z', WatchMoves (PollerGoesOn j) z.2 z'.2) (unserved j id) (λ z, served j id z ∨ gone_off z ∨ X z.1)
      (λ z, match w_pollers z.2 !! j with Some (_, Polling) => 2 | Some (_, Sending _) => 1 | _ => 0 end)).
    - apply from_fair, fair.
    - intros k Hu. unfold f', from in *. rewrite Nat.add_succ_r. destruct (fw_kept _ _ _ Hu) as [Hu'|Hq]; [left; split; [done|]|right; tauto].
      destruct Hu as (_ & q & Hq & _). destruct (w_step_poller _ _ _ _ _ _ _ (fw_step (n + k)) Hq) as (q' & Hq' & Hc).
      rewrite Hq, Hq'. destruct Hc as [->|[[-> [a ->]]|(a & -> & ->)]]; [done|lia|lia].
    - intros k Hu (q & q' & Hq & Hq' & Hd). unfold f', from in *. rewrite Nat.add_succ_r in *. left.
      destruct Hu as (_ & q0 & Hq0 & _). destruct (w_step_poller _ _ _ _ _ _ _ (fw_step (n + k)) Hq0) as (q1 & Hq1 & Hc).
      rewrite Hq0 in Hq. injection Hq as <-. rewrite Hq1 in Hq'. injection Hq' as <-. rewrite Hq0, Hq1.
      destruct Hc as [->|[[-> [a ->]]|(a & -> & ->)]]; [done|lia|lia].
    - intros k Hu. destruct (fresh (n + k)) as (m & Hm & Ef).
      destruct (kept f (unserved j id) (λ z, served j id z ∨ gone_off z) (fw_kept j id) (n + k) m Hm Hu) as [Hum|(i & H1 & H2 & H3)].
      2: { exists (i - n). split; [lia|]. left. unfold f'. rewrite <-from_at by lia. tauto. }
      destruct (Has m ltac:(lia)) as [HX|Hsome].
      { exists (m - n). split; [lia|]. left. unfold f'. rewrite <-from_at by lia. tauto. }
      exists (m - n). split; [lia|]. right. unfold f'. rewrite <-from_at by lia. destruct Hum as ((i & dl & Eh) & q & Hq & Hqn).
      destruct q as [|a|]; [| |done].
      + destruct Hsome as [a Ha]. rewrite <-Ef in Ha.
        eexists. split; [apply fw_possible; [exact (W_load ttl ids j id a _ (fw_alive m) Hq Ha)|done]|].
        cbn. eexists _, _. split; [exact Hq|]. split; [apply list_lookup_insert; by eapply lookup_lt_Some|done].
      + pose proof (fw_room _ _ _ _ _ _ Eh Hq Hqn) as Hroom.
        eexists. split; [apply fw_possible; [exact (W_recv ttl ids i dl j id a _ (fw_alive m) Eh Hroom Hq)|done]|].
        cbn. eexists _, _. split; [exact Hq|]. split; [apply list_lookup_insert; by eapply lookup_lt_Some|done]. }
  destruct (Hgo 0) as (m & _ & Hm).
  - unfold f'. rewrite from_0. split; [done|by exists p].
  - exists (n + m). split; [lia|]. unfold f', from in Hm. tauto.
Qed.

Lemma fw_served_sent j id n : served j id (f n) → launched (f n) → ∃ a, (id, a) ∈ w_sent (f n).2.
Proof.
  intros Hs Hl. destruct (fw_inv n) as (_ & _ & Hp & _).
  assert (Hin : id ∈ (w_sent (f n).2).*1).
  { assert (H := insert_split (w_pollers (f n).2) j (id, Finished) (id, Polling) Hs). destruct H as [H _].
    set (l := w_pollers (f n).2) in *. set (l1 := take j l) in *. set (l2 := drop (S j) l) in *.
    rewrite H in Hp. rewrite unfinished_app, fmap_app in Hp. cbn [unfinished omap list_omap fmap list_fmap fst snd] in Hp.
    (* count the occurrences of id *)
    assert (Hc : ∀ x : list (string * poller), length (filter (λ y, y = id) (unfinished x)) <= length (filter (λ y, y = id) x.*1)).
    { clear. induction x as [|[y q] x IH]; [done|]. cbn [unfinished omap list_omap fmap list_fmap fst snd].
      change (omap _ x) with (unfinished x). destruct q; rewrite ?filter_cons; cbn [fmap list_fmap]; destruct (decide (y = id)); cbn [length]; unfold unfinished in *; lia. }
    assert (Hl2 : length (filter (λ y, y = id) ((w_sent (f n).2).*1 ++ unfinished l1 ++ unfinished l2)) =
                  length (filter (λ y, y = id) (l1.*1 ++ id :: l2.*1))) by (by rewrite Hp).
    rewrite !filter_app, !app_length, filter_cons, decide_True in Hl2 by done. cbn [length] in Hl2.
    pose proof (Hc l1). pose proof (Hc l2).
    destruct (filter (λ y, y = id) (w_sent (f n).2).*1) as [|y r] eqn:E; [cbn [length] in Hl2; lia|].
    assert (y ∈ filter (λ y, y = id) (w_sent (f n).2).*1) as Hy by (rewrite E; left).
    by apply elem_of_list_filter in Hy as [-> Hy]. }
  apply elem_of_list_fmap in Hin as ([id' a] & -> & Hin). by exists a.
Qed.

(** An id that has an assignment from some time on is answered, unless the watch times out. *)
Lemma fw_answered (X : St → Prop) id k0 : id ∈ ids → (∀ k, k0 <= k → X (f k).1 ∨ is_Some (assignments (f k).1 !! id)) →
  ∃ m, w_timed_out (f m).2 ∨ X (f m).1 ∨ ∃ a, (id, a) ∈ w_sent (f m).2.
Proof.
  intros [j Hj]%elem_of_list_lookup Has. destruct (fw_launched k0) as (n & Hn & Hl).
  destruct (fw_served X j id k0 n Has Hn Hl Hj) as (m & Hm & [Hg|[Hg|Hs]]); exists m; [by left|by right; left|right; right].
  apply (fw_served_sent j id m Hs). by eapply launched_stays.
Qed.

(** When all have, it ends. *)
Lemma fw_all_served (X : St → Prop) n : launched (f n) → (∀ id, id ∈ ids → ∃ k0, ∀ k, k0 <= k → X (f k).1 ∨ is_Some (assignments (f k).1 !! id)) →
  ∀ c, c <= length ids → ∃ m, n <= m ∧ (gone_off (f m) ∨ X (f m).1 ∨ ∀ j id, j < c → ids !! j = Some id → served j id (f m)).
Proof.
  intros Hl Has c. induction c as [|c IH]; intros Hc; [exists n; split; [done|]; right; right; intros; lia|].
  destruct (IH ltac:(lia)) as (m & Hm & [Hg|[Hg|Hall]]); [exists m; split; [done|by left]|exists m; split; [done|by right; left]|].
  destruct (lookup_lt_is_Some_2 ids c) as [id Hid]; [lia|].
  destruct (Has id) as [k0 Hk0]; [by eapply elem_of_list_lookup_2|].
  destruct (fw_served X c id k0 (m `max` k0) Hk0 ltac:(lia) ltac:(eapply launched_stays; [|exact Hl]; lia) Hid) as (m' & Hm' & Hs).
  exists m'. split; [lia|]. destruct Hs as [Hs|[Hs|Hs]]; [by left|by right; left|right; right]. intros j id' Hj Hj'.
  destruct (decide (j = c)) as [->|Hne].
  - rewrite Hid in Hj'. by injection Hj' as <-.
  - eapply (served_stays j id' m); [lia|]. apply Hall; [lia|done].
Qed.

Lemma fw_complete (X : St → Prop) : (∀ id, id ∈ ids → ∃ k0, ∀ k, k0 <= k → X (f k).1 ∨ is_Some (assignments (f k).1 !! id)) →
  ∃ m, w_timed_out (f m).2 ∨ X (f m).1 ∨ (w_handler (f m).2 = Returned false ∧ (w_sent (f m).2).*1 ≡ₚ ids).
Proof.
  intros Has. destruct (fw_launched 0) as (n & _ & Hl).
  destruct (fw_all_served X n Hl Has (length ids) ltac:(lia)) as (m & Hm & [Hg|[Hg|Hall]]); [exists m; by left|exists m; by right; left|].
  assert (Hlm : launched (f m)) by (by eapply launched_stays).
  assert (Hfull : ∀ k, m <= k → ∀ i dl, w_handler (f k).2 = Receiving i dl → length ids <= i).
  { intros k Hk i dl E. destruct (fw_inv k) as (_ & Hh & Hp & _). unfold handler_inv in Hh. rewrite E in Hh.
    destruct Hh as (E1 & E2 & _). apply Permutation_length in Hp. rewrite app_length, fmap_length, E1 in Hp.
    assert (unfinished (w_pollers (f k).2) = []) as Hu; [|rewrite Hu in Hp; cbn in Hp; lia].
    destruct (unfinished (w_pollers (f k).2)) as [|id r] eqn:Eu; [done|]. exfalso.
    assert (id ∈ unfinished (w_pollers (f k).2)) as Hin by (rewrite Eu; left).
    apply elem_of_list_omap in Hin as ([id' p] & Hin & Hp'). apply elem_of_list_lookup in Hin as [j Hj].
    assert (Hid : ids !! j = Some id') by (rewrite <-E1, list_lookup_fmap, Hj; done).
    pose proof (served_stays j id' m k Hk (Hall j id' ltac:(by eapply lookup_lt_Some) Hid)) as Hs. unfold served in Hs.
    rewrite Hj in Hs. injection Hs as ->. done. }
  set (f' := from f m).
  assert (∃ k, m <= k ∧ ∃ b, w_handler (f k).2 = Returned b) as (k & Hk & b & Eb).
  { destruct Hlm as [Hr|(b & Hb)]; [|exists m; split; [done|by exists b]].
    destruct (leads_at_once along f' (λ z z', WatchMoves WatchGoesOn z.2 z'.2) (λ z, ∃ i dl, w_handler z.2 = Receiving i dl)
      (λ z, ∃ b, w_handler z.2 = Returned b)) with (n := 0) as (k & _ & Hk).
    - apply from_fair, fair.
    - intros k (i & dl & E). unfold f', from in *. rewrite Nat.add_succ_r.
      destruct (w_step_handler _ _ _ _ (fw_step (m + k))) as [E'|[(? & r & a & b & E1 & E2)|[(a & ? & E1 & E2)|[(? & ? & E1 & _ & E2)|[(? & ? & E1 & _ & E2)|(? & ? & E1 & E2)]]]]];
        try congruence; [left; rewrite E'; eauto|left; eauto|right; eauto|right; eauto].
    - intros k (i & dl & E) Hm'. unfold f', from in *. rewrite Nat.add_succ_r in *. cbn in Hm'.
      pose proof (Hfull (m + k) ltac:(lia) i dl E) as Hge.
      destruct (w_step_handler _ _ _ _ (fw_step (m + k))) as [E'|[(? & r & a & b & E1 & E2)|[(a & ? & E1 & E2)|[(? & ? & E1 & Hlt & E2)|[(? & ? & E1 & _ & E2)|(? & ? & E1 & E2)]]]]];
        try congruence; [|eauto|eauto]. rewrite E in E1. injection E1 as <- <-. lia.
    - intros k (i & dl & E). exists k. split; [done|]. right. unfold f', from in *.
      pose proof (Hfull (m + k) ltac:(lia) i dl E) as Hge.
      eexists. split; [apply fw_possible; [exact (W_return ttl ids i dl _ (fw_alive (m + k)) E Hge)|done]|]. cbn. by rewrite E.
    - unfold f'. by rewrite from_0.
    - exists (m + k). split; [lia|]. exact Hk. }
  exists k. destruct b; [by left|right; right]. split; [done|]. by apply (watch_answers ttl ids now asg g _ (fw_reach k)).
Qed.
End run.
