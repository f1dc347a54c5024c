(** Watches. *)
From Coq Require Import Ascii String ZArith NArith Lia ZifyBool.
From stdpp Require Import prelude strings gmap sorting.
From Verif.Model Require Import GoStrings Types ParseBase0 Watch.
From Verif.Spec Require Import HandlerSpec WatchSpec.
From Verif.Proofs Require Import StringLemmas.
Local Open Scope Z_scope.

(** ** Parsing with base 0 *)
Lemma fmt_head fuel n acc : (0 < n)%N → (n < 10 ^ N.of_nat fuel)%N →
  ∃ c s, fmt_fuel fuel n acc = String c s ∧ c ≠ "0"%char.
Proof.
  revert n acc. induction fuel as [|fuel IH]; intros n acc H0 Hn.
  - change (10 ^ N.of_nat 0)%N with 1%N in Hn. lia.
  - cbn [fmt_fuel]. destruct (n <? 10)%N eqn:E.
    + eexists _, _. split; [done|]. rewrite N.mod_small by lia.
      destruct (digit_cases n) as [->|[->|[->|[->|[->|[->|[->|[->|[->| ->]]]]]]]]]; lia || done.
    + apply IH.
      * apply N.div_str_pos. lia.
      * replace (N.of_nat (S fuel)) with (N.succ (N.of_nat fuel)) in Hn by lia.
        rewrite N.pow_succ_r in Hn by lia. apply N.div_lt_upper_bound; lia.
Qed.

Lemma parse_digits_ten acc s : all_digits s = true → parse_digits 10 acc s = parse_uint_loop acc s.
Proof.
  revert acc. induction s as [|c s IH]; intros acc Hd; cbn [parse_digits parse_uint_loop all_digits] in *; [done|].
  apply andb_true_iff in Hd as [Hc Hs]. unfold digit_any. rewrite Hc.
  assert (Ascii.eqb c "_" = false) as ->.
  { apply Ascii.eqb_neq. intros ->. vm_compute in Hc. discriminate. }
  assert (10 <=? digit_val c = false)%N as ->.
  { unfold is_digit in Hc. unfold digit_val. lia. }
  destruct (_ <=? _)%N; [done|]. cbv zeta. destruct (_ <? _)%N; [done|]. by apply IH.
Qed.
Lemma digits_no_underscore s : all_digits s = true → has_underscore s = false.
Proof.
  induction s as [|c s IH]; intros Hd; cbn in *; [done|]. apply andb_true_iff in Hd as [Hc Hs].
  rewrite IH by done. assert (Ascii.eqb c "_" = false) as ->; [|done].
  apply Ascii.eqb_neq. intros ->. vm_compute in Hc. discriminate.
Qed.

Lemma parse_int0_format n : 0 <= n <= max_i64 → parse_int0 (format_Z n) = PRok n.
Proof.
  intros [H0 H1]. destruct (decide (n = 0)) as [->|Hne]; [done|].
  rewrite <-(parse_int_format n) by lia. rewrite format_Z_nonneg by lia.
  destruct (fmt_head (S (N.size_nat (Z.to_N n))) (Z.to_N n) ""%string) as (c & s & E & Hc); [lia|apply size_bound|].
  fold (format_N (Z.to_N n)) in E. pose proof (format_N_digits (Z.to_N n)) as Hd. rewrite E in *.
  assert (is_digit c = true) as Hdc by (cbn in Hd; by apply andb_true_iff in Hd as [? _]).
  destruct (digit_not_sign c Hdc) as [E1 E2].
  unfold parse_int0, parse_int. rewrite E1, E2. f_equal. unfold parse_uint0, parse_uint.
  assert (base_prefix (String c s) = (10%N, String c s)) as ->.
  { cbn [base_prefix]. apply Ascii.eqb_neq in Hc. by rewrite Hc. }
  rewrite (parse_digits_ten 0 _ Hd). rewrite (digits_no_underscore _ Hd). cbn [andb].
  by destruct (parse_uint_loop 0 (String c s)).
Qed.
Lemma id_time0_format t k :
  0 <= t <= max_i64 → id_time0 (format_Z t +:+ "-" +:+ format_Z k) = t.
Proof. intros H. unfold id_time0. rewrite before_dash_id by lia. by rewrite parse_int0_format. Qed.

(** ** Unfinished pollers *)
Definition unfinished (l : list (string * poller)) : list string :=
  omap (λ p, match p.2 with Finished => None | _ => Some p.1 end) l.

Lemma unfinished_app l l' : unfinished (l ++ l') = (unfinished l ++ unfinished l')%list.
Proof. apply omap_app. Qed.
Lemma insert_split {A} (l : list A) j x y : l !! j = Some x →
  l = (take j l ++ x :: drop (S j) l)%list ∧ <[j := y]> l = (take j l ++ y :: drop (S j) l)%list.
Proof.
  intros H. split; [by rewrite take_drop_middle|]. apply insert_take_drop. by eapply lookup_lt_Some.
Qed.
Lemma unfinished_send l j id a :
  l !! j = Some (id, Polling) → unfinished (<[j := (id, Sending a)]> l) = unfinished l.
Proof.
  intros H. destruct (insert_split l j (id, Polling) (id, Sending a) H) as [H1 ->]. rewrite H1 at 3. by rewrite !unfinished_app.
Qed.
Lemma unfinished_done l j id a :
  l !! j = Some (id, Sending a) → unfinished l ≡ₚ id :: unfinished (<[j := (id, Finished)]> l).
Proof.
  intros H. destruct (insert_split l j (id, Sending a) (id, Finished) H) as [H1 ->]. rewrite H1 at 1. rewrite !unfinished_app.
  cbn [unfinished omap list_omap snd fst]. by rewrite Permutation_middle.
Qed.
Lemma insert_ids (l : list (string * poller)) j id p p' : l !! j = Some (id, p) → (<[j := (id, p')]> l).*1 = l.*1.
Proof.
  intros H. rewrite list_fmap_insert. apply list_insert_id. rewrite list_lookup_fmap, H. done.
Qed.
Lemma unfinished_elem l j id p : l !! j = Some (id, p) → p ≠ Finished → id ∈ unfinished l.
Proof.
  intros H Hp. apply elem_of_list_omap. exists (id, p). split; [by eapply elem_of_list_lookup_2|]. by destruct p.
Qed.

(** ** The invariant *)
Section inv.
Context (ttl : Z) (ids : list string) (g0 : Z) (now : instant).

Definition handler_inv (s : wstate) : Prop :=
  match w_handler s with
  | Launching rest newest =>
      ((w_pollers s).*1 ++ rest)%list = ids ∧ w_sent s = [] ∧ w_gauge s = g0 ∧ now <= newest ∧
      (∀ id, id ∈ (w_pollers s).*1 → unix_time (id_time0 id) <= newest) ∧
      (newest = now ∨ ∃ id, id ∈ (w_pollers s).*1 ∧ newest = unix_time (id_time0 id))
  | Receiving i dl =>
      (w_pollers s).*1 = ids ∧ length (w_sent s) = i ∧ (i <= length ids)%nat ∧
      w_gauge s = g0 + Z.of_nat (length ids) - Z.of_nat i ∧
      ∃ c newest, dl = c + Z.max 0 (until (newest + dur_secs ttl) c) ∧ now <= c <= w_clock s ∧ now <= newest ∧
        (∀ id, id ∈ ids → unix_time (id_time0 id) <= newest) ∧
        (newest = now ∨ ∃ id, id ∈ ids ∧ newest = unix_time (id_time0 id))
  | Returned false => (w_pollers s).*1 = ids ∧ length (w_sent s) = length ids ∧ w_gauge s = g0
  | Returned true =>
      (w_pollers s).*1 = ids ∧ (length (w_sent s) < length ids)%nat ∧
      w_gauge s = g0 + 2 * (Z.of_nat (length ids) - Z.of_nat (length (w_sent s))) ∧
      ∃ c newest, c + Z.max 0 (until (newest + dur_secs ttl) c) <= w_clock s ∧ now <= c ∧ now <= newest ∧
        (∀ id, id ∈ ids → unix_time (id_time0 id) <= newest)
  end.
Definition w_inv (s : wstate) : Prop :=
  now <= w_clock s ∧ handler_inv s ∧ ((w_sent s).*1 ++ unfinished (w_pollers s))%list ≡ₚ (w_pollers s).*1 ∧
  (w_panic s = true → w_handler s = Returned true).

Lemma w_inv_init asg : w_inv (w_init ids now asg g0).
Proof.
  split; [cbn; lia|]. split; [|split; [done|done]]. unfold handler_inv. cbn.
  split; [done|]. split; [done|]. split; [done|]. split; [lia|]. split; [|by left].
  intros id Hid. by apply elem_of_nil in Hid.
Qed.

Lemma newer_spec a b : a <= newer a b ∧ b <= newer a b ∧ (newer a b = a ∨ newer a b = b).
Proof. unfold newer. destruct (a <? b) eqn:E; lia. Qed.

Lemma w_inv_step s s' : w_inv s → w_step ttl ids s s' → w_inv s'.
Proof.
  intros (Hc & Hh & Hp & Hx) Hstep. unfold handler_inv in Hh. destruct Hstep as
    [d s E Hd|asg s E|id rest newest s E Hl|newest s E Hl|j id a s E Hj Ha|i dl j id a s E Hr Hi Hj
    |i dl s E Hr Hi|i dl s E Hr Hi Hdl|b j id a s E Hr Hj].
  - (* tick *)
    split; [cbn; lia|]. split; [|by split]. unfold handler_inv. cbn. destruct (w_handler s) as [rest newest|i dl|[]]; [done| | |done].
    + destruct Hh as (H1 & H2 & H3 & H4 & c & nw & H5 & H6 & H7). repeat (split; [done|]). exists c, nw.
      split; [done|]. split; [lia|done].
    + destruct Hh as (H1 & H2 & H3 & c & nw & H5 & H6). repeat (split; [done|]). exists c, nw. split; [lia|done].
  - (* env *) by split.
  - (* launch *)
    rewrite Hl in Hh. destruct Hh as (H1 & H2 & H3 & H4 & H5 & H6). split; [done|]. split; [|split; [|done]].
    + unfold handler_inv. cbn. rewrite fmap_app. cbn. rewrite <-(assoc_L (++)). split; [done|]. split; [done|]. split; [done|].
      pose proof (newer_spec newest (unix_time (id_time0 id))) as (N1 & N2 & N3). split; [lia|]. split.
      * intros x Hx'. apply elem_of_app in Hx' as [Hx'|Hx'].
        -- specialize (H5 x Hx'). lia.
        -- apply elem_of_list_singleton in Hx' as ->. done.
      * destruct N3 as [->| ->].
        -- destruct H6 as [->|(x & Hx1 & Hx2)]; [by left|]. right. exists x. split; [|done]. apply elem_of_app. by left.
        -- right. exists id. split; [|done]. apply elem_of_app. right. by apply elem_of_list_singleton.
    + cbn. rewrite unfinished_app, fmap_app, (assoc_L (++)), Hp. done.
  - (* begin *)
    rewrite Hl in Hh. destruct Hh as (H1 & H2 & H3 & H4 & H5 & H6). rewrite app_nil_r in H1.
    split; [done|]. split; [|by split].
    unfold handler_inv. cbn. split; [done|]. split; [by rewrite H2|]. split; [lia|]. split; [lia|].
    exists (w_clock s), newest. rewrite H1 in *. split; [done|]. split; [lia|]. done.
  - (* load *)
    split; [done|]. split; [|split; [|done]].
    + unfold handler_inv. cbn. by rewrite (insert_ids _ _ _ _ _ Hj).
    + cbn. by rewrite (insert_ids _ _ _ _ _ Hj), (unfinished_send _ _ _ _ Hj).
  - (* recv *)
    rewrite Hr in Hh. destruct Hh as (H1 & H2 & H3 & H4 & H5). split; [done|]. split; [|split; [|done]].
    + unfold handler_inv. cbn. rewrite (insert_ids _ _ _ _ _ Hj). split; [done|].
      split; [rewrite app_length; cbn; lia|]. split; [lia|]. split; [lia|done].
    + cbn. rewrite (insert_ids _ _ _ _ _ Hj). rewrite <-Hp. rewrite (unfinished_done _ _ _ _ Hj).
      rewrite fmap_app. cbn. by rewrite <-(assoc_L (++)).
  - (* return *)
    rewrite Hr in Hh. destruct Hh as (H1 & H2 & H3 & H4 & H5). split; [done|]. split; [|by split].
    unfold handler_inv. cbn. split; [done|]. split; lia.
  - (* timeout *)
    rewrite Hr in Hh. destruct Hh as (H1 & H2 & H3 & H4 & c & nw & H5 & H6 & H7 & H8 & H9). split; [done|]. split; [|by split].
    unfold handler_inv. cbn. split; [done|]. split; [lia|]. split; [lia|]. exists c, nw. split; [lia|]. split; [lia|]. done.
  - (* panic *)
    split; [done|]. split; [done|]. split; [done|]. intros _. cbn. rewrite Hr. destruct b; [done|exfalso].
    rewrite Hr in Hh. destruct Hh as (H1 & H2 & H3).
    assert (length (unfinished (w_pollers s)) = 0%nat) as H0.
    { apply Permutation_length in Hp. rewrite app_length, !fmap_length in Hp.
      rewrite <-H1, fmap_length in H2. lia. }
    apply nil_length_inv in H0. pose proof (unfinished_elem _ _ _ _ Hj) as Hel. rewrite H0 in Hel.
    eapply elem_of_nil, Hel. done.
Qed.

Lemma w_inv_reach asg s : w_later ttl ids (w_init ids now asg g0) s → w_inv s.
Proof.
  intros H. apply (rtc_ind_r (λ s, w_inv s) _ (w_inv_init asg)) in H; [done|].
  intros y z _ Hs Hi. by eapply w_inv_step.
Qed.
End inv.

(** ** What is streamed is genuine *)
Definition seen_before (ttl : Z) (ids : list string) (s0 s : wstate) (id : string) (a : assignment) : Prop :=
  ∃ s1, w_later ttl ids s0 s1 ∧ w_later ttl ids s1 s ∧ w_assignments s1 !! id = Some a.
Lemma seen_step ttl ids s0 s s' id a : seen_before ttl ids s0 s id a → w_step ttl ids s s' → seen_before ttl ids s0 s' id a.
Proof. intros (s1 & H1 & H2 & H3) Hs. exists s1. split; [done|]. split; [|done]. by eapply rtc_r. Qed.

Lemma insert_lookup_inv {A} (l : list A) j k x y : <[j := x]> l !! k = Some y → y = x ∨ l !! k = Some y.
Proof.
  intros H. destruct (decide (j = k)) as [<-|Hne].
  - left. assert (is_Some (<[j:=x]> l !! j)) as Hl by eauto. apply lookup_lt_is_Some in Hl. rewrite insert_length in Hl.
    rewrite list_lookup_insert in H by done. by injection H.
  - right. by rewrite list_lookup_insert_ne in H.
Qed.

Lemma watch_genuine ttl ids s0 s : w_sent s0 = [] → w_pollers s0 = [] → w_later ttl ids s0 s →
  (∀ id a, (id, a) ∈ w_sent s → seen_before ttl ids s0 s id a) ∧
  (∀ j id a, w_pollers s !! j = Some (id, Sending a) → seen_before ttl ids s0 s id a).
Proof.
  intros E1 E2 H. revert s H. apply (rtc_ind_r (λ s, (∀ id a, (id, a) ∈ w_sent s → seen_before ttl ids s0 s id a) ∧
    (∀ j id a, w_pollers s !! j = Some (id, Sending a) → seen_before ttl ids s0 s id a))).
  { split; [intros id a Hi; rewrite E1 in Hi; by apply elem_of_nil in Hi|intros j id a Hj; by rewrite E2 in Hj]. }
  intros s s' Hreach Hstep [IH1 IH2].
  assert (∀ id a, (id, a) ∈ w_sent s → seen_before ttl ids s0 s' id a) as IH1'.
  { intros id a Hi. eapply seen_step; [by apply IH1|done]. }
  assert (∀ j id a, w_pollers s !! j = Some (id, Sending a) → seen_before ttl ids s0 s' id a) as IH2'.
  { intros j id a Hj. eapply seen_step; [by eapply IH2|done]. }
  clear IH1 IH2. pose proof (rtc_r _ _ _ Hreach Hstep) as Hreach'.
  destruct Hstep as
    [d s E Hd|asg s E|id rest newest s E Hl|newest s E Hl|j id a s E Hj Ha|i dl j id a s E Hr Hi Hj
    |i dl s E Hr Hi|i dl s E Hr Hi Hdl|b j id a s E Hr Hj]; try (split; [done|done]); cbn.
  - split; [done|]. intros j' id' a' Hj'. apply lookup_app_Some in Hj' as [Hj'|[_ Hj']]; [by eapply IH2'|].
    destruct (j' - length (w_pollers s))%nat; done.
  - split; [done|]. intros j' id' a' Hj'. apply insert_lookup_inv in Hj' as [Hj'|Hj']; [|by eapply IH2'].
    injection Hj' as -> ->. eexists. split; [exact Hreach'|]. split; [apply rtc_refl|]. done.
  - split.
    + intros id' a' Hi'. apply elem_of_app in Hi' as [Hi'|Hi']; [by apply IH1'|].
      apply elem_of_list_singleton in Hi'. injection Hi' as -> ->. by eapply IH2'.
    + intros j' id' a' Hj'. apply insert_lookup_inv in Hj' as [Hj'|Hj']; [done|by eapply IH2'].
Qed.

(** ** The statements *)
Section statements.
Context (ttl : Z) (ids : list string) (now : instant) (asg : gmap string assignment) (g : Z).
Notation s0 := (w_init ids now asg g).

Lemma watch_answers s : w_later ttl ids s0 s →
  (∀ id a, (id, a) ∈ w_sent s →
     ∃ s1, w_later ttl ids s0 s1 ∧ w_later ttl ids s1 s ∧ w_assignments s1 !! id = Some a) ∧
  (w_sent s).*1 ⊆+ ids ∧ (w_handler s = Returned false → (w_sent s).*1 ≡ₚ ids).
Proof.
  intros H. split; [|split].
  - by apply watch_genuine.
  - destruct (w_inv_reach ttl ids g now asg s H) as (_ & Hh & Hp & _). transitivity ((w_pollers s).*1).
    + rewrite <-Hp. apply submseteq_inserts_r. done.
    + unfold handler_inv in Hh. destruct (w_handler s) as [rest nw|i dl|[]].
      * destruct Hh as (<- & _). by apply submseteq_inserts_r.
      * by destruct Hh as (-> & _).
      * by destruct Hh as (-> & _).
      * by destruct Hh as (-> & _).
  - intros Hr. destruct (w_inv_reach ttl ids g now asg s H) as (_ & Hh & Hp & _). unfold handler_inv in Hh. rewrite Hr in Hh.
    destruct Hh as (H1 & H2 & _). rewrite H1 in Hp.
    apply Permutation_length in Hp as Hlen. rewrite app_length, fmap_length in Hlen.
    assert (unfinished (w_pollers s) = []) as H0 by (apply nil_length_inv; lia). by rewrite H0, app_nil_r in Hp.
Qed.

Lemma panic_only_after_timeout s : w_later ttl ids s0 s → w_panic s = true → w_timed_out s.
Proof. intros H. apply (w_inv_reach ttl ids g now asg s H). Qed.

(** After a timeout the watch crashes the server as soon as one of the unanswered
    tickets is assigned. *)
Lemma panic_after_timeout s j id : w_timed_out s → w_panic s = false →
  (w_pollers s !! j = Some (id, Polling) ∧ is_Some (w_assignments s !! id) ∨ ∃ a, w_pollers s !! j = Some (id, Sending a)) →
  ∃ s', w_later ttl ids s s' ∧ w_assignments s' = w_assignments s ∧ w_clock s' = w_clock s ∧ w_panic s' = true.
Proof.
  intros Ht Hp [[Hj [a Ha]]|[a Hj]].
  - eexists. split.
    + eapply rtc_l; [by eapply W_load|]. eapply rtc_once. eapply (W_panics _ _ true j id a); [done|done|].
      cbn. apply list_lookup_insert. by eapply lookup_lt_Some.
    + done.
  - eexists. split; [eapply rtc_once; by eapply W_panics|]. done.
Qed.

Lemma gauge_exact s : w_later ttl ids s0 s →
  (w_handler s = Returned false → w_gauge s = g) ∧
  (w_timed_out s → w_gauge s = g + 2 * (Z.of_nat (length ids) - Z.of_nat (length (w_sent s))) ∧
     (length (w_sent s) < length ids)%nat).
Proof.
  intros H. destruct (w_inv_reach ttl ids g now asg s H) as (_ & Hh & _). unfold handler_inv in Hh.
  split; intros Hr; unfold w_timed_out in *; rewrite Hr in Hh; [by apply Hh|]. destruct Hh as (_ & H1 & H2 & _). done.
Qed.

Lemma normal_end_stops s : w_later ttl ids s0 s → w_handler s = Returned false → ¬ w_running s.
Proof.
  intros H Hr (j & id & p & Hj & Hp). destruct (w_inv_reach ttl ids g now asg s H) as (_ & Hh & Hpm & _).
  unfold handler_inv in Hh. rewrite Hr in Hh. destruct Hh as (H1 & H2 & _).
  apply Permutation_length in Hpm. rewrite app_length, !fmap_length in Hpm.
  assert (length (w_pollers s) = length ids) as Hl by (by rewrite <-H1, fmap_length).
  assert (unfinished (w_pollers s) = []) as H0 by (apply nil_length_inv; lia).
  pose proof (unfinished_elem _ _ _ _ Hj Hp) as Hel. rewrite H0 in Hel. by apply elem_of_nil in Hel.
Qed.

Lemma dur_sane : SaneTTL ttl → dur_secs ttl = ttl * giga.
Proof.
  intros [H1 H2]. unfold dur_secs, wrap64, giga. change (2 ^ 63) with 9223372036854775808.
  change (2 ^ 64) with 18446744073709551616. rewrite Z.mod_small; lia.
Qed.

(** A watch does not give up before the TTL has passed, counted from the call and
    from the second in every watched id (292 years at most). *)
Lemma never_early s : SaneTTL ttl → w_later ttl ids s0 s → w_timed_out s → now + ttl * giga <= w_clock s.
Proof.
  intros Httl H Hr. destruct (w_inv_reach ttl ids g now asg s H) as (_ & Hh & _). unfold handler_inv in Hh.
  unfold w_timed_out in Hr. rewrite Hr in Hh. destruct Hh as (_ & _ & _ & c & nw & H1 & H2 & H3 & _).
  rewrite dur_sane in H1 by done. unfold until, max_duration in H1. change (2 ^ 63) with 9223372036854775808 in H1.
  destruct Httl as [T1 T2]. unfold giga in *. 
  assert (ttl * 1000000000 <= 9223372036000000000) by lia. lia.
Qed.

Lemma timeout_leaves_running s : w_later ttl ids s0 s → w_timed_out s → w_running s.
Proof.
  intros H Hr. destruct (w_inv_reach ttl ids g now asg s H) as (_ & Hh & Hp & _). unfold handler_inv in Hh.
  unfold w_timed_out in Hr. rewrite Hr in Hh. destruct Hh as (H1 & H2 & _).
  destruct (unfinished (w_pollers s)) as [|id l] eqn:E.
  - rewrite app_nil_r in Hp. apply Permutation_length in Hp. rewrite !fmap_length in Hp.
    rewrite <-H1, fmap_length in H2. lia.
  - assert (id ∈ unfinished (w_pollers s)) as Hel by (rewrite E; left).
    apply elem_of_list_omap in Hel as ([id' p] & Hin & Hp'). apply elem_of_list_lookup in Hin as [j Hj].
    exists j, id', p. split; [done|]. by destruct p.
Qed.
Lemma running_iff_timed_out s : w_later ttl ids s0 s → w_ended s → (w_running s ↔ w_timed_out s).
Proof.
  intros H [[] Hr]; split; intros Hx; [done|by apply timeout_leaves_running| |].
  - by destruct (normal_end_stops s H Hr Hx).
  - unfold w_timed_out in Hx. rewrite Hr in Hx. done.
Qed.

Lemma unix_time_small x : 0 <= x <= 10 ^ 18 → unix_time x = x * giga.
Proof.
  intros H. unfold unix_time, wrap64, unix_to_internal. change (2 ^ 63) with 9223372036854775808.
  change (2 ^ 64) with 18446744073709551616. change (10 ^ 18) with 1000000000000000000 in H. rewrite Z.mod_small; lia.
Qed.

Lemma mem_deadline s i dl : SaneTTL ttl → SaneNow now → (∀ id, id ∈ ids → MemIdBy now id) →
  w_later ttl ids s0 s → w_handler s = Receiving i dl → dl <= Z.max (w_clock s) (now + ttl * giga).
Proof.
  intros Httl Hnow Hids H Hr. destruct (w_inv_reach ttl ids g now asg s H) as (_ & Hh & _). unfold handler_inv in Hh.
  rewrite Hr in Hh. destruct Hh as (_ & _ & _ & _ & c & nw & -> & Hc & H1 & H2 & H3).
  assert (nw = now) as ->.
  { destruct H3 as [->|(id & Hid & Hn)]; [done|]. destruct (Hids id Hid) as (t & k & -> & T1 & T2).
    rewrite id_time0_format in Hn.
    - rewrite unix_time_small in Hn; [unfold giga in *; lia|]. unfold SaneNow in Hnow. unfold giga in *.
      change (10 ^ 18) with 1000000000000000000. lia.
    - unfold SaneNow in Hnow. unfold giga, max_i64 in *. change (2 ^ 63) with 9223372036854775808. lia. }
  rewrite dur_sane by done. unfold until. lia.
Qed.

Lemma redis_deadline s i dl t k : SaneNow now → SaneTTL ttl → 10 ^ 12 <= t <= 10 ^ 18 →
  (format_Z t +:+ "-" +:+ format_Z k)%string ∈ ids → w_clock s < 253402300800 * giga →
  w_later ttl ids s0 s → w_handler s = Receiving i dl → now + (2 ^ 63 - 1) <= dl.
Proof.
  intros Hnow Httl Ht Hin Hcl H Hr. destruct (w_inv_reach ttl ids g now asg s H) as (_ & Hh & _). unfold handler_inv in Hh.
  rewrite Hr in Hh. destruct Hh as (_ & _ & _ & _ & c & nw & -> & Hc & H1 & H2 & H3).
  specialize (H2 _ Hin). change (10 ^ 12) with 1000000000000 in Ht. change (10 ^ 18) with 1000000000000000000 in Ht.
  rewrite id_time0_format in H2.
  2: { unfold max_i64. change (2 ^ 63) with 9223372036854775808. lia. }
  rewrite unix_time_small in H2 by (change (10 ^ 18) with 1000000000000000000; lia).
  rewrite dur_sane by done. unfold SaneTTL, SaneNow, giga in *. unfold until, max_duration.
  change (2 ^ 63) with 9223372036854775808. lia.
Qed.
End statements.
