(** Lemmas for C117: the matches an invocation passes on may share tickets. *)
From Coq Require Import Ascii String ZArith NArith Lia ZifyBool ZifyNat.
From stdpp Require Import prelude strings gmap relations.
From Verif.Model Require Import GoStrings Types Invoke.
From Verif.Spec Require Import InvokeSpec.
From Verif.Proofs Require Import InvokeLemmas InvokeMore.
Local Open Scope list_scope.

(** A state in which the functions are running and no match is on its way. *)
Definition calm (s : istate) : Prop :=
  v_panic s = false ∧ v_main s = InvWaiting ∧ v_fan s = FanIdle ∧ v_pending s = [] ∧
  Forall (λ f, ∃ i, f = (FnGrpc, FnStreaming i)) (v_fns s).

Lemma launch_all wait n s :
  v_panic s = false → v_main s = InvLaunching (replicate n FnGrpc) →
  ∃ s', v_later wait s s' ∧ v_panic s' = false ∧ v_main s' = InvWaiting ∧ v_fan s' = v_fan s ∧
    v_pending s' = v_pending s ∧ v_fns s' = v_fns s ++ replicate n (FnGrpc, FnNew) ∧
    v_gors s' = v_gors s ∧ v_streamed s' = v_streamed s.
Proof.
  revert s. induction n as [|n IH]; intros s Hp Hm; cbn [replicate] in *.
  - exists (with_main s InvWaiting). split; [by apply rtc_once, V_launched|].
    rewrite app_nil_r. by destruct s.
  - destruct (IH (with_main (with_fns s (v_fns s ++ [(FnGrpc, FnNew)])) (InvLaunching (replicate n FnGrpc))))
      as (s' & H1 & H2 & H3 & H4 & H5 & H6 & H7 & H8); [by destruct s|by destruct s|].
    exists s'. split; [eapply rtc_l; [by apply V_launch|exact H1]|].
    split_and!; try done.
    rewrite H6. destruct s. cbn. by rewrite <- app_assoc.
Qed.

Lemma run_all wait n l s :
  v_panic s = false → v_fns s = l ++ replicate n (FnGrpc, FnNew) →
  ∃ s', v_later wait s s' ∧ v_panic s' = false ∧ v_main s' = v_main s ∧ v_fan s' = v_fan s ∧
    v_pending s' = v_pending s ∧ v_fns s' = l ++ replicate n (FnGrpc, FnStreaming 1) ∧
    v_gors s' = v_gors s ∧ v_streamed s' = v_streamed s.
Proof.
  revert l s. induction n as [|n IH]; intros l s Hp Hf; cbn [replicate] in *.
  - exists s. split; [apply rtc_refl|]. by split_and!.
  - assert (Hk : v_fns s !! length l = Some (FnGrpc, FnNew)).
    { rewrite Hf, lookup_app_r by done. by rewrite Nat.sub_diag. }
    set (s1 := set_fn s (length l) FnGrpc (FnStreaming 1)).
    assert (Hf1 : v_fns s1 = (l ++ [(FnGrpc, FnStreaming 1)]) ++ replicate n (FnGrpc, FnNew)).
    { unfold s1, set_fn, with_fns. cbn [v_fns]. rewrite Hf, insert_app_r_alt by done.
      rewrite Nat.sub_diag. cbn. by rewrite <- app_assoc. }
    destruct (IH (l ++ [(FnGrpc, FnStreaming 1)]) s1) as (s' & H1 & H2 & H3 & H4 & H5 & H6 & H7 & H8); [by destruct s|done|].
    exists s'. split; [eapply rtc_l; [by apply V_run|exact H1]|].
    rewrite <- app_assoc in H6. cbn in H6. unfold s1, set_fn, with_fns in *. cbn in *. by split_and!.
Qed.

(** The deactivations of one goroutine are sent and answered one by one. *)
Lemma request_all wait n k m all ids s :
  v_panic s = false → v_pending s = [] → v_gors s !! n = Some (Gor k m all (GRequest ids)) →
  ∃ ans, v_later wait s
    (with_answered (with_gors s (<[n := Gor k m all (GRequest [])]> (v_gors s))) ans).
Proof.
  revert s. induction ids as [|id ids IH]; intros s Hp Hq Hg.
  - exists (v_answered s). destruct s. cbn in *. unfold with_answered, with_gors. cbn.
    rewrite list_insert_id by done. apply rtc_refl.
  - set (s1 := with_pending (set_gor s n (Gor k m all (GRequest (id :: ids))) (GRequest ids)) (v_pending s ++ [(n, id)])).
    set (s2 := with_answered (with_pending s1 []) (v_answered s1 ++ [(n, id)])).
    assert (Hn : n < length (v_gors s)) by by eapply lookup_lt_Some.
    destruct (IH s2) as (ans & H).
    + by destruct s.
    + done.
    + destruct s. cbn in *. unfold set_phase. cbn. by apply list_lookup_insert.
    + exists ans. eapply rtc_l; [apply (V_request wait n _ id ids s Hp Hg); done|].
      eapply rtc_l.
      { apply (V_answer wait n id [] [] s1); [by destruct s|]. unfold s1. cbn. by rewrite Hq. }
      change (([] ++ [])%list : list (nat * string)) with (@nil (nat * string)).
      fold s2. replace (with_answered _ ans) with
        (with_answered (with_gors s2 (<[n := Gor k m all (GRequest [])]> (v_gors s2))) ans); [exact H|].
      destruct s. cbn in *. subst. unfold with_answered, with_gors, set_phase. cbn.
      by rewrite list_insert_insert.
Qed.

(** A match is received and passed on. *)
Lemma pass_on wait s k i m ids :
  calm s → v_fns s !! k = Some (FnGrpc, FnStreaming i) → ids_of_match m ids → ids ≠ [] →
  ∃ s', v_later wait s s' ∧ calm s' ∧ length (v_fns s') = length (v_fns s) ∧
    v_gors s' = v_gors s ++ [Gor k m ids GDone] ∧ v_streamed s' = v_streamed s ++ [length (v_gors s)].
Proof.
  destruct s as [main fan fns gors pend answ str lost ina cnt pan].
  intros (Hp & Hm & Hfan & Hq & Hf) Hk Hids Hne. cbn in Hp, Hm, Hfan, Hq, Hf, Hk. subst.
  cbn [v_fns v_gors v_streamed].
  set (s := IState _ _ _ _ _ _ _ _ _ _ _).
  set (n := length gors).
  set (fns' := <[k := (FnGrpc, FnStreaming (i + 1))]> fns).
  assert (Hf' : Forall (λ f, ∃ i, f = (FnGrpc, FnStreaming i)) fns').
  { apply Forall_insert; [done|]. by eexists. }
  assert (Hlen : length fns' = length fns) by apply insert_length.
  set (s1 := with_gors (set_fn s k FnGrpc (FnStreaming (i + 1))) (gors ++ [Gor k m ids (GRequest ids)])).
  destruct (request_all wait n k m ids ids s1) as (ans & Hreq).
  { done. }
  { done. }
  { unfold s1. cbn. unfold n. by rewrite lookup_app_r, Nat.sub_diag. }
  set (G := λ p, gors ++ [Gor k m ids p]).
  assert (HG : ∀ p, G p !! n = Some (Gor k m ids p)).
  { intros p. unfold G, n. by rewrite lookup_app_r, Nat.sub_diag. }
  assert (HI : ∀ p q, <[n := Gor k m ids q]> (G p) = G q).
  { intros p q. unfold G, n. by rewrite insert_app_r_alt, Nat.sub_diag. }
  set (St := λ fan p str, IState InvWaiting fan fns' (G p) [] ans str lost ina cnt false).
  exists (St FanIdle GDone (str ++ [n])). split; [|split; [by split_and!|]; by split_and!].
  eapply rtc_l; [by apply (V_recv wait k i m ids)|]. fold s1.
  eapply rtc_transitive; [exact Hreq|].
  replace (with_answered _ ans) with (St FanIdle (GRequest []) str).
  2: { unfold s1, with_answered, with_gors, set_fn, with_fns. cbn.
       change (gors ++ [Gor k m ids (GRequest ids)]) with (G (GRequest ids)). by rewrite HI. }
  assert (Hset : ∀ fan p q str', set_gor (St fan p str') n (Gor k m ids p) q = St fan q str').
  { intros fan p q str'. unfold set_gor, with_gors, St, set_phase. cbn. by rewrite HI. }
  destruct wait.
  - eapply rtc_l.
    { eapply (V_answered true n (Gor k m ids (GRequest [])) (St FanIdle (GRequest []) str)); [done|apply HG|done|].
      cbn. apply not_elem_of_nil. }
    rewrite Hset. eapply rtc_l.
    { eapply (V_check true n (Gor k m ids GCheck) (St FanIdle GCheck str)); [done|apply HG|done|done]. }
    rewrite Hset. eapply rtc_l.
    { eapply (V_hand true n (Gor k m ids GSend) (St FanIdle GSend str)); [done|apply HG|done|done]. }
    rewrite Hset. eapply rtc_l; [|apply rtc_refl].
    apply (V_stream true n (St (FanSending n) GDone str)); done.
  - eapply rtc_l.
    { eapply (V_answered false n (Gor k m ids (GRequest [])) (St FanIdle (GRequest []) str)); [done|apply HG|done|].
      cbn. apply not_elem_of_nil. }
    rewrite Hset. eapply rtc_l.
    { eapply (V_hand false n (Gor k m ids GSend) (St FanIdle GSend str)); [done|apply HG|done|done]. }
    rewrite Hset. eapply rtc_l.
    { apply (V_stream false n (St (FanSending n) GCheckAfter str)); done. }
    change (with_streamed (with_fan (St (FanSending n) GCheckAfter str) FanIdle)
              (v_streamed (St (FanSending n) GCheckAfter str) ++ [n]))
      with (St FanIdle GCheckAfter (str ++ [n])).
    eapply rtc_l; [|apply rtc_refl].
    rewrite <- (Hset FanIdle GCheckAfter GDone (str ++ [n])).
    eapply (V_check_after false n); [done|apply HG|done|done].
Qed.

Lemma pass_on_all wait (ms : list (nat * option match_)) s :
  calm s → (∀ k m, (k, m) ∈ ms → k < length (v_fns s) ∧ ∃ id, TicketIn m id) →
  ∃ s', v_later wait s s' ∧ calm s' ∧
    map (λ g, (g_fn g, g_match g)) (v_gors s') = map (λ g, (g_fn g, g_match g)) (v_gors s) ++ ms ∧
    v_streamed s' = v_streamed s ++ seq (length (v_gors s)) (length ms).
Proof.
  revert s. induction ms as [|[k m] ms IH]; intros s Hc Hms.
  - exists s. rewrite !app_nil_r. by split; [apply rtc_refl|].
  - destruct (Hms k m (elem_of_list_here _ _)) as (Hk & id & Hid).
    assert (Hi : ∃ i, v_fns s !! k = Some (FnGrpc, FnStreaming i)).
    { destruct (lookup_lt_is_Some_2 _ _ Hk) as [f Hf]. destruct Hc as (_ & _ & _ & _ & Ha).
      rewrite Forall_lookup in Ha. destruct (Ha k f Hf) as [i ->]. by exists i. }
    destruct Hi as [i Hi].
    assert (Hids : ∃ ids, ids_of_match m ids).
    { destruct m as [m|]; [|by exists []]. eexists. by exists (map_to_list (ma_rosters m)). }
    destruct Hids as [ids Hids].
    assert (Hne : ids ≠ []).
    { intros ->. apply (ids_tickets _ _ Hids) in Hid. by apply elem_of_nil in Hid. }
    destruct (pass_on wait s k i m ids Hc Hi Hids Hne) as (s1 & H1 & H2 & H3 & H4 & H5).
    destruct (IH s1 H2) as (s2 & H6 & H7 & H8 & H9).
    { intros k' m' Hkm. rewrite H3. apply Hms. by right. }
    exists s2. split; [by eapply rtc_transitive|]. split; [done|].
    rewrite H8, H9, H4, H5, map_app, app_length. cbn [map length seq g_fn g_match]. split.
    + by rewrite <- app_assoc.
    + rewrite <- app_assoc. cbn. by rewrite Nat.add_1_r.
Qed.

(** Any matches with tickets in them, from any of the functions and in any order,
    can all be passed on. *)
Lemma all_passed_on wait n ina (ms : list (nat * option match_)) :
  (∀ k m, (k, m) ∈ ms → k < n ∧ ∃ id, TicketIn m id) →
  ∃ s, v_later wait (v_init (replicate n FnGrpc) ina) s ∧
    (∀ j k m, ms !! j = Some (k, m) → ReceivedAs s j k m) ∧ v_streamed s = seq 0 (length ms).
Proof.
  intros Hms.
  destruct (launch_all wait n (v_init (replicate n FnGrpc) ina) eq_refl eq_refl)
    as (s1 & A1 & A2 & A3 & A4 & A5 & A6 & A7 & A8).
  destruct (run_all wait n [] s1 A2 A6) as (s2 & B1 & B2 & B3 & B4 & B5 & B6 & B7 & B8).
  cbn [app] in B6.
  destruct (pass_on_all wait ms s2) as (s3 & C1 & C2 & C3 & C4).
  - split_and!; [done|congruence|by rewrite B4, A4|by rewrite B5, A5|].
    rewrite B6. apply Forall_replicate. by exists 1%Z.
  - intros k m Hkm. rewrite B6, replicate_length. by apply Hms.
  - rewrite B7, A7 in C3, C4. rewrite B8, A8 in C4. cbn in C3, C4.
    exists s3. split; [eapply rtc_transitive; [exact A1|eapply rtc_transitive; [exact B1|exact C1]]|].
    split; [|done]. intros j k m Hj. rewrite <- C3, list_lookup_fmap in Hj.
    destruct (v_gors s3 !! j) as [g|] eqn:Eg; [|done]. injection Hj as <- <-. by exists g.
Qed.

(** What is passed on shares tickets only if what was received does. *)
Lemma passed_on_received wait fns ina s n :
  v_later wait (v_init fns ina) s → n ∈ v_streamed s → ∃ k m, ReceivedAs s n k m.
Proof.
  intros H Hn. destruct (relayed wait fns ina s H) as [_ Ha].
  destruct (Ha n Hn) as (k & m & Hr & _). by exists k, m.
Qed.
