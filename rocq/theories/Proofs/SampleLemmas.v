(** The sample functions on what om-core sends. *)
From Coq Require Import Ascii String ZArith NArith Lia ZifyBool.
From stdpp Require Import prelude strings gmap.
From Verif.Model Require Import GoStrings Types Filter Chunk Mmf Samples.
From Verif.Spec Require Import ChunkSpec EndToEndSpec MmfSpec SampleSpec.
From Verif.Proofs Require Import StringLemmas ChunkLemmas ChunkMore EndToEndLemmas MmfLemmas.
Local Open Scope nat_scope.

Lemma run_tickets_cons m ms : RunTickets (m :: ms) = MatchTickets m ++ RunTickets ms.
Proof. done. Qed.
Lemma run_tickets_app ms ms' : RunTickets (ms ++ ms') = RunTickets ms ++ RunTickets ms'.
Proof. unfold RunTickets. by rewrite map_app, concat_app. Qed.

Lemma single_tickets m l : SingleRoster m l → MatchTickets m = l.
Proof.
  intros [n Hm]. unfold MatchTickets. rewrite Hm, map_to_list_singleton. cbn. apply app_nil_r.
Qed.

Lemma groups_tickets k ts ms : FirstGroups k ts ms → RunTickets ms = take (k * (length ts `div` k)) ts.
Proof.
  intros (ls & H1 & _ & _ & <-). induction H1 as [|m l ms ls Hm _ IH]; [done|].
  rewrite run_tickets_cons, IH. cbn [concat]. by rewrite (single_tickets _ _ Hm).
Qed.

Lemma team_tickets tanks healers dps k m : TeamMatch tanks healers dps k m →
  ∃ l1 l2, MatchTickets m ≡ₚ l1 ++ l2 ∧ TeamNumber tanks healers dps (2 * k) l1 ∧ TeamNumber tanks healers dps (2 * k + 1) l2.
Proof.
  intros (l1 & l2 & Hm & H1 & H2). exists l1, l2. split; [|done]. unfold MatchTickets. rewrite Hm.
  rewrite (map_to_list_insert {["team02"%string := Roster "team02" None l2 ∅]}) by done.
  cbn [map concat snd ro_tickets]. rewrite map_to_list_singleton. cbn. by rewrite app_nil_r.
Qed.

Lemma take_S_lookup {A} (l : list A) i x : Some x = l !! i → take (S i) l = take i l ++ [x].
Proof. intros H. by apply take_S_r. Qed.

Lemma team_run tanks healers dps ms :
  (∀ k m, ms !! k = Some m → TeamMatch tanks healers dps k m) →
  let n := length ms in
  RunTickets ms ≡ₚ take (2 * n) tanks ++ take (2 * n) healers ++ take (6 * n) dps.
Proof.
  induction ms as [|m ms IH] using rev_ind; intros Hms n; [done|]. subst n. cbv zeta in IH.
  rewrite run_tickets_app, IH.
  2:{ intros k m' Hk. apply Hms. by apply lookup_app_l_Some. }
  rewrite app_length. cbn [length]. rewrite Nat.add_1_r.
  destruct (team_tickets tanks healers dps (length ms) m) as (l1 & l2 & Hl & H1 & H2).
  { apply Hms. rewrite lookup_app_r by done. by rewrite Nat.sub_diag. }
  assert (RunTickets [m] = MatchTickets m) as -> by (unfold RunTickets; cbn; apply app_nil_r).
  rewrite Hl. unfold TeamNumber in H1, H2.
  destruct l1 as [|a1 [|a2 [|a3 [|a4 [|a5 [|]]]]]]; try discriminate H1.
  destruct l2 as [|b1 [|b2 [|b3 [|b4 [|b5 [|]]]]]]; try discriminate H2.
  cbn [map] in H1, H2. injection H1 as E1 E2 E3 E4 E5. injection H2 as F1 F2 F3 F4 F5.
  set (n := length ms) in *. clearbody n.
  replace (2 * S n) with (S (S (2 * n))) by lia. replace (6 * S n) with (S (S (S (S (S (S (6 * n))))))) by lia.
  rewrite (take_S_lookup tanks (S (2 * n)) b1) by (rewrite F1; f_equal; lia). rewrite (take_S_lookup tanks (2 * n) a1) by (rewrite E1; f_equal; lia).
  rewrite (take_S_lookup healers (S (2 * n)) b2) by (rewrite F2; f_equal; lia). rewrite (take_S_lookup healers (2 * n) a2) by (rewrite E2; f_equal; lia).
  rewrite (take_S_lookup dps (S (S (S (S (S (6 * n)))))) b5) by (rewrite F5; f_equal; lia).
  rewrite (take_S_lookup dps (S (S (S (S (6 * n))))) b4) by (rewrite F4; f_equal; lia).
  rewrite (take_S_lookup dps (S (S (S (6 * n)))) b3) by (rewrite F3; f_equal; lia).
  rewrite (take_S_lookup dps (S (S (6 * n))) a5) by (rewrite E5; f_equal; lia).
  rewrite (take_S_lookup dps (S (6 * n)) a4) by (rewrite E4; f_equal; lia).
  rewrite (take_S_lookup dps (6 * n) a3) by (rewrite E3; f_equal; lia).
  clear. generalize (take (2 * n) tanks) (take (2 * n) healers) (take (6 * n) dps). intros x y z.
  rewrite <-!app_assoc. cbn [app]. solve_Permutation.
Qed.

(** ** What a run sees *)
Definition run_matches (f : sample) (show : Z → string) (clock : N → instant)
    (ps : list (string * pool)) (pools : gmap string pool) : list match_ :=
  match f with
  | Solo => soloduel (stamp show (clock 0%N)) ps
  | Royale => battleroyale (stamp show (clock 0%N)) pools
  | Team => teamshooter (λ k, stamp show (clock k)) pools
  end.

Lemma sample_whole p ts f o :
  NoFilterPanic p ts → CountFits p ts → SampleOutcome p ts f None o →
  ∃ pools show clock ps, o = Done (run_matches f show clock ps pools) ∧ ps ≡ₚ map_to_list pools ∧
    (∀ n, NamedTickets pools n = filter (Eligible p n) ts).
Proof.
  intros Hp Hf (tsn & cs & rcs & show & clock & ps & Ets & Hnf & Hb & Hcs & Hfit & _ & Hps & ->).
  subst ts. destruct (functions_served p tsn Hnf Hp Hf) as (cs' & Hb' & Hs).
  rewrite Hb in Hb'. injection Hb' as <-. destruct (Hs rcs Hcs Hfit) as [got Hgot].
  specialize (Hps _ Hgot). rewrite Hgot.
  destruct (functions_get p tsn.*1 got Hp Hf) as (_ & _ & Hpt).
  { exists tsn, cs, rcs. done. }
  exists (pr_pools got), show, clock, ps. split; [destruct f; reflexivity|]. split; [exact Hps|].
  intros n. rewrite <-Hpt. done.
Qed.

Lemma all_tickets_elem (P : string → list ticket) ps pools t :
  ps ≡ₚ map_to_list pools → (∀ n, NamedTickets pools n = P n) →
  (t ∈ AllTickets ps ↔ ∃ n, t ∈ P n).
Proof.
  intros Hps HP. unfold AllTickets. rewrite elem_of_list_In, in_concat. split.
  - intros (l & Hl & Ht). apply in_map_iff in Hl as ([n q] & <- & Hin). apply elem_of_list_In in Hin, Ht.
    rewrite Hps in Hin. apply elem_of_map_to_list in Hin. exists n. rewrite <-HP. unfold NamedTickets. by rewrite Hin.
  - intros (n & Ht). rewrite <-HP in Ht. unfold NamedTickets in Ht. destruct (pools !! n) as [q|] eqn:E; [|by apply elem_of_nil in Ht].
    exists (PoolTickets q). split; [|by apply elem_of_list_In]. apply in_map_iff. exists (n, q). split; [done|].
    apply elem_of_list_In. rewrite Hps. by apply elem_of_map_to_list.
Qed.

(** Where the tickets of a run come from. *)
Lemma run_from f show clock ps pools (P : string → list ticket) t :
  ps ≡ₚ map_to_list pools → (∀ n, NamedTickets pools n = P n) →
  t ∈ RunTickets (run_matches f show clock ps pools) → ∃ n, SamplePool f n ∧ t ∈ P n.
Proof.
  intros Hps HP Ht. destruct f; cbn [run_matches SamplePool] in *.
  - rewrite (groups_tickets _ _ _ (soloduel_groups _ ps)) in Ht. apply elem_of_take in Ht as (i & Ht & _).
    apply elem_of_list_lookup_2 in Ht. apply (all_tickets_elem P ps pools t Hps HP) in Ht as [n Hn]. by exists n.
  - rewrite (groups_tickets _ _ _ (battleroyale_groups _ pools)) in Ht. apply elem_of_take in Ht as (i & Ht & _).
    apply elem_of_list_lookup_2 in Ht. rewrite HP in Ht. by eexists.
  - destruct (teamshooter_spec (λ k, stamp show (clock k)) pools) as [_ H]. apply team_run in H. cbv zeta in H.
    rewrite H, !elem_of_app in Ht. rewrite !HP in Ht.
    destruct Ht as [Ht|[Ht|Ht]]; apply elem_of_take in Ht as (i & Ht & _); apply elem_of_list_lookup_2 in Ht;
      eexists; (split; [|exact Ht]).
    + left.
    + right. left.
    + right. right. left.
Qed.

Lemma sample_sound p ts f ms t :
  NoFilterPanic p ts → CountFits p ts → SampleOutcome p ts f None (Done ms) → t ∈ RunTickets ms →
  t ∈ ts ∧ ∃ n, SamplePool f n ∧ Eligible p n t.
Proof.
  intros Hp Hf Ho Ht. destruct (sample_whole _ _ _ _ Hp Hf Ho) as (pools & show & clock & ps & [= ->] & Hps & HP).
  destruct (run_from f show clock ps pools (λ n, filter (Eligible p n) ts) t Hps HP Ht) as (n & Hn & Hin).
  apply elem_of_list_filter in Hin as [He Hin]. split; [done|]. by exists n.
Qed.

Lemma sample_runs p ts f o :
  NoFilterPanic p ts → CountFits p ts → SampleOutcome p ts f None o → ∃ ms, o = Done ms.
Proof.
  intros Hp Hf Ho. destruct (sample_whole _ _ _ _ Hp Hf Ho) as (pools & show & clock & ps & -> & _). by eexists.
Qed.

(** ** How many tickets are matched *)
Lemma div_rest k n : 0 < k → n - k * (n `div` k) < k.
Proof. intros Hk. pose proof (Nat.div_mod n k ltac:(lia)). pose proof (Nat.mod_upper_bound n k ltac:(lia)). lia. Qed.

Lemma unmatched_rest {A} (n : nat) (l u : list A) :
  NoDup u → (∀ x, x ∈ u → x ∈ l ∧ x ∉ take n l) → length u ≤ length l - n.
Proof.
  intros Hnd Hu. rewrite <-drop_length. apply submseteq_length. apply NoDup_submseteq; [done|].
  intros x Hx. destruct (Hu x Hx) as [H1 H2]. rewrite <-(take_drop n l) in H1. apply elem_of_app in H1 as [H1|H1]; done.
Qed.

Lemma solo_leaves p ts ms u :
  NoFilterPanic p ts → CountFits p ts → SampleOutcome p ts Solo None (Done ms) → NoDup u →
  (∀ t, t ∈ u → t ∈ ts ∧ (∃ n, Eligible p n t) ∧ t ∉ RunTickets ms) → length u ≤ 1.
Proof.
  intros Hp Hf Ho Hnd Hu. destruct (sample_whole _ _ _ _ Hp Hf Ho) as (pools & show & clock & ps & [= ->] & Hps & HP).
  cbn [run_matches] in Hu. rewrite (groups_tickets _ _ _ (soloduel_groups _ ps)) in Hu.
  assert (length u ≤ length (AllTickets ps) - 2 * (length (AllTickets ps) `div` 2)) as H.
  { apply unmatched_rest; [done|]. intros t Ht. destruct (Hu t Ht) as (H1 & (n & H2) & H3). split; [|done].
    apply (all_tickets_elem _ ps pools t Hps HP). exists n. by apply elem_of_list_filter. }
  pose proof (div_rest 2 (length (AllTickets ps)) ltac:(lia)). lia.
Qed.

Lemma royale_leaves p ts ms u :
  NoFilterPanic p ts → CountFits p ts → SampleOutcome p ts Royale None (Done ms) → NoDup u →
  (∀ t, t ∈ u → t ∈ ts ∧ Eligible p "competitive" t ∧ t ∉ RunTickets ms) → length u ≤ 99.
Proof.
  intros Hp Hf Ho Hnd Hu. destruct (sample_whole _ _ _ _ Hp Hf Ho) as (pools & show & clock & ps & [= ->] & Hps & HP).
  cbn [run_matches] in Hu. rewrite (groups_tickets _ _ _ (battleroyale_groups _ pools)) in Hu.
  set (l := NamedTickets pools "competitive") in *.
  assert (length u ≤ length l - 100 * (length l `div` 100)) as H.
  { apply unmatched_rest; [done|]. intros t Ht. destruct (Hu t Ht) as (H1 & H2 & H3). split; [|done].
    unfold l. rewrite HP. by apply elem_of_list_filter. }
  pose proof (div_rest 100 (length l) ltac:(lia)). lia.
Qed.

Lemma team_matches p ts ms :
  NoFilterPanic p ts → CountFits p ts → SampleOutcome p ts Team None (Done ms) →
  let tanks := filter (Eligible p "tank") ts in
  let healers := filter (Eligible p "healer") ts in
  let dps := filter (Eligible p "dps") ts in
  length ms = length tanks `div` 2 `min` (length healers `div` 2) `min` (length dps `div` 6) `min` Z.to_nat 100000 ∧
  ∀ k m, ms !! k = Some m → TeamMatch tanks healers dps k m.
Proof.
  intros Hp Hf Ho. destruct (sample_whole _ _ _ _ Hp Hf Ho) as (pools & show & clock & ps & [= ->] & Hps & HP).
  cbv zeta. rewrite <-!HP. exact (teamshooter_spec (λ k, stamp show (clock k)) pools).
Qed.

(** ** Tickets used once *)
Lemma same_id_same (ts : list ticket) t t' :
  NoDup (tk_id <$> ts) → t ∈ ts → t' ∈ ts → tk_id t = tk_id t' → t = t'.
Proof.
  intros Hnd [i Hi]%elem_of_list_lookup [j Hj]%elem_of_list_lookup E.
  assert (i = j) as ->.
  { eapply (NoDup_lookup _ i j (tk_id t) Hnd); rewrite list_lookup_fmap; [by rewrite Hi|by rewrite Hj; cbn; rewrite E]. }
  congruence.
Qed.

Lemma nodup_take n (l : list ticket) : NoDup (tk_id <$> l) → NoDup (tk_id <$> take n l).
Proof. rewrite <-(take_drop n l) at 1. rewrite fmap_app. intros H. by apply NoDup_app in H as (H & _). Qed.
Lemma nodup_filter (P : ticket → Prop) `{!∀ t, Decision (P t)} (l : list ticket) :
  NoDup (tk_id <$> l) → NoDup (tk_id <$> filter P l).
Proof.
  induction l as [|t l IH]; [done|]. rewrite fmap_cons. intros [H1 H2]%NoDup_cons. rewrite filter_cons.
  destruct (decide (P t)); [|by apply IH]. rewrite fmap_cons. apply NoDup_cons. split; [|by apply IH].
  intros Hin. apply H1. apply elem_of_list_fmap in Hin as (t' & -> & Hin). apply elem_of_list_filter in Hin as [_ Hin].
  by apply elem_of_list_fmap_1.
Qed.

Lemma nodup_concat (ts : list ticket) (P : string → list ticket) ps :
  NoDup (tk_id <$> ts) → NoDup ps.*1 → (∀ n q, (n, q) ∈ ps → PoolTickets q = P n) →
  (∀ n, NoDup (tk_id <$> P n)) → (∀ n t, t ∈ P n → t ∈ ts) → (∀ n n' t, t ∈ P n → t ∈ P n' → n = n') →
  NoDup (tk_id <$> AllTickets ps).
Proof.
  intros Hts. induction ps as [|[n q] ps IH]; intros Hps HP H1 H2 H3; [apply NoDup_nil_2|].
  unfold AllTickets in *. cbn [map concat snd]. rewrite fmap_app. apply NoDup_app.
  rewrite fmap_cons in Hps. apply NoDup_cons in Hps as [Hn Hps].
  split; [rewrite (HP n q) by left; apply H1|]. split.
  - intros i Hi Hj. apply elem_of_list_fmap in Hi as (t & -> & Ht). apply elem_of_list_fmap in Hj as (t' & E & Ht').
    rewrite (HP n q) in Ht by left. apply elem_of_list_In, in_concat in Ht' as (l & Hl & Ht').
    apply in_map_iff in Hl as ([n' q'] & <- & Hin). apply elem_of_list_In in Hin, Ht'. cbn in Ht'.
    rewrite (HP n' q') in Ht' by by right.
    assert (t = t') as <- by (eapply (same_id_same ts); eauto). assert (n = n') as <- by by eapply H3.
    apply Hn. by apply (elem_of_list_fmap_1 fst _ (n, q')).
  - apply IH; try done. intros n' q' Hin. apply HP. by right.
Qed.

Lemma sample_distinct p ts f ms :
  NoFilterPanic p ts → CountFits p ts → NoDup (tk_id <$> ts) →
  (∀ t n n', t ∈ ts → SamplePool f n → SamplePool f n' → Eligible p n t → Eligible p n' t → n = n') →
  SampleOutcome p ts f None (Done ms) → NoDup (tk_id <$> RunTickets ms).
Proof.
  intros Hp Hf Hts Hone Ho. destruct (sample_whole _ _ _ _ Hp Hf Ho) as (pools & show & clock & ps & Hms & Hps & HP).
  injection Hms as ->. set (P := λ n, filter (Eligible p n) ts).
  assert (H1 : ∀ n, NoDup (tk_id <$> P n)) by (intros n; by apply nodup_filter).
  assert (H2 : ∀ n t, t ∈ P n → t ∈ ts) by (intros n t Ht; by apply elem_of_list_filter in Ht as [_ Ht]).
  assert (He : ∀ n t, t ∈ P n → Eligible p n t) by (intros n t Ht; by apply elem_of_list_filter in Ht as [Ht _]).
  destruct f; cbn [run_matches].
  - rewrite (groups_tickets _ _ _ (soloduel_groups _ ps)). apply nodup_take.
    apply (nodup_concat ts P); try done.
    + rewrite Hps. apply NoDup_fst_map_to_list.
    + intros n q Hin. rewrite Hps in Hin. apply elem_of_map_to_list in Hin. unfold P. rewrite <-HP.
      unfold NamedTickets. by rewrite Hin.
    + intros n n' t Ht Ht'. apply (Hone t); try done; eauto.
  - rewrite (groups_tickets _ _ _ (battleroyale_groups _ pools)). apply nodup_take. rewrite HP. apply H1.
  - destruct (teamshooter_spec (λ k, stamp show (clock k)) pools) as [_ H]. apply team_run in H. cbv zeta in H.
    rewrite H. rewrite !HP. fold (P "tank"%string) (P "healer"%string) (P "dps"%string). clear H.
    generalize (length (teamshooter (λ k, stamp show (clock k)) pools)). intros n.
    assert (Hdis : ∀ a b i j x, a ≠ b → SamplePool Team a → SamplePool Team b →
      x ∈ tk_id <$> take i (P a) → x ∉ tk_id <$> take j (P b)).
    { intros a b i j x Hab Ha Hb Hx Hy. apply elem_of_list_fmap in Hx as (t & -> & Hx).
      apply elem_of_list_fmap in Hy as (t' & E & Hy).
      apply elem_of_take in Hx as (? & Hx & _). apply elem_of_take in Hy as (? & Hy & _).
      apply elem_of_list_lookup_2 in Hx, Hy.
      assert (t = t') as <- by (eapply (same_id_same ts); eauto). apply Hab. apply (Hone t a b); eauto. }
    assert (S1 : SamplePool Team "tank") by left. assert (S2 : SamplePool Team "healer") by (right; left).
    assert (S3 : SamplePool Team "dps") by (right; right; left).
    rewrite !fmap_app. apply NoDup_app. split; [apply nodup_take, H1|]. split.
    + intros x Hx Hy. apply elem_of_app in Hy as [Hy|Hy].
      * eapply (Hdis "tank"%string "healer"%string); [|exact S1|exact S2|exact Hx|exact Hy]. done.
      * eapply (Hdis "tank"%string "dps"%string); [|exact S1|exact S3|exact Hx|exact Hy]. done.
    + apply NoDup_app. split; [apply nodup_take, H1|]. split; [|apply nodup_take, H1].
      intros x Hx Hy. eapply (Hdis "healer"%string "dps"%string); [|exact S2|exact S3|exact Hx|exact Hy]. done.
Qed.

(** ** Broken streams *)
Lemma get_chunked_prefix cs : ∀ k i pools, get_chunked i pools (take k cs) = Panic → get_chunked i pools cs = Panic.
Proof.
  induction cs as [|[c qs] cs IH]; intros [|k] i pools H; cbn [take] in H; try done.
  - cbn [get_chunked] in H. by destruct (i <? 0)%Z.
  - cbn [get_chunked] in *. destruct (i <? 0)%Z; [done|]. destruct (merge_pools pools qs) as [pools'|]; [|done].
    destruct (ch_num c =? i)%Z; [done|]. by apply (IH k).
Qed.

Lemma get_chunked_short (N : Z) cs : ∀ i pools r,
  (N < 2 ^ 31)%Z → (0 <= i)%Z → (i + Z.of_nat (length cs) <= N)%Z → Forall (λ c, ch_num c.1 = N) cs →
  get_chunked i pools cs = Done r → r = RecvErr.
Proof.
  induction cs as [|[c qs] cs IH]; intros i pools r HN Hi Hlen Hall H; cbn [get_chunked] in H.
  - destruct (i <? 0)%Z eqn:E; [lia|]. by injection H.
  - destruct (i <? 0)%Z eqn:E; [lia|]. destruct (merge_pools pools qs) as [pools'|]; [|done].
    apply Forall_cons in Hall as [Hc Hall]. cbn in Hc. cbn [length] in Hlen.
    destruct (ch_num c =? i)%Z eqn:E'; [lia|]. rewrite wrap32_small in H by lia.
    eapply (IH _ pools'); [done| | |done|exact H]; lia.
Qed.

Lemma sample_broken p ts f k o :
  NoFilterPanic p ts → CountFits p ts → SampleOutcome p ts f (Some k) o → o = Done [].
Proof.
  intros Hp Hf (tsn & cs & rcs & show & clock & ps & Ets & Hnf & Hb & Hcs & Hfit & Hk & Hps & ->).
  subst ts. specialize (Hk k eq_refl). destruct (functions_served p tsn Hnf Hp Hf) as (cs' & Hb' & Hs).
  rewrite Hb in Hb'. injection Hb' as <-. destruct (Hs rcs Hcs Hfit) as [got Hgot].
  unfold CountFits in Hf. rewrite map_length in Hf.
  destruct (chunk_count_sent p tsn cs Hnf Hf Hb) as [_ Hnum].
  assert (length rcs = length cs) as Hl by (rewrite <-Hcs; by rewrite fmap_length).
  assert (Hrec : ∃ r, get_chunked_request (take k rcs) = Done r ∧ r = RecvErr).
  { destruct (get_chunked_request (take k rcs)) as [r|] eqn:E.
    - exists r. split; [done|]. unfold get_chunked_request in E.
      eapply (get_chunked_short (Z.of_nat (length cs)) (take k rcs) 1 ∅); [| | |  |exact E].
      + assert (length cs = length rcs) by lia.
        unfold build_requests in Hb. destruct (chunks_of _ _ _ _ _) as [rs|] eqn:Ec; [|done].
        injection Hb as <-. pose proof (chunks_count _ _ _ _ _ _ Hnf Ec). unfold requests_of. rewrite map_length. lia.
      + lia.
      + rewrite take_length. lia.
      + apply Forall_forall. intros c Hc. apply Hnum. rewrite <-Hcs. apply elem_of_list_fmap_1.
        apply elem_of_take in Hc as (i & Hc & _). by eapply elem_of_list_lookup_2.
    - unfold get_chunked_request in *. apply get_chunked_prefix in E. rewrite E in Hgot. done. }
  destruct Hrec as (r & Hr & ->). specialize (Hps _ Hr). rewrite Hr. cbn [request_pools] in Hps.
  rewrite map_to_list_empty in Hps. apply Permutation_nil_r in Hps as ->.
  destruct (no_request_no_match (stamp show (clock 0%N)) (λ k, stamp show (clock k)) RecvErr ltac:(by left)) as (H1 & H2 & H3).
  unfold run_sample. destruct f; cbn [request_pools] in *.
  - done.
  - by rewrite H2.
  - by rewrite H3.
Qed.

(** ** Runs exist *)
Lemma zip_order {A B} (l : list A) (b : A → B) : (map (λ t, (t, b t)) l).*1 = l.
Proof. induction l as [|t l IH]; [done|]. cbn [map]. rewrite fmap_cons. by f_equal. Qed.

Lemma sample_exists p ts f :
  NoFilterPanic p ts → CountFits p ts → ∃ ms, SampleOutcome p ts f None (Done ms).
Proof.
  intros Hp Hf. set (tsn := map (λ t, (t, (map_to_list (valid_pools p)).*1)) ts).
  assert (E : tsn.*1 = ts) by apply zip_order.
  assert (Hnf : NamesFit p tsn).
  { intros t ns Hin. unfold tsn in Hin. apply elem_of_list_fmap in Hin as (t' & [= _ ->] & _).
    unfold pool_order. reflexivity. }
  rewrite <-E in Hp, Hf.
  destruct (functions_served p tsn Hnf Hp Hf) as (cs & Hb & Hg).
  set (rcs := map (λ c, (c, map_to_list (pr_pools (ch_profile c)))) cs).
  assert (Ec : rcs.*1 = cs) by apply zip_order.
  assert (Hfit : pool_orders_fit rcs).
  { apply Forall_forall. intros x Hx. unfold rcs in Hx. by apply elem_of_list_fmap in Hx as (c & -> & _). }
  destruct (Hg rcs Ec Hfit) as [got Hgot].
  eexists. exists tsn, cs, rcs, (λ _, ""%string), (λ _, 0%Z), (map_to_list (pr_pools got)).
  split; [exact E|]. split; [exact Hnf|]. split; [exact Hb|]. split; [exact Ec|]. split; [exact Hfit|].
  split; [done|]. cbv zeta. split.
  - intros r Hr. rewrite Hgot in Hr. injection Hr as <-. done.
  - rewrite Hgot. reflexivity.
Qed.

(** ** Tickets eligible for several pools are used several times *)
Lemma concat_length_sub {A} (ls ls' : list (list A)) : ls ⊆+ ls' → length (concat ls) ≤ length (concat ls').
Proof.
  induction 1 as [|x l k H IH|x y l|x l k H IH|l k m H1 IH1 H2 IH2]; cbn [concat]; rewrite ?app_length; lia.
Qed.

Lemma run_long p ts f ms :
  f ≠ Royale → NoFilterPanic p ts → CountFits p ts → SampleOutcome p ts f None (Done ms) →
  (∀ n t, n ∈ ["tank"; "healer"; "dps"]%string → t ∈ ts → Eligible p n t) → length ts = 6 →
  10 ≤ length (RunTickets ms).
Proof.
  intros Hfr Hp Hf Ho Hall Hlen.
  assert (HF : ∀ n, n ∈ ["tank"; "healer"; "dps"]%string → filter (Eligible p n) ts = ts).
  { intros n Hn. clear Hlen Hp Hf Ho. induction ts as [|t ts IH]; [done|].
    rewrite filter_cons_True by (apply Hall; [done|left]). f_equal. apply IH. intros n' t' Hn' Ht'. apply Hall; [done|by right]. }
  assert (S1 : "tank"%string ∈ ["tank"; "healer"; "dps"]%string) by left.
  assert (S2 : "healer"%string ∈ ["tank"; "healer"; "dps"]%string) by (right; left).
  assert (S3 : "dps"%string ∈ ["tank"; "healer"; "dps"]%string) by (right; right; left).
  destruct f; [|done|].
  - destruct (sample_whole _ _ _ _ Hp Hf Ho) as (pools & show & clock & ps & Hms & Hps & HP). injection Hms as ->.
    cbn [run_matches]. rewrite (groups_tickets _ _ _ (soloduel_groups _ ps)), take_length.
    assert (Hq : ∀ n, n ∈ ["tank"; "healer"; "dps"]%string → ∃ q, (n, q) ∈ ps ∧ length (PoolTickets q) = 6).
    { intros n Hn. pose proof (HP n) as E. rewrite (HF n Hn) in E. unfold NamedTickets in E.
      destruct (pools !! n) as [q|] eqn:Eq; [|subst ts; done]. exists q. split; [|by rewrite E].
      rewrite Hps. by apply elem_of_map_to_list. }
    destruct (Hq _ S1) as (q1 & I1 & L1). destruct (Hq _ S2) as (q2 & I2 & L2). destruct (Hq _ S3) as (q3 & I3 & L3).
    assert (Hsub : [("tank", q1); ("healer", q2); ("dps", q3)]%string ⊆+ ps).
    { apply NoDup_submseteq.
      - apply NoDup_cons. split; [|apply NoDup_cons; split; [|apply NoDup_singleton]].
        + intros H. apply elem_of_cons in H as [[= ]|H]. apply elem_of_list_singleton in H as [= ].
        + intros H. apply elem_of_list_singleton in H as [= ].
      - intros x Hx. apply elem_of_cons in Hx as [->|Hx]; [done|]. apply elem_of_cons in Hx as [->|Hx]; [done|].
        by apply elem_of_list_singleton in Hx as ->. }
    apply (fmap_submseteq (λ kv : string * pool, PoolTickets kv.2)) in Hsub.
    apply concat_length_sub in Hsub. cbn in Hsub. rewrite !app_length, L1, L2, L3 in Hsub. cbn in Hsub.
    change (18 ≤ length (AllTickets ps)) in Hsub.
    set (L := length (AllTickets ps)) in *. pose proof (div_rest 2 L ltac:(lia)). pose proof (Nat.mul_div_le L 2 ltac:(lia)). lia.
  - destruct (team_matches _ _ _ Hp Hf Ho) as [Hl Hm]. rewrite (HF _ S1), (HF _ S2), (HF _ S3) in *.
    apply team_run in Hm. cbv zeta in Hm. rewrite Hl, Hlen in Hm. apply Permutation_length in Hm.
    change (6 `div` 2 `min` (6 `div` 2) `min` (6 `div` 6) `min` Z.to_nat 100000) with (1 `min` Z.to_nat 100000) in Hm.
    assert (1 `min` Z.to_nat 100000 = 1) as E by lia. rewrite E in Hm.
    rewrite !app_length, !take_length, Hlen in Hm. cbn in Hm. lia.
Qed.

Lemma run_repeats p ts f ms :
  f ≠ Royale → NoFilterPanic p ts → CountFits p ts → SampleOutcome p ts f None (Done ms) →
  (∀ n t, n ∈ ["tank"; "healer"; "dps"]%string → t ∈ ts → Eligible p n t) → length ts = 6 →
  ¬ NoDup (tk_id <$> RunTickets ms).
Proof.
  intros Hfr Hp Hf Ho Hall Hlen Hnd. pose proof (run_long _ _ _ _ Hfr Hp Hf Ho Hall Hlen) as Hlong.
  assert (tk_id <$> RunTickets ms ⊆+ tk_id <$> ts) as Hsub.
  { apply NoDup_submseteq; [done|]. intros x Hx. apply elem_of_list_fmap in Hx as (t & -> & Ht).
    apply elem_of_list_fmap_1. by destruct (sample_sound _ _ _ _ _ Hp Hf Ho Ht). }
  apply submseteq_length in Hsub. rewrite !fmap_length in Hsub. lia.
Qed.

(** ** Match ids of different runs *)
Lemma append_dash a b d1 d2 :
  all_digits d1 = true → all_digits d2 = true → a +:+ String "-" d1 = b +:+ String "-" d2 → a = b.
Proof.
  intros H1 H2. revert b. induction a as [|c a IH]; intros [|c' b] H; cbn in H.
  - done.
  - injection H as _ H. rewrite H, digits_no_dash in H1. done.
  - injection H as _ H. rewrite <-H, digits_no_dash in H2. done.
  - injection H as -> H. f_equal. by apply IH.
Qed.
Lemma append_inj_r (a b c : string) : a +:+ c = b +:+ c → a = b.
Proof.
  intros H. assert (Hl : String.length a = String.length b).
  { apply (f_equal String.length) in H. rewrite !app_length_s in H. lia. }
  revert b H Hl. induction a as [|x a IH]; intros [|y b] H Hl; try done.
  cbn in H. injection H as -> H. f_equal. apply IH; [done|]. by injection Hl.
Qed.

Lemma match_id_same fn t t' n n' : match_id fn t n = match_id fn t' n' → t = t' ∧ n = n'.
Proof.
  intros H. split; [|by eapply match_id_inj]. unfold match_id in H.
  assert (E : "profile-" +:+ fn +:+ "-time-" +:+ t +:+ "-num" = "profile-" +:+ fn +:+ "-time-" +:+ t' +:+ "-num").
  { eapply append_dash; [apply (format_N_digits n)|apply (format_N_digits n')|]. rewrite !app_assoc_s. exact H. }
  rewrite <-!app_assoc_s in E. apply append_inj_r in E. rewrite !app_assoc_s in E.
  apply (inj (String.append "profile-")) in E. apply (inj (String.append fn)) in E.
  by apply (inj (String.append "-time-")) in E.
Qed.

Definition sample_name (f : sample) : string :=
  match f with Solo => solo_name | Royale => royale_name | Team => team_name end.

Lemma run_numbered f show clock ps r ms m :
  run_sample f show clock ps r = Done ms → m ∈ ms →
  ∃ k n, ma_id m = match_id (sample_name f) (stamp show (clock k)) n.
Proof.
  intros H Hm. assert (ms = run_matches f show clock ps (request_pools r)) as ->.
  { change (match r with Received _ => Done (run_matches f show clock ps (request_pools r))
            | _ => match run_matches f show clock ps (request_pools r) with [] => Done [] | _ => Panic end end = Done ms) in H.
    revert H. generalize (run_matches f show clock ps (request_pools r)). clear. intros l H.
    destruct r; [by injection H| |]; (destruct l; [by injection H|done]). }
  apply elem_of_list_lookup in Hm as [i Hi]. destruct f; cbn [run_matches sample_name] in *.
  - exists 0%N, (0 + N.of_nat i)%N. exact (solo_numbered _ _ _ _ i m Hi).
  - exists 0%N, (0 + N.of_nat i)%N. exact (royale_numbered _ _ _ _ _ i m Hi).
  - exists (0 + N.of_nat i)%N, (0 + N.of_nat i)%N. exact (team_numbered _ _ _ _ _ i m Hi).
Qed.

Lemma runs_ids_differ f show clock ps r clock' ps' r' ms ms' m m' :
  (∀ a b, show a = show b → a = b) → (∀ k k', (clock k / 10000000 ≠ clock' k' / 10000000)%Z) →
  run_sample f show clock ps r = Done ms → run_sample f show clock' ps' r' = Done ms' →
  m ∈ ms → m' ∈ ms' → ma_id m ≠ ma_id m'.
Proof.
  intros Hs Hc H H' Hm Hm' E. destruct (run_numbered _ _ _ _ _ _ _ H Hm) as (k & n & E1).
  destruct (run_numbered _ _ _ _ _ _ _ H' Hm') as (k' & n' & E2). rewrite E1, E2 in E.
  apply match_id_same in E as [E _]. unfold stamp in E. apply Hs in E. by apply (Hc k k').
Qed.

Lemma functions_ids_differ f f' show clock ps r show' clock' ps' r' ms ms' m m' :
  f ≠ f' → run_sample f show clock ps r = Done ms → run_sample f' show' clock' ps' r' = Done ms' →
  m ∈ ms → m' ∈ ms' → ma_id m ≠ ma_id m'.
Proof.
  intros Hff H H' Hm Hm' E. destruct (run_numbered _ _ _ _ _ _ _ H Hm) as (k & n & E1).
  destruct (run_numbered _ _ _ _ _ _ _ H' Hm') as (k' & n' & E2). rewrite E1, E2 in E.
  unfold match_id in E. apply (inj (String.append "profile-")) in E. destruct f, f'; try done.
Qed.

(** ** Against a running om-core *)
From Coq Require Import Relations.
From stdpp Require Import relations.
From Verif.Model Require Import Wire Proto Cache Replica Handlers MemRepl Queues RedisRepl Snapshot System RedisSystem.
From Verif.Spec Require Import HandlerSpec CacheSpec SystemSpec.
From Verif.Proofs Require Import EndToEndMem EndToEndRedis.

Lemma mem_sample cfg t0 s1 s2 ts p f o :
  (0 <= t0)%Z → SaneTTL (cfg_ticket_ttl cfg) → mreach cfg t0 s1 → rtc (mstep cfg) s1 s2 →
  ValidCreates cfg (ms_inst s2) → SnapshotBetween cfg (ms_inst s1) (ms_inst s2) ts → CountFits p ts →
  SampleOutcome p ts f None o →
  ∃ ms, o = Done ms ∧ ∀ t, t ∈ RunTickets ms →
    (∃ n, SamplePool f n ∧ Eligible p n t) ∧
    ∃ i cl now req, in_calls (ms_inst s2) !! i = Some cl ∧ CreateCall cfg cl now req ∧
      StoredAs (cfg_ticket_ttl cfg) now (tk_id t) req t ∧ (∀ r, r ∈ cl_got cl → r = Response (tk_id t) None).
Proof.
  intros H0 Httl Hr Hr12 Hv Hs Hf Ho.
  assert (Hp : NoFilterPanic p ts) by by eapply mem_no_filter_panic.
  destruct (sample_runs _ _ _ _ Hp Hf Ho) as [ms ->]. exists ms. split; [done|]. intros t Ht.
  destruct (sample_sound _ _ _ _ _ Hp Hf Ho Ht) as [Hin He]. split; [done|].
  destruct (mem_snapshot_source _ _ _ _ _ _ H0 Hr Hr12 Hs Hin) as (i & cl & v & Hcl & Hc & Et & Hres).
  assert (Hcin := elem_of_list_lookup_2 _ _ _ Hcl). destruct (Hv cl v Hcin Hc) as (now & req & Hcc).
  destruct (create_call_stored _ _ _ _ v (tk_id t) Httl Hcc Hc) as [Hst _]. rewrite <-Et in Hst.
  by exists i, cl, now, req.
Qed.

Lemma red_sample cfg s1 s2 n x1 x2 ts p f o :
  SaneTTL (cfg_ticket_ttl cfg) →
  yreach cfg s1 → rtc (ystep cfg) s1 s2 → ry_insts s1 !! n = Some x1 → ry_insts s2 !! n = Some x2 →
  AllValidCreates cfg s2 → SnapshotBetween cfg (rx_inst x1) (rx_inst x2) ts → CountFits p ts →
  SampleOutcome p ts f None o →
  ∃ ms, o = Done ms ∧ ∀ t, t ∈ RunTickets ms →
    (∃ q, SamplePool f q ∧ Eligible p q t) ∧
    ∃ m y i cl now req, ry_insts s2 !! m = Some y ∧ in_calls (rx_inst y) !! i = Some cl ∧ CreateCall cfg cl now req ∧
      StoredAs (cfg_ticket_ttl cfg) now (tk_id t) req t ∧
      (AllSendable y → ∀ r, r ∈ cl_got cl → Good r → r_result r = tk_id t).
Proof.
  intros Httl Hr Hr12 Hx1 Hx2 Hv Hs Hf Ho.
  assert (Hp : NoFilterPanic p ts) by by eapply (red_no_filter_panic cfg s1 s2 n x1 x2).
  destruct (sample_runs _ _ _ _ Hp Hf Ho) as [ms ->]. exists ms. split; [done|]. intros t Ht.
  destruct (sample_sound _ _ _ _ _ Hp Hf Ho Ht) as [Hin He]. split; [done|].
  destruct (red_snapshot_source _ _ _ _ _ _ _ _ Hr Hr12 Hx1 Hx2 Hs Hin) as (m & y & i & cl & v & Hy & Hcl & Hc & Et & _ & Hres).
  assert (Hcin := elem_of_list_lookup_2 _ _ _ Hcl). destruct (Hv m y Hy cl v Hcin Hc) as (now & req & Hcc).
  destruct (create_call_stored _ _ _ _ v (tk_id t) Httl Hcc Hc) as [Hst _]. rewrite <-Et in Hst.
  by exists m, y, i, cl, now, req.
Qed.

Lemma broken_exists p ts f :
  NoFilterPanic p ts → CountFits p ts → ∃ o, SampleOutcome p ts f (Some 0) o.
Proof.
  intros Hp Hf. destruct (sample_exists p ts f Hp Hf) as (ms & tsn & cs & rcs & show & clock & ps & E & Hnf & Hb & Ec & Hfit & _).
  assert (Hcs : cs ≠ []).
  { eapply (chunk_count_sent p tsn cs Hnf); [|exact Hb]. unfold CountFits in Hf. rewrite <-E, map_length in Hf. exact Hf. }
  eexists. exists tsn, cs, rcs, show, clock, []. split; [exact E|]. split; [exact Hnf|]. split; [exact Hb|].
  split; [exact Ec|]. split; [exact Hfit|]. split.
  - intros k' [= <-]. destruct cs; [done|]. cbn. lia.
  - cbv zeta. split; [|reflexivity]. intros r Hr. cbn in Hr. injection Hr as <-. cbn. by rewrite map_to_list_empty.
Qed.

Lemma digits_not_minus n x : format_N n ≠ String "-" x.
Proof. intros H. pose proof (format_N_digits n) as Hd. rewrite H in Hd. discriminate Hd. Qed.

Lemma format_Z_inj a b : format_Z a = format_Z b → a = b.
Proof.
  unfold format_Z. destruct (a <? 0)%Z eqn:Ea, (b <? 0)%Z eqn:Eb; intros H.
  - injection H as H. apply format_N_inj in H. lia.
  - symmetry in H. by apply digits_not_minus in H.
  - by apply digits_not_minus in H.
  - apply format_N_inj in H. lia.
Qed.
