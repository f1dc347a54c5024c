(** 108,000 small tickets in one chunk that is larger than gRPC allows. *)
From Coq Require Import Ascii String ZArith NArith Lia ZifyBool.
From stdpp Require Import prelude strings gmap.
From Verif.Model Require Import GoStrings Types Wire Proto Filter Chunk.
From Verif.Spec Require Import ChunkSpec.
From Verif.Proofs Require Import StringLemmas WireLemmas ProtoLemmas RedisSendLemmas RedisReadLemmas ChunkLemmas ChunkMore.
Local Open Scope string_scope.
Local Open Scope Z_scope.

(** The last [k] decimal digits of [n]. *)
Fixpoint fixw (k : nat) (n : N) : string :=
  match k with
  | O => ""
  | S k => String (ascii_of_N (48 + n mod 10)) (fixw k (n / 10)%N)
  end.
Lemma fixw_length k n : String.length (fixw k n) = k.
Proof. revert n. induction k as [|k IH]; intros n; simpl; [done|]. by rewrite IH. Qed.
Lemma fixw_inj k n m : (n < 10 ^ N.of_nat k)%N → (m < 10 ^ N.of_nat k)%N → fixw k n = fixw k m → n = m.
Proof.
  revert n m. induction k as [|k IH]; intros n m Hn Hm H; [simpl in *; lia|].
  cbn [fixw] in H. injection H as Hc H.
  rewrite Nat2N.inj_succ, N.pow_succ_r' in Hn, Hm.
  apply IH in H; [|apply N.div_lt_upper_bound; lia..].
  pose proof (N.mod_lt n 10). pose proof (N.mod_lt m 10).
  assert (48 + n mod 10 = 48 + m mod 10)%N as Hd.
  { rewrite <-(N_ascii_small (48 + n mod 10)), <-(N_ascii_small (48 + m mod 10)) by lia. by rewrite Hc. }
  rewrite (N.div_mod n 10), (N.div_mod m 10) by done. rewrite H. f_equal. lia.
Qed.

(** A ticket with nothing but what CreateTicket always sets; creation and
    expiry at whole seconds. *)
Definition tiny (i : nat) : ticket :=
  Ticket ("1700000000-" +:+ fixw 6 (N.of_nat i)) (Some (Timestamp 1700000600 0))
    (Some (Filterable [] ∅ ∅ (Some (Timestamp 1700000000 0)))) ∅.
Definition tiny_count : nat := Z.to_nat 108000.
Definition tinies : list ticket := map tiny (seq 0 tiny_count).
Definition all_pool : pool := Pool "all" [] [] [] None None ∅.
Definition all_profile : profile := Profile "everyone" {["all" := all_pool]} ∅.
Definition tiny_visits : list (ticket * list string) := map (λ t, (t, ["all"])) tinies.

Lemma tiny_size i : ticket_size (tiny i) = 37.
Proof.
  unfold ticket_size, tiny.
  set (s := fixw 6 (N.of_nat i)).
  assert (String.length s = 6%nat) as Hs by apply fixw_length. clearbody s.
  do 6 (destruct s as [|? s]; [simpl in Hs; lia|]). destruct s; [|simpl in Hs; lia].
  vm_compute. reflexivity.
Qed.

Lemma tiny_ids_distinct : NoDup (tk_id <$> tinies).
Proof.
  unfold tinies. change (map tiny (seq 0 tiny_count)) with (tiny <$> seq 0 tiny_count). rewrite <-list_fmap_compose.
  apply NoDup_fmap_2_strong; [|apply NoDup_seq].
  intros i j Hi Hj H. apply elem_of_seq in Hi, Hj. cbn [compose tiny tk_id] in H.
  unfold tiny_count in *.
  apply (inj N.of_nat). apply (fixw_inj 6).
  - change (10 ^ N.of_nat 6)%N with 1000000%N. lia.
  - change (10 ^ N.of_nat 6)%N with 1000000%N. lia.
  - revert H. generalize (fixw 6 (N.of_nat i)) (fixw 6 (N.of_nat j)). intros s1 s2 H. cbn in H. injection H as H. exact H.
Qed.

Lemma tinies_sum f k : (∀ i, f (tiny i) = k) → zsum f tinies = k * 108000.
Proof.
  intros H. unfold tinies.
  assert (∀ l, zsum f (map tiny l) = k * Z.of_nat (length l)) as ->.
  { induction l as [|i l IH]; simpl; [lia|]. rewrite H, IH. lia. }
  rewrite seq_length. unfold tiny_count. lia.
Qed.

Lemma all_names n : ValidName all_profile n ↔ n = "all".
Proof.
  unfold ValidName, all_profile. cbn [pr_pools]. split.
  - intros (q & Hq & _). by apply lookup_singleton_Some in Hq as [<- _].
  - intros ->. exists all_pool. split; [apply lookup_singleton|done].
Qed.
Lemma tiny_names_fit : NamesFit all_profile tiny_visits.
Proof.
  intros t ns Hin. unfold tiny_visits in Hin. apply elem_of_list_fmap in Hin as (t' & [= -> ->] & _).
  apply names_order; [apply NoDup_singleton|]. intros n. rewrite all_names. apply elem_of_list_singleton.
Qed.
Lemma tiny_visits_fst : tiny_visits.*1 = tinies.
Proof.
  unfold tiny_visits. change (map (λ t, (t, ["all"])) tinies) with ((λ t : ticket, (t, ["all"])) <$> tinies).
  rewrite <-list_fmap_compose. apply list_fmap_id.
Qed.
Lemma tiny_no_panic : NoFilterPanic all_profile tiny_visits.*1.
Proof.
  intros t n q Hin Hq _. cbn [all_profile pr_pools] in Hq. apply lookup_singleton_Some in Hq as [<- <-].
  rewrite tiny_visits_fst in Hin. apply elem_of_list_fmap in Hin as (i & -> & _). done.
Qed.
Lemma tiny_eligible t : t ∈ tinies → Eligible all_profile "all" t.
Proof.
  intros Hin. exists all_pool. split; [apply lookup_singleton|]. split; [done|].
  apply elem_of_list_fmap in Hin as (i & -> & _). reflexivity.
Qed.

Lemma tiny_one_chunk :
  chunks_of ticket_size max_pb_size (empty_chunk_size all_profile) all_profile tiny_visits = Done [{["all" := tinies]}].
Proof.
  destruct (chunks_contents ticket_size max_pb_size (empty_chunk_size all_profile) _ _ tiny_names_fit tiny_no_panic)
    as (rs & Hrs & _ & Hne & Hparts).
  assert (∃ r, rs = [r]) as [r ->].
  { eapply chunks_one; [| |exact Hrs].
    - intros t Hin. apply elem_of_list_fmap in Hin as (i & -> & _). rewrite tiny_size. lia.
    - rewrite (tinies_sum ticket_size 37 tiny_size).
      assert (empty_chunk_size all_profile = 32) as -> by (vm_compute; reflexivity).
      unfold max_pb_size. lia. }
  rewrite Hrs. do 2 f_equal. apply Forall_cons in Hne as [Hne _].
  apply map_eq. intros n. specialize (Hparts n). rewrite parts_one, tiny_visits_fst in Hparts. unfold part in Hparts.
  destruct (decide (n = "all")) as [->|Hn].
  - rewrite lookup_singleton. rewrite filter_all in Hparts by apply tiny_eligible.
    destruct (r !! "all") as [l|]; [change (l = tinies) in Hparts; by rewrite Hparts|].
    change ([] = tinies) in Hparts.
    exfalso. assert (length tinies = 0%nat) as Hl by by rewrite <-Hparts.
    unfold tinies in Hl. rewrite map_length, seq_length in Hl. unfold tiny_count in Hl. lia.
  - rewrite lookup_singleton_ne by done. destruct (r !! n) as [l|] eqn:El; [|done].
    exfalso. apply (Hne n l El). change (l = filter (Eligible all_profile n) tinies) in Hparts. rewrite Hparts.
    apply filter_none. intros t _ (q & Hq & _). cbn [all_profile pr_pools] in Hq. apply lookup_singleton_Some in Hq as [Hq _].
    exact (Hn (eq_sym Hq)).
Qed.

Lemma map_imap_insert_singleton {A B} (f : string → A → B) n x :
  map_imap (λ n a, Some (f n a)) ({[n := x]} : gmap string A) = {[n := f n x]}.
Proof.
  apply map_eq. intros k. rewrite map_lookup_imap. destruct (decide (k = n)) as [->|Hk].
  - by rewrite !lookup_singleton.
  - by rewrite !lookup_singleton_ne.
Qed.

Lemma tiny_too_large : grpc_max < chunk_size (chunk_request all_profile 1 {["all" := tinies]}).
Proof.
  unfold chunk_size. change (grpc_max < flen (fields_chunk (chunk_request all_profile 1 {["all" := tinies]}))).
  unfold fields_chunk. rewrite flen_app, flen_one.
  pose proof (flen_nonneg (f_int 2 (ch_num (chunk_request all_profile 1 {["all" := tinies]})))) as H0.
  pose proof (f_msg_min 1 (fields_profile (ch_profile (chunk_request all_profile 1 {["all" := tinies]}))) ltac:(done)) as H1.
  assert (4212000 <= flen (fields_profile (ch_profile (chunk_request all_profile 1 {["all" := tinies]})))) as H2.
  { unfold chunk_request. cbn [ch_profile]. unfold fields_profile. cbn [pr_name pr_pools pr_ext]. rewrite !flen_app.
    rewrite map_imap_insert_singleton, map_to_list_singleton. cbn [map]. rewrite flen_one.
    pose proof (entry_min "all" tinies) as H. 
    assert (zsum ticket_size tinies = 37 * 108000) as S1 by exact (tinies_sum ticket_size 37 tiny_size).
    assert (zsum (λ _ : ticket, 1) tinies = 1 * 108000) as S2 by exact (tinies_sum (λ _, 1) 1 (λ _, eq_refl)).
    rewrite S1, S2 in H.
    pose proof (flen_nonneg (f_string 1 (pr_name all_profile))).
    pose proof (flen_nonneg (fields_ext 3 (map_to_list (pr_ext all_profile)))). lia. }
  unfold grpc_max. lia.
Qed.
