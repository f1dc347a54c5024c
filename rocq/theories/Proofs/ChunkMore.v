(** More about chunks: full chunks, panics, real sizes. *)
From Coq Require Import Ascii String ZArith NArith Lia ZifyBool.
From stdpp Require Import prelude strings gmap.
From Verif.Model Require Import GoStrings Types Wire Proto Filter Chunk.
From Verif.Spec Require Import ChunkSpec.
From Verif.Proofs Require Import StringLemmas WireLemmas ProtoLemmas ChunkLemmas.
Local Open Scope Z_scope.

(** ** Chunk shapes *)
Definition chunk_shape (size : ticket → Z) (limit empty : Z) (ts : list ticket) (r : rosters) : Prop :=
  empty + weight size r < limit ∨ r = ∅ ∨ ∃ n t, t ∈ ts ∧ r = {[n := [t]]}.

Definition full_before (size : ticket → Z) (limit empty : Z) (r r' : rosters) : Prop :=
  ∃ n t l, r' !! n = Some (t :: l) ∧ limit <= empty + weight size r + size t.

(** Every two neighbours are related. *)
Fixpoint adjacent {A} (R : A → A → Prop) (l : list A) : Prop :=
  match l with
  | x :: ((y :: _) as l') => R x y ∧ adjacent R l'
  | _ => True
  end.

Lemma adjacent_snoc {A} (R : A → A → Prop) l x y : adjacent R (l ++ [x; y]) ↔ adjacent R (l ++ [x]) ∧ R x y.
Proof.
  induction l as [|a l IH]; [simpl; tauto|]. destruct l as [|b l]; [simpl; tauto|].
  cbn [app adjacent] in *. rewrite IH. tauto.
Qed.
Lemma adjacent_last {A} (R : A → A → Prop) l x x' :
  (∀ y, R y x → R y x') → adjacent R (l ++ [x]) → adjacent R (l ++ [x']).
Proof.
  intros H. induction l as [|a l IH]; [done|]. destruct l as [|b l]; [simpl; intros [? _]; split; auto|].
  cbn [app adjacent] in *. tauto.
Qed.

Definition shaped (size : ticket → Z) (limit empty : Z) (ts : list ticket) (b : builder) : Prop :=
  b_size b = empty + weight size (b_cur b) ∧ Forall (chunk_shape size limit empty ts) (b_done b ++ [b_cur b]) ∧
  adjacent (full_before size limit empty) (b_done b ++ [b_cur b]).

Lemma add_shaped size limit empty ts b n t :
  t ∈ ts → shaped size limit empty ts b → shaped size limit empty ts (add_ticket size limit empty b n t).
Proof.
  intros Ht (Hs & Hf & Ha). unfold add_ticket, shaped.
  destruct (limit <=? b_size b + size t) eqn:E; cbn [b_done b_cur b_size].
  - rewrite weight_add, weight_empty. split; [lia|]. rewrite lookup_empty. cbn [default app]. split.
    + apply Forall_app. split; [done|]. constructor; [|constructor]. right. right. exists n, t. split; [done|]. done.
    + rewrite <-app_assoc. cbn [app]. apply adjacent_snoc. split; [done|].
      exists n, t, []. split; [by rewrite lookup_insert|lia].
  - rewrite weight_add. split; [lia|]. split.
    + apply Forall_app in Hf as [Hf1 Hf2]. apply Forall_app. split; [done|].
      constructor; [|constructor]. left. rewrite weight_add. lia.
    + eapply adjacent_last; [|done]. intros r (m & t' & l & Hl & Hle).
      destruct (decide (m = n)) as [->|Hmn].
      * exists n, t', (l ++ [t]). rewrite lookup_insert, Hl. done.
      * exists m, t', l. rewrite lookup_insert_ne by done. done.
Qed.

Lemma pools_shaped size limit empty ts p t ns : ∀ b b', t ∈ ts →
  chunk_pools size limit empty p t ns b = Done b' → shaped size limit empty ts b → shaped size limit empty ts b'.
Proof.
  induction ns as [|n ns IH]; intros b b' Ht H Hs; cbn [chunk_pools] in H; [by simplify_eq|].
  destruct (filter_in _ _) as [[]|]; [|by eapply IH|done]. eapply IH; [done|done|]. by apply add_shaped.
Qed.
Lemma tickets_shaped size limit empty all p ts : ∀ b b', (∀ t, t ∈ ts.*1 → t ∈ all) →
  chunk_tickets size limit empty p ts b = Done b' → shaped size limit empty all b → shaped size limit empty all b'.
Proof.
  induction ts as [|[t ns] ts IH]; intros b b' Hall H Hs; cbn [chunk_tickets] in H; [by simplify_eq|].
  destruct (chunk_pools _ _ _ _ _ _ _) as [b1|] eqn:E; [|done].
  eapply IH; [|done|].
  - intros t' Ht'. apply Hall. by right.
  - eapply pools_shaped; [|done|done]. apply Hall. left.
Qed.

Lemma chunks_shaped size limit empty p ts rs :
  chunks_of size limit empty p ts = Done rs →
  rs ≠ [] ∧ Forall (chunk_shape size limit empty ts.*1) rs ∧ adjacent (full_before size limit empty) rs.
Proof.
  unfold chunks_of. destruct (chunk_tickets _ _ _ _ _ _) as [b|] eqn:E; [|done]. intros [= <-].
  split; [by destruct (b_done b)|].
  eapply (tickets_shaped _ _ _ ts.*1) in E as (_ & H1 & H2); [done|done|].
  split; simpl; [rewrite weight_empty; lia|]. split; [|done]. constructor; [|constructor]. right. by left.
Qed.

Lemma adjacent_lookup {A} (R : A → A → Prop) l : adjacent R l →
  ∀ i x y, l !! i = Some x → l !! S i = Some y → R x y.
Proof.
  induction l as [|a l IH]; intros Ha i x y Hx Hy; [done|].
  destruct l as [|b l]; [by destruct i|]. destruct Ha as [Hab Ha]. destruct i as [|i].
  - simpl in Hx, Hy. by simplify_eq.
  - apply (IH Ha i x y Hx). exact Hy.
Qed.

(** ** A finished split saw no panic *)
Lemma pools_no_panic size limit empty p t ns : ∀ b b',
  chunk_pools size limit empty p t ns b = Done b' → ∀ n, n ∈ ns → filter_in (pr_pools p !! n) (tk_attrs t) ≠ Panic.
Proof.
  induction ns as [|k ns IH]; intros b b' H n Hn; [by apply elem_of_nil in Hn|]. cbn [chunk_pools] in H.
  apply elem_of_cons in Hn as [->|Hn].
  - by destruct (filter_in _ _) as [[]|].
  - destruct (filter_in (pr_pools p !! k) _) as [[]|]; [by eapply IH|by eapply IH|done].
Qed.
Lemma tickets_no_panic size limit empty p ts : ∀ b b',
  chunk_tickets size limit empty p ts b = Done b' → NamesFit p ts → NoFilterPanic p ts.*1.
Proof.
  induction ts as [|[t ns] ts IH]; intros b b' H Hf t' n q Hin Hq Hv.
  - by apply elem_of_nil in Hin.
  - cbn [chunk_tickets] in H. destruct (chunk_pools _ _ _ _ _ _ _) as [b1|] eqn:E; [|done].
    cbn [fmap list_fmap fst] in Hin. apply elem_of_cons in Hin as [->|Hin].
    + rewrite <-Hq. eapply pools_no_panic; [done|]. destruct (names_fit_valid _ _ t ns Hf ltac:(left)) as [_ Hns]. apply Hns. by exists q.
    + eapply (IH b1 b' H); [|done|done|done]. intros t2 ns2 H2. apply (Hf t2 ns2). by right.
Qed.
Lemma chunks_no_panic size limit empty p ts rs :
  chunks_of size limit empty p ts = Done rs → NamesFit p ts → NoFilterPanic p ts.*1.
Proof.
  unfold chunks_of. destruct (chunk_tickets _ _ _ _ _ _) as [b|] eqn:E; [|done]. intros _. by eapply tickets_no_panic.
Qed.

Lemma chunks_done size limit empty p ts rs :
  NamesFit p ts → chunks_of size limit empty p ts = Done rs →
  Forall no_empty rs ∧ ∀ m, parts m rs = filter (Eligible p m) ts.*1.
Proof.
  intros Hf Hrs. destruct (chunks_contents size limit empty p ts Hf) as (rs' & Hrs' & _ & H1 & H2).
  - by eapply chunks_no_panic.
  - rewrite Hrs in Hrs'. injection Hrs' as <-. done.
Qed.

Lemma part_in_parts n r rs l t : r ∈ rs → r !! n = Some l → t ∈ l → t ∈ parts n rs.
Proof.
  intros Hr Hl Ht. unfold parts. apply elem_of_list_In, in_concat. exists l. split; [|by apply elem_of_list_In].
  apply in_map_iff. exists r. split; [unfold part; by rewrite Hl|by apply elem_of_list_In].
Qed.

Lemma chunk_entry_eligible size limit empty p ts rs r n l t :
  NamesFit p ts → chunks_of size limit empty p ts = Done rs → r ∈ rs → r !! n = Some l → t ∈ l →
  Eligible p n t ∧ t ∈ ts.*1.
Proof.
  intros Hf Hrs Hr Hl Ht. destruct (chunks_done _ _ _ _ _ _ Hf Hrs) as [_ Hp].
  assert (t ∈ parts n rs) as Hin by by eapply part_in_parts. rewrite Hp in Hin. by apply elem_of_list_filter in Hin.
Qed.

Lemma chunk_pool_valid size limit empty p ts rs r n l :
  NamesFit p ts → chunks_of size limit empty p ts = Done rs → r ∈ rs → r !! n = Some l → ValidName p n.
Proof.
  intros Hf Hrs Hr Hl. destruct (chunks_done _ _ _ _ _ _ Hf Hrs) as [Hne _].
  rewrite Forall_forall in Hne. specialize (Hne r Hr n l Hl). destruct l as [|t l]; [done|].
  destruct (chunk_entry_eligible _ _ _ _ _ _ _ _ _ t Hf Hrs Hr Hl ltac:(left)) as [(q & Hq & Hv & _) _]. by exists q.
Qed.

(** C04, second half *)
Lemma rejected_pool_nothing p ts cs n q c :
  NamesFit p ts → build_requests p ts = Done cs → pr_pools p !! n = Some q → pool_valid q = false →
  c ∈ cs → pr_pools (ch_profile c) !! n = None.
Proof.
  unfold build_requests. intros Hf H Hq Hv Hc. destruct (chunks_of _ _ _ _ _) as [rs|] eqn:E; [|done].
  injection H as <-. unfold requests_of in Hc. apply elem_of_list_fmap in Hc as (r & -> & Hr).
  rewrite chunk_pools_lookup. destruct (r !! n) as [l|] eqn:El; [|done].
  destruct (chunk_pool_valid _ _ _ _ _ _ _ _ _ Hf E Hr El) as (q' & Hq' & Hv'). congruence.
Qed.

(** ** Real sizes *)
Notation slenZ s := (Z.of_nat (String.length s)).
Notation flen fs := (Z.of_nat (fields_len fs)).

Lemma varint_len_f f n : (String.length (enc_varint_f f n) ≤ f)%nat.
Proof. revert n. induction f as [|f IH]; intros n; simpl; [lia|]. destruct (n <? 128)%N; simpl; [lia|]. specialize (IH (n / 128)%N). lia. Qed.
Lemma varint_len_pos n : (1 ≤ String.length (enc_varint n))%nat.
Proof. pose proof (enc_varint_nonempty n). destruct (enc_varint n); simpl; [done|lia]. Qed.
Lemma varint_len_max n : (String.length (enc_varint n) ≤ 10)%nat.
Proof. apply varint_len_f. Qed.
Lemma varint_len_bits f k n : (n < 2 ^ (7 * N.of_nat k))%N → (1 ≤ k)%nat → (String.length (enc_varint_f f n) ≤ k)%nat.
Proof.
  revert k n. induction f as [|f IH]; intros k n Hn Hk; simpl; [lia|].
  destruct (n <? 128)%N eqn:E; simpl; [lia|]. destruct k as [|k]; [lia|]. destruct k as [|k]; [simpl in Hn; lia|].
  apply le_n_S, IH; [|lia]. apply N.div_lt_upper_bound; [done|].
  replace (7 * N.of_nat (S (S k)))%N with (7 + 7 * N.of_nat (S k))%N in Hn by lia. by rewrite N.pow_add_r in Hn.
Qed.
Lemma varint_len_small k n : (n < 2 ^ (7 * N.of_nat k))%N → (1 ≤ k)%nat → (String.length (enc_varint n) ≤ k)%nat.
Proof. apply varint_len_bits. Qed.

Lemma wlen_len n s : (n < 16)%N →
  String.length (enc_field (n, WLen s)) = (1 + String.length (enc_varint (slen s)) + String.length s)%nat.
Proof.
  intros Hn. unfold enc_field. cbn [fst snd wire_type]. rewrite !app_length_s.
  pose proof (varint_len_small 1 (n * 8 + 2)) as H1. pose proof (varint_len_pos (n * 8 + 2)). simpl in H1. lia.
Qed.
Lemma wlen_max n s : (n < 16)%N → slenZ (enc_field (n, WLen s)) <= 11 + slenZ s.
Proof. intros Hn. rewrite wlen_len by done. pose proof (varint_len_max (slen s)). lia. Qed.
Lemma wlen_min n s : (n < 16)%N → 2 + slenZ s <= slenZ (enc_field (n, WLen s)).
Proof. intros Hn. rewrite wlen_len by done. pose proof (varint_len_pos (slen s)). lia. Qed.
Lemma f_string_max n s : (n < 16)%N → flen (f_string n s) <= 11 + slenZ s.
Proof.
  intros Hn. destruct s as [|a s]; [change (flen (f_string n "")) with 0; lia|].
  change (f_string n (String a s)) with (@cons field (n, WLen (String a s)) (@nil field)). rewrite fields_len_cons, fields_len_nil.
  pose proof (wlen_max n (String a s) Hn). lia.
Qed.
Lemma flen_app fs gs : flen (fs ++ gs) = flen fs + flen gs.
Proof. rewrite fields_len_app. lia. Qed.
Lemma flen_one f : flen [f] = slenZ (enc_field f).
Proof. rewrite fields_len_cons, fields_len_nil. lia. Qed.
Lemma flen_nonneg fs : 0 <= flen fs.
Proof. lia. Qed.
Lemma f_msg_max n fs : (n < 16)%N → slenZ (enc_field (f_msg n fs)) <= 11 + flen fs.
Proof. apply wlen_max. Qed.
Lemma f_msg_min n fs : (n < 16)%N → 2 + flen fs <= slenZ (enc_field (f_msg n fs)).
Proof. apply wlen_min. Qed.

Lemma ticket_field_max t : ticket_size t < 2 ^ 28 →
  slenZ (enc_field (f_msg 3 (fields_ticket_c t))) <= ticket_size t + 5.
Proof.
  intros H. unfold f_msg. rewrite wlen_len by done. unfold ticket_size in *.
  pose proof (varint_len_small 4 (slen (enc_fields (fields_ticket_c t)))) as Hv. unfold slen in Hv.
  change (2 ^ (7 * N.of_nat 4))%N with 268435456%N in Hv. change (2 ^ 28) with 268435456 in H. unfold slen. lia.
Qed.

Notation zsum f l := (foldr (λ t a, f t + a) 0 l).
Lemma tickets_field_max l : Forall (λ t, ticket_size t < 2 ^ 28) l →
  flen (map (λ t, f_msg 3 (fields_ticket_c t)) l) <= zsum ticket_size l + 5 * zsum (λ _, 1) l.
Proof.
  induction 1 as [|t l Ht _ IH]; [vm_compute; discriminate|]. cbn [map foldr].
  rewrite fields_len_cons. pose proof (ticket_field_max t Ht). lia.
Qed.
Lemma tickets_field_min l :
  zsum ticket_size l + 2 * zsum (λ _, 1) l <= flen (map (λ t, f_msg 3 (fields_ticket_c t)) l).
Proof.
  induction l as [|t l IH]; [vm_compute; discriminate|]. cbn [map foldr].
  rewrite fields_len_cons. pose proof (f_msg_min 3 (fields_ticket_c t) ltac:(done)).
  unfold ticket_size at 1. unfold fields_len in *. lia.
Qed.

Lemma roster_fields nm ts :
  fields_roster (Roster nm None ts ∅) = f_string 1 nm ++ map (λ t, f_msg 3 (fields_ticket_c t)) ts.
Proof. unfold fields_roster. cbn [ro_name ro_assignment ro_tickets ro_ext f_opt].
  change (fields_ext 4 (map_to_list (∅ : extensions))) with (@nil field). by rewrite app_nil_r. Qed.
Lemma pool_fields n l : fields_pool (chunk_pool n l) = [f_msg 6 (fields_roster (Roster (n +:+ "_roster") None l ∅))].
Proof. unfold fields_pool, chunk_pool. cbn [po_name po_tag_filters po_string_filters po_double_filters po_time_filter po_participants po_ext f_string f_opt map app]. done. Qed.

Lemma entry_max n l : Forall (λ t, ticket_size t < 2 ^ 28) l →
  slenZ (enc_field (f_msg 2 (entry_pool (n, chunk_pool n l)))) <=
    2 * slenZ n + 62 + zsum ticket_size l + 5 * zsum (λ _, 1) l.
Proof.
  intros Hl. unfold entry_pool. cbn [fst snd].
  pose proof (tickets_field_max l Hl) as Ht.
  pose proof (f_string_max 1 (n +:+ "_roster") ltac:(done)) as Hs. rewrite app_length_s in Hs. cbn [String.length] in Hs.
  etrans; [apply f_msg_max; done|]. rewrite fields_len_cons, fields_len_cons, fields_len_nil.
  pose proof (wlen_max 1 n ltac:(done)).
  pose proof (f_msg_max 2 (fields_pool (chunk_pool n l)) ltac:(done)) as H2. rewrite pool_fields in *.
  rewrite flen_one in H2.
  pose proof (f_msg_max 6 (fields_roster (Roster (n +:+ "_roster") None l ∅)) ltac:(done)) as H3.
  rewrite roster_fields in *. rewrite flen_app in H3. lia.
Qed.
Lemma entry_min n l :
  zsum ticket_size l + 2 * zsum (λ _, 1) l <= slenZ (enc_field (f_msg 2 (entry_pool (n, chunk_pool n l)))).
Proof.
  pose proof (tickets_field_min l) as Ht. unfold entry_pool. cbn [fst snd].
  etrans; [|apply f_msg_min; done]. rewrite fields_len_cons, fields_len_cons, fields_len_nil.
  pose proof (f_msg_min 2 (fields_pool (chunk_pool n l)) ltac:(done)) as H2. rewrite pool_fields in *.
  rewrite flen_one in H2.
  pose proof (f_msg_min 6 (fields_roster (Roster (n +:+ "_roster") None l ∅)) ltac:(done)) as H3.
  rewrite roster_fields in *. rewrite flen_app in H3. lia.
Qed.

Definition small_tickets (r : rosters) : Prop := ∀ n l, r !! n = Some l → Forall (λ t, ticket_size t < 2 ^ 28) l.

Lemma names_cost_insert {A} n (x : A) (m : gmap string A) :
  m !! n = None → names_cost (<[n := x]> m) = 2 * slenZ n + 62 + names_cost m.
Proof. intros H. unfold names_cost. rewrite map_fold_insert_L; [done| |done]. intros. lia. Qed.

Lemma entries_max (r : gmap string (list ticket)) : small_tickets r →
  flen (map (λ kv, f_msg 2 (entry_pool kv)) (map_to_list (map_imap (λ n ts, Some (chunk_pool n ts)) r)))
    <= names_cost r + weight ticket_size r + 5 * entries r.
Proof.
  induction r as [|n l r Hn IH] using map_ind; intros Hs.
  - rewrite map_imap_empty, map_to_list_empty. unfold entries. rewrite !weight_empty. done.
  - rewrite names_cost_insert by done. unfold entries in *. rewrite !weight_insert_new by done.
    rewrite map_imap_insert. cbn beta iota.
    assert (map_imap (λ n ts, Some (chunk_pool n ts)) r !! n = None) as Hn'.
    { by rewrite map_lookup_imap, Hn. }
    rewrite (map_perm_len _ _ _ (map_to_list_insert _ n (chunk_pool n l) Hn')). cbn [map]. rewrite fields_len_cons.
    assert (small_tickets r) as Hs'.
    { intros m l' Hm. apply (Hs m). rewrite lookup_insert_ne by congruence. done. }
    specialize (IH Hs'). pose proof (entry_max n l (Hs n l (lookup_insert _ _ _))). lia.
Qed.

Lemma f_int_u64_len n z : (n < 16)%N → 0 < z < 2 ^ 31 → flen (f_int n z) <= 6.
Proof.
  intros Hn Hz. unfold f_int. destruct (z =? 0) eqn:E; [lia|]. rewrite flen_one. unfold enc_field. cbn [fst snd wire_type].
  rewrite app_length_s. pose proof (varint_len_small 1 (n * 8 + 0)) as H1. simpl in H1.
  assert (int_to_u64 z < 2 ^ (7 * N.of_nat 5))%N as H2.
  { unfold int_to_u64. rewrite Z.mod_small by lia. change (2 ^ (7 * N.of_nat 5))%N with 34359738368%N. lia. }
  pose proof (varint_len_small 5 _ H2). lia.
Qed.

Lemma chunk_size_max p k (r : gmap string (list ticket)) :
  (0 < k)%nat → Z.of_nat k < 2 ^ 31 → small_tickets r →
  chunk_size (chunk_request p k r) <= empty_chunk_size p + weight ticket_size r + overhead r.
Proof.
  intros Hk0 Hk Hs. unfold chunk_size, empty_chunk_size, chunk_size.
  change (flen (fields_chunk (chunk_request p k r)) <=
          flen (fields_chunk (Chunk p max_int32)) + weight ticket_size r + overhead r).
  unfold fields_chunk. rewrite !flen_app, !flen_one.
  unfold chunk_request. cbn [ch_profile ch_num]. rewrite wrap32_small by lia.
  pose proof (f_int_u64_len 2 (Z.of_nat k) ltac:(done) ltac:(lia)) as H1.
  assert (flen (f_int 2 max_int32) = 6) as H2 by (vm_compute; reflexivity).
  pose proof (f_msg_min 1 (fields_profile p) ltac:(done)) as H3.
  etrans; [apply Z.add_le_mono; [apply f_msg_max; done|exact H1]|].
  unfold fields_profile in *. cbn [pr_name pr_pools pr_ext]. rewrite !flen_app in *.
  pose proof (entries_max r Hs) as H4. unfold overhead.
  pose proof (flen_nonneg (map (λ kv, f_msg 2 (entry_pool kv)) (map_to_list (pr_pools p)))). lia.
Qed.

(** Sums over names of a smaller map are smaller. *)
Lemma names_cost_nonneg {A} (m : gmap string A) : 0 <= names_cost m.
Proof.
  induction m as [|n x m Hn IH] using map_ind; [done|]. rewrite names_cost_insert by done. lia.
Qed.
Lemma names_cost_mono {A B} (m : gmap string A) : ∀ m' : gmap string B,
  (∀ n, is_Some (m !! n) → is_Some (m' !! n)) → names_cost m <= names_cost m'.
Proof.
  induction m as [|n x m Hn IH] using map_ind; intros m' H.
  - change (names_cost ∅) with 0. apply names_cost_nonneg.
  - destruct (H n) as [y Hy]; [by rewrite lookup_insert|].
    rewrite <-(insert_delete m' n y Hy), !names_cost_insert by (done || apply lookup_delete).
    assert (names_cost m <= names_cost (delete n m')); [|lia]. apply IH. intros k Hk.
    assert (k ≠ n) by (intros ->; rewrite Hn in Hk; by destruct Hk).
    rewrite lookup_delete_ne by done. apply H. by rewrite lookup_insert_ne.
Qed.

Lemma weight_mono f g (r : gmap string (list ticket)) :
  (∀ n l t, r !! n = Some l → t ∈ l → f t <= g t) → weight f r <= weight g r.
Proof.
  induction r as [|n l r Hn IH] using map_ind; intros H; [done|].
  rewrite !weight_insert_new by done.
  assert (zsum f l <= zsum g l).
  { assert (∀ t, t ∈ l → f t <= g t) as Hl by (intros t Ht; apply (H n l t); [apply lookup_insert|done]).
    clear -Hl. induction l as [|t l IH]; [done|]. simpl. pose proof (Hl t ltac:(left)).
    assert (zsum f l <= zsum g l) by (apply IH; intros; apply Hl; by right). lia. }
  assert (weight f r <= weight g r); [|lia]. apply IH. intros m l' t Hm. apply (H m l' t).
  rewrite lookup_insert_ne by congruence. done.
Qed.
Lemma weight_const (k : Z) (r : gmap string (list ticket)) : weight (λ _, k) r = k * entries r.
Proof.
  unfold entries. induction r as [|n l r Hn IH] using map_ind; [rewrite !weight_empty; lia|].
  rewrite !weight_insert_new by done. rewrite IH.
  assert (∀ l : list ticket, zsum (λ _, k) l = k * zsum (λ _, 1) l) as ->; [|lia].
  clear. induction l as [|t l IH]; simpl; [lia|]. rewrite IH. lia.
Qed.
Lemma weight_single f n t : weight f {[n := [t]]} = f t.
Proof. rewrite <-insert_empty, weight_insert_new by apply lookup_empty. rewrite weight_empty. simpl. lia. Qed.

(** C38, the restriction that holds. *)
Lemma chunks_fit_grpc p ts cs c :
  NamesFit p ts → 1 + Z.of_nat (length ts) * Z.of_nat (base.size (pr_pools p)) < 2 ^ 31 →
  empty_chunk_size p < max_pb_size →
  (∀ t, t ∈ ts.*1 → empty_chunk_size p + ticket_size t < max_pb_size ∧ 128 <= ticket_size t) →
  names_cost (pr_pools p) <= 38000 →
  build_requests p ts = Done cs → c ∈ cs → chunk_size c <= grpc_max.
Proof.
  intros Hf Hlen He Ht Hn H Hc. unfold build_requests in H. destruct (chunks_of _ _ _ _ _) as [rs|] eqn:E; [|done].
  injection H as <-. unfold requests_of in Hc. apply elem_of_list_fmap in Hc as (r & -> & Hr).
  destruct (chunks_shaped _ _ _ _ _ _ E) as (Hnil & Hsh & _). rewrite Forall_forall in Hsh. specialize (Hsh r Hr).
  pose proof (chunks_count _ _ _ _ _ _ Hf E) as Hcount.
  assert (Hin : ∀ n l t, r !! n = Some l → t ∈ l → t ∈ ts.*1).
  { intros n l t Hl Htl. by destruct (chunk_entry_eligible _ _ _ _ _ _ _ _ _ t Hf E Hr Hl Htl). }
  assert (empty_chunk_size p + weight ticket_size r < max_pb_size) as Hw.
  { destruct Hsh as [Hsh|[->|(n & t & Hin' & ->)]]; [done| |].
    - rewrite weight_empty. lia.
    - rewrite weight_single. by apply Ht. }
  assert (0 <= empty_chunk_size p) as He0 by (unfold empty_chunk_size, chunk_size; lia).
  assert (128 * entries r <= weight ticket_size r) as Hent.
  { rewrite <-weight_const. apply weight_mono. intros n l t Hl Htl. by apply Ht, (Hin n l). }
  etrans; [apply chunk_size_max|].
  - destruct rs; [done|simpl; lia].
  - lia.
  - intros n l Hl. apply Forall_forall. intros t Htl. destruct (Ht t (Hin n l t Hl Htl)) as [Ht1 _].
    change max_pb_size with 4000000 in Ht1. change (2 ^ 28) with 268435456. lia.
  - assert (names_cost r <= names_cost (pr_pools p)).
    { apply names_cost_mono. intros n [l Hl]. destruct (chunk_pool_valid _ _ _ _ _ _ _ _ _ Hf E Hr Hl) as (q & Hq & _). eauto. }
    unfold overhead, grpc_max. change max_pb_size with 4000000 in Hw. lia.
Qed.

(** ** One chunk *)
Lemma add_one size limit empty b n t : b_size b + size t < limit →
  b_done (add_ticket size limit empty b n t) = b_done b ∧ b_size (add_ticket size limit empty b n t) = b_size b + size t.
Proof. intros H. unfold add_ticket. replace (limit <=? b_size b + size t) with false by lia. done. Qed.

Lemma tickets_one size limit empty p n ts : ∀ b b',
  (∀ t, t ∈ ts → 0 <= size t) → b_size b + zsum size ts < limit →
  chunk_tickets size limit empty p (map (λ t, (t, [n])) ts) b = Done b' → b_done b' = b_done b.
Proof.
  induction ts as [|t ts IH]; intros b b' Hp Hlt H; cbn [map chunk_tickets chunk_pools] in H; [by simplify_eq|].
  cbn [foldr] in Hlt. pose proof (Hp t ltac:(left)) as Ht.
  assert (∀ l : list ticket, (∀ t, t ∈ l → 0 <= size t) → 0 <= zsum size l) as Hpos.
  { clear. induction l as [|t l IH]; intros H; [simpl; lia|]. simpl. pose proof (H t ltac:(left)).
    assert (0 <= zsum size l) by (apply IH; intros; apply H; by right). lia. }
  assert (0 <= zsum size ts) by (apply Hpos; intros; apply Hp; by right).
  destruct (filter_in _ _) as [[]|]; [| |done].
  - destruct (add_one size limit empty b n t) as [H1 H2]; [lia|].
    rewrite <-H1. eapply IH; [|by rewrite H2; lia|done]. intros. apply Hp. by right.
  - eapply IH; [|by lia|done]. intros. apply Hp. by right.
Qed.

Lemma chunks_one size limit empty p n ts rs :
  (∀ t, t ∈ ts → 0 <= size t) → empty + zsum size ts < limit →
  chunks_of size limit empty p (map (λ t, (t, [n])) ts) = Done rs → ∃ r, rs = [r].
Proof.
  unfold chunks_of. intros Hp Hlt. destruct (chunk_tickets _ _ _ _ _ _) as [b|] eqn:E; [|done]. intros [= <-].
  eapply tickets_one in E; [|done|done]. cbn [b_done] in E. rewrite E. by eexists.
Qed.

(** ** Statements used by the property theorems *)
Lemma chunks_transfer size limit empty p ts :
  NamesFit p ts → NoFilterPanic p ts.*1 →
  1 + Z.of_nat (length ts) * Z.of_nat (base.size (pr_pools p)) < 2 ^ 31 →
  ∃ rs, chunks_of size limit empty p ts = Done rs ∧
    ∀ cs, cs.*1 = requests_of p rs → pool_orders_fit cs →
      ∃ pools, get_chunked_request cs = Done (Received (Profile (pr_name p) pools (pr_ext p))) ∧
        ∀ n, pools !! n = match filter (Eligible p n) ts.*1 with [] => None | l => Some (chunk_pool n l) end.
Proof.
  intros Hf Hp Hlen. destruct (chunks_contents size limit empty p ts Hf Hp) as (rs & Hrs & _).
  exists rs. split; [done|]. intros cs Hcs Hfit.
  eapply (chunks_round_trip size limit empty); [done|done|done| |done].
  intros rs' Hrs'. rewrite Hrs in Hrs'. by injection Hrs' as <-.
Qed.

Lemma split_panics size limit empty p ts :
  NamesFit p ts → (chunks_of size limit empty p ts ≠ Panic ↔ NoFilterPanic p ts.*1).
Proof.
  intros Hf. split.
  - intros H. destruct (chunks_of _ _ _ _ _) as [rs|] eqn:E; [|done]. by eapply chunks_no_panic.
  - intros Hp. destruct (chunks_contents size limit empty p ts Hf Hp) as (rs & -> & _). done.
Qed.

Lemma accounted_sizes size limit empty p ts rs :
  chunks_of size limit empty p ts = Done rs →
  rs ≠ [] ∧
  (∀ r, r ∈ rs → empty + weight size r < limit ∨ r = ∅ ∨ ∃ n t, t ∈ ts.*1 ∧ r = {[n := [t]]}) ∧
  (∀ i r r', rs !! i = Some r → rs !! S i = Some r' →
     ∃ n t l, r' !! n = Some (t :: l) ∧ limit <= empty + weight size r + size t).
Proof.
  intros H. destruct (chunks_shaped _ _ _ _ _ _ H) as (H1 & H2 & H3). split; [done|]. split.
  - by apply Forall_forall.
  - intros i r r'. apply (adjacent_lookup _ _ H3).
Qed.

Lemma chunk_count_sent p ts cs :
  NamesFit p ts → 1 + Z.of_nat (length ts) * Z.of_nat (base.size (pr_pools p)) < 2 ^ 31 →
  build_requests p ts = Done cs → cs ≠ [] ∧ ∀ c, c ∈ cs → ch_num c = Z.of_nat (length cs).
Proof.
  unfold build_requests. intros Hf Hlen H. destruct (chunks_of _ _ _ _ _) as [rs|] eqn:E; [|done].
  injection H as <-. pose proof (chunks_count _ _ _ _ _ _ Hf E). destruct (chunks_shaped _ _ _ _ _ _ E) as (Hnil & _).
  unfold requests_of. split; [by destruct rs|]. intros c Hc. apply elem_of_list_fmap in Hc as (r & -> & _).
  cbn [chunk_request ch_num]. rewrite map_length. apply wrap32_small. lia.
Qed.

Lemma passed_through_partial p ts cs P :
  NamesFit p ts → 1 + Z.of_nat (length ts) * Z.of_nat (base.size (pr_pools p)) < 2 ^ 31 →
  build_requests p ts = Done cs.*1 → pool_orders_fit cs → get_chunked_request cs = Done (Received P) →
  pr_name P = pr_name p ∧ pr_ext P = pr_ext p ∧
  ∀ n Q, pr_pools P !! n = Some Q →
    ValidName p n ∧ ∃ l, l ≠ [] ∧ Q = Pool "" [] [] [] None (Some (Roster (n +:+ "_roster") None l ∅)) ∅.
Proof.
  unfold build_requests. intros Hf Hlen H Hfit Hget. destruct (chunks_of _ _ _ _ _) as [rs|] eqn:E; [|done].
  injection H as Hcs. pose proof (chunks_no_panic _ _ _ _ _ _ E Hf) as Hp.
  destruct (chunks_round_trip _ _ _ p ts cs Hf Hp Hlen ltac:(intros rs' E'; rewrite E in E'; by injection E' as <-) Hfit)
    as (pools & Hg & Hpools).
  rewrite Hget in Hg. injection Hg as ->. cbn [pr_name pr_ext pr_pools]. split; [done|]. split; [done|].
  intros n Q HQ. rewrite Hpools in HQ. destruct (filter (Eligible p n) ts.*1) as [|t l] eqn:Ef; [done|].
  injection HQ as <-. split; [|by exists (t :: l)].
  assert (t ∈ filter (Eligible p n) ts.*1) as Ht by (rewrite Ef; left).
  apply elem_of_list_filter in Ht as [(q & Hq & Hv & _) _]. by exists q.
Qed.
