(** Chunking and re-assembling. *)
From Coq Require Import Ascii String ZArith NArith Lia ZifyBool.
From stdpp Require Import prelude strings gmap.
From Verif.Model Require Import GoStrings Types Wire Proto Filter Chunk.
From Verif.Spec Require Import ChunkSpec.
Local Open Scope Z_scope.

(** ** The pools that are visited *)
Lemma valid_pools_names p n : n ∈ (map_to_list (valid_pools p)).*1 ↔ ValidName p n.
Proof.
  rewrite elem_of_list_fmap. unfold valid_pools, ValidName. split.
  - intros ([n' q] & -> & Hin). apply elem_of_map_to_list, map_filter_lookup_Some in Hin as [H1 H2]. by exists q.
  - intros (q & Hq & Hv). exists (n, q). split; [done|]. by apply elem_of_map_to_list, map_filter_lookup_Some.
Qed.

Lemma names_order p ns : NoDup ns → (∀ n, n ∈ ns ↔ ValidName p n) → pool_order p ns.
Proof.
  intros Hnd H. apply NoDup_Permutation; [done|apply NoDup_fst_map_to_list|].
  intros n. by rewrite valid_pools_names.
Qed.

Lemma names_fit_valid p ts t ns :
  NamesFit p ts → (t, ns) ∈ ts → NoDup ns ∧ ∀ n, n ∈ ns ↔ ValidName p n.
Proof.
  intros Hf Hin. specialize (Hf t ns Hin). unfold pool_order in Hf. split.
  - rewrite Hf. apply NoDup_fst_map_to_list.
  - intros n. by rewrite Hf, valid_pools_names.
Qed.

(** ** The contents of the chunks *)
Definition part (n : string) (r : gmap string (list ticket)) : list ticket := default [] (r !! n).
Definition parts (n : string) (rs : list rosters) : list ticket := concat (map (part n) rs).

Lemma parts_app n rs rs' : parts n (rs ++ rs') = parts n rs ++ parts n rs'.
Proof. unfold parts. by rewrite map_app, concat_app. Qed.
Lemma parts_one n r : parts n [r] = part n r.
Proof. unfold parts. simpl. by rewrite app_nil_r. Qed.

Definition all_of (b : builder) (n : string) : list ticket := parts n (b_done b ++ [b_cur b]).
Definition no_empty (r : gmap string (list ticket)) : Prop := ∀ n l, r !! n = Some l → l ≠ [].
Definition no_empties (b : builder) : Prop := Forall no_empty (b_done b ++ [b_cur b]).

Lemma part_insert n m l (r : gmap string (list ticket)) : part n (<[m := l]> r) = if decide (n = m) then l else part n r.
Proof. unfold part. case_decide; subst; [by rewrite lookup_insert|by rewrite lookup_insert_ne]. Qed.

Lemma add_all size limit empty b n t m :
  all_of (add_ticket size limit empty b n t) m = all_of b m ++ (if decide (m = n) then [t] else []).
Proof.
  unfold all_of, add_ticket. destruct (limit <=? b_size b + size t); cbn [b_done b_cur];
    rewrite !parts_app, !parts_one.
  - rewrite part_insert. unfold part at 2 3. rewrite lookup_empty. simpl. by case_decide.
  - rewrite part_insert, <-app_assoc. f_equal. case_decide; subst; [done|by rewrite app_nil_r].
Qed.

Lemma add_no_empty size limit empty b n t :
  no_empties b → no_empties (add_ticket size limit empty b n t).
Proof.
  unfold no_empties, add_ticket. intros H.
  assert (∀ r : gmap string (list ticket), no_empty r → no_empty (<[n := default [] (r !! n) ++ [t]]> r)) as Hi.
  { intros r Hr m l Hl. apply lookup_insert_Some in Hl as [[<- <-]|[_ Hl]]; [by destruct (default _ _)|by eapply Hr]. }
  destruct (limit <=? b_size b + size t); cbn [b_done b_cur].
  - rewrite Forall_app. split; [done|]. constructor; [|constructor]. apply Hi. intros m l Hl. by rewrite lookup_empty in Hl.
  - apply Forall_app in H as [H1 H2]. apply Forall_app. split; [done|].
    apply Forall_cons in H2 as [H2 _]. constructor; [by apply Hi|constructor].
Qed.

Lemma pools_all size limit empty p t ns : ∀ b,
  NoDup ns → (∀ n, n ∈ ns → ∃ q, pr_pools p !! n = Some q ∧ filter_in (Some q) (tk_attrs t) ≠ Panic) →
  ∃ b', chunk_pools size limit empty p t ns b = Done b' ∧
    (no_empties b → no_empties b') ∧
    ∀ m, all_of b' m =
      all_of b m ++ (if decide (m ∈ ns ∧ filter_in (pr_pools p !! m) (tk_attrs t) = Done true) then [t] else []).
Proof.
  induction ns as [|n ns IH]; intros b Hnd Hv.
  - exists b. split; [done|]. split; [done|]. intros m. rewrite decide_False by (intros [H _]; by apply elem_of_nil in H).
    by rewrite app_nil_r.
  - apply NoDup_cons in Hnd as [Hn Hnd]. destruct (Hv n ltac:(left)) as (q & Hq & Hp).
    cbn [chunk_pools]. rewrite Hq. destruct (filter_in (Some q) (tk_attrs t)) as [[]|] eqn:Hf; [| |done].
    + destruct (IH (add_ticket size limit empty b n t) Hnd) as (b' & Hb' & He & Ha).
      { intros k Hk. apply Hv. by right. }
      exists b'. split; [done|]. split; [intros; by apply He, add_no_empty|].
      intros m. rewrite Ha, add_all, <-app_assoc. f_equal.
      destruct (decide (m = n)) as [->|Hne].
      * rewrite decide_False by tauto. rewrite decide_True; [done|]. split; [left|by rewrite Hq].
      * simpl. destruct (decide (m ∈ ns ∧ _)) as [[H1 H2]|H]; [rewrite decide_True|rewrite decide_False]; try done.
        -- split; [by right|done].
        -- intros [[Hc|Hc]%elem_of_cons H2]; [done|by apply H].
    + destruct (IH b Hnd) as (b' & Hb' & He & Ha).
      { intros k Hk. apply Hv. by right. }
      exists b'. split; [done|]. split; [done|]. intros m. rewrite Ha. f_equal.
      destruct (decide (m ∈ ns ∧ _)) as [[H1 H2]|H]; [rewrite decide_True|rewrite decide_False]; try done.
      * split; [by right|done].
      * intros [[->|Hc]%elem_of_cons H2]; [rewrite Hq in H2; congruence|by apply H].
Qed.

Lemma tickets_all size limit empty p ts : ∀ b,
  NamesFit p ts → NoFilterPanic p ts.*1 →
  ∃ b', chunk_tickets size limit empty p ts b = Done b' ∧
    (no_empties b → no_empties b') ∧
    ∀ m, all_of b' m = all_of b m ++ filter (Eligible p m) ts.*1.
Proof.
  induction ts as [|[t ns] ts IH]; intros b Hf Hp.
  - exists b. split; [done|]. split; [done|]. intros m. by rewrite app_nil_r.
  - destruct (names_fit_valid _ _ t ns Hf ltac:(left)) as [Hnd Hns].
    destruct (pools_all size limit empty p t ns b Hnd) as (b1 & Hb1 & He1 & Ha1).
    { intros n Hn. apply Hns in Hn as (q & Hq & Hval). exists q. split; [done|]. apply (Hp t n q); [left|done|done]. }
    destruct (IH b1) as (b2 & Hb2 & He2 & Ha2).
    { intros t' ns' Hin. apply (Hf t' ns'). by right. }
    { intros t' n q Hin. apply (Hp t' n q). by right. }
    exists b2. cbn [chunk_tickets]. rewrite Hb1. split; [done|]. split; [tauto|].
    intros m. rewrite Ha2, Ha1, <-app_assoc. f_equal. cbn [fmap list_fmap fst].
    destruct (decide (Eligible p m t)) as [HE|HE].
    + rewrite filter_cons_True by done. rewrite decide_True; [done|].
      destruct HE as (q & Hq & Hval & Hin). split; [apply Hns; by exists q|by rewrite Hq].
    + rewrite filter_cons_False by done. rewrite decide_False; [done|]. intros [Hm Hin]. apply HE.
      apply Hns in Hm as (q & Hq & Hval). exists q. by rewrite Hq in Hin.
Qed.

(** The chunks hold exactly the eligible tickets, in order. *)
Lemma chunks_contents size limit empty p ts :
  NamesFit p ts → NoFilterPanic p ts.*1 →
  ∃ rs, chunks_of size limit empty p ts = Done rs ∧ rs ≠ [] ∧ Forall no_empty rs ∧
        ∀ m, parts m rs = filter (Eligible p m) ts.*1.
Proof.
  intros Hf Hp. destruct (tickets_all size limit empty p ts (Builder [] ∅ empty) Hf Hp) as (b & Hb & He & Ha).
  unfold chunks_of. rewrite Hb. eexists. split; [done|]. split; [by destruct (b_done b)|]. split.
  - apply He. unfold no_empties. simpl. constructor; [|constructor]. intros m l Hl. by rewrite lookup_empty in Hl.
  - intros m. etrans; [exact (Ha m)|]. unfold all_of. cbn [b_done b_cur]. by rewrite parts_app, parts_one.
Qed.

(** ** Sizes *)
Lemma weight_insert_new f n l (r : gmap string (list ticket)) :
  r !! n = None → weight f (<[n := l]> r) = foldr (λ t a, f t + a) 0 l + weight f r.
Proof.
  intros H. unfold weight. rewrite map_fold_insert_L; [done| |done].
  intros. lia.
Qed.
Lemma weight_delete f n l (r : gmap string (list ticket)) :
  r !! n = Some l → weight f r = foldr (λ t a, f t + a) 0 l + weight f (delete n r).
Proof. intros H. rewrite <-(insert_delete r n l H) at 1. apply weight_insert_new, lookup_delete. Qed.
Lemma weight_empty f : weight f ∅ = 0.
Proof. apply map_fold_empty. Qed.

Lemma sum_snoc (f : ticket → Z) l t : foldr (λ t a, f t + a) 0 (l ++ [t]) = foldr (λ t a, f t + a) 0 l + f t.
Proof. rewrite foldr_app. simpl. induction l as [|x l IH]; simpl; [lia|]. rewrite IH. lia. Qed.

Lemma weight_add f n t (r : gmap string (list ticket)) :
  weight f (<[n := default [] (r !! n) ++ [t]]> r) = weight f r + f t.
Proof.
  destruct (r !! n) as [l|] eqn:E; simpl.
  - rewrite <-insert_delete_insert, weight_insert_new by apply lookup_delete.
    rewrite sum_snoc, (weight_delete f n l r E). lia.
  - rewrite weight_insert_new by done. simpl. lia.
Qed.

Definition chunk_fits (size : ticket → Z) (limit empty : Z) (r : gmap string (list ticket)) : Prop :=
  empty + weight size r < limit ∨ entries r <= 1.

Definition sized (size : ticket → Z) (limit empty : Z) (b : builder) : Prop :=
  b_size b = empty + weight size (b_cur b) ∧ Forall (chunk_fits size limit empty) (b_done b ++ [b_cur b]).

Lemma add_sized size limit empty b n t :
  sized size limit empty b → sized size limit empty (add_ticket size limit empty b n t).
Proof.
  intros [Hs Hf]. unfold add_ticket, sized. destruct (limit <=? b_size b + size t) eqn:E; cbn [b_done b_cur b_size].
  - rewrite weight_add, weight_empty. split; [lia|]. apply Forall_app. split; [done|]. constructor; [|constructor].
    right. unfold entries. rewrite weight_add, weight_empty. lia.
  - rewrite weight_add. split; [lia|]. apply Forall_app in Hf as [Hf1 Hf2]. apply Forall_app. split; [done|].
    constructor; [|constructor]. left. rewrite weight_add. lia.
Qed.

Lemma pools_sized size limit empty p t ns : ∀ b b',
  chunk_pools size limit empty p t ns b = Done b' → sized size limit empty b → sized size limit empty b'.
Proof.
  induction ns as [|n ns IH]; intros b b' H Hs; cbn [chunk_pools] in H; [by simplify_eq|].
  destruct (filter_in _ _) as [[]|]; [|by eapply IH|done]. eapply IH; [done|]. by apply add_sized.
Qed.
Lemma tickets_sized size limit empty p ts : ∀ b b',
  chunk_tickets size limit empty p ts b = Done b' → sized size limit empty b → sized size limit empty b'.
Proof.
  induction ts as [|[t ns] ts IH]; intros b b' H Hs; cbn [chunk_tickets] in H; [by simplify_eq|].
  destruct (chunk_pools _ _ _ _ _ _ _) as [b1|] eqn:E; [|done]. eapply IH; [done|]. by eapply pools_sized.
Qed.

Lemma chunks_sized size limit empty p ts rs :
  chunks_of size limit empty p ts = Done rs → Forall (chunk_fits size limit empty) rs ∧ rs ≠ [].
Proof.
  unfold chunks_of. destruct (chunk_tickets _ _ _ _ _ _) as [b|] eqn:E; [|done]. intros [= <-].
  split; [|by destruct (b_done b)]. eapply tickets_sized in E as [_ H]; [done|].
  split; simpl; [rewrite weight_empty; lia|]. constructor; [|constructor]. right. unfold entries. rewrite weight_empty. lia.
Qed.

(** Everything fits into one chunk if the sum stays below the limit. *)
Definition no_new (size : ticket → Z) (limit : Z) (b : builder) (w : Z) : Prop := b_done b = [] ∧ b_size b + w < limit.

(** ** Number of chunks *)
Definition entry_count (rs : list rosters) : Z := foldr (λ r a, entries r + a) 0 rs.

Lemma add_count size limit empty b n t :
  Z.of_nat (length (b_done (add_ticket size limit empty b n t))) <= Z.of_nat (length (b_done b)) + 1.
Proof. unfold add_ticket. destruct (_ <=? _); cbn [b_done]; rewrite ?app_length; simpl; lia. Qed.

Lemma pools_count size limit empty p t ns : ∀ b b',
  chunk_pools size limit empty p t ns b = Done b' →
  Z.of_nat (length (b_done b')) <= Z.of_nat (length (b_done b)) + Z.of_nat (length ns).
Proof.
  induction ns as [|n ns IH]; intros b b' H; cbn [chunk_pools] in H; [simplify_eq; simpl; lia|].
  destruct (filter_in _ _) as [[]|]; [| |done]; apply IH in H; cbn [length].
  - pose proof (add_count size limit empty b n t). lia.
  - lia.
Qed.

Lemma tickets_count size limit empty p ts k : ∀ b b',
  (∀ t ns, (t, ns) ∈ ts → Z.of_nat (length ns) <= k) →
  chunk_tickets size limit empty p ts b = Done b' →
  Z.of_nat (length (b_done b')) <= Z.of_nat (length (b_done b)) + Z.of_nat (length ts) * k.
Proof.
  induction ts as [|[t ns] ts IH]; intros b b' Hk H; cbn [chunk_tickets] in H; [simplify_eq; simpl; lia|].
  destruct (chunk_pools _ _ _ _ _ _ _) as [b1|] eqn:E; [|done].
  apply IH in H; [|intros t' ns' Hin; apply (Hk t'); by right].
  apply pools_count in E. pose proof (Hk t ns ltac:(left)). cbn [length]. lia.
Qed.

Lemma chunks_count size limit empty p ts rs :
  NamesFit p ts → chunks_of size limit empty p ts = Done rs →
  Z.of_nat (length rs) <= 1 + Z.of_nat (length ts) * Z.of_nat (base.size (pr_pools p)).
Proof.
  unfold chunks_of. intros Hf. destruct (chunk_tickets _ _ _ _ _ _) as [b|] eqn:E; [|done]. intros [= <-].
  rewrite app_length. simpl. apply (tickets_count _ _ _ _ _ (Z.of_nat (base.size (pr_pools p)))) in E; [cbn [b_done length] in E; lia|].
  intros t ns Hin. destruct (names_fit_valid _ _ t ns Hf Hin) as [Hnd Hns].
  rewrite <-size_dom. rewrite <-(size_list_to_set (C := gset string) ns Hnd). apply inj_le, subseteq_size.
  intros n Hn. apply elem_of_list_to_set, Hns in Hn as (q & Hq & _). by eapply elem_of_dom_2.
Qed.

(** ** Re-assembling *)
Definition assembled (pools : gmap string pool) (rs : list rosters) : Prop :=
  ∀ n, pools !! n = match parts n rs with [] => None | l => Some (chunk_pool n l) end.

Lemma merge_pools_spec qs : ∀ (pools : gmap string pool) (old : string → list ticket) (r : gmap string (list ticket)),
  NoDup qs.*1 → (∀ n q, (n, q) ∈ qs → ∃ l, r !! n = Some l ∧ q = chunk_pool n l) →
  (∀ n, pools !! n = match old n with [] => None | l => Some (chunk_pool n l) end) → no_empty r →
  ∃ pools', merge_pools pools qs = Done pools' ∧
    ∀ n, pools' !! n = match old n ++ (if decide (n ∈ qs.*1) then part n r else []) with
                       | [] => None | l => Some (chunk_pool n l) end.
Proof.
  induction qs as [|[n q] qs IH]; intros pools old r Hnd Hq Hp Hne.
  - exists pools. split; [done|]. intros n. rewrite decide_False by (intros H; by apply elem_of_nil in H).
    by rewrite app_nil_r.
  - cbn [fmap list_fmap fst] in Hnd. apply NoDup_cons in Hnd as [Hn Hnd].
    destruct (Hq n q ltac:(left)) as (l & Hl & ->).
    pose proof (Hne n l Hl) as Hlne.
    assert (Hm : merge_pool pools n (chunk_pool n l) = Done (<[n := chunk_pool n (old n ++ l)]> pools)).
    { unfold merge_pool. rewrite Hp. destruct (old n) as [|t0 l0] eqn:Ho; [done|]. done. }
    cbn [merge_pools]. rewrite Hm.
    destruct (IH (<[n := chunk_pool n (old n ++ l)]> pools) (λ m, if decide (m = n) then old n ++ l else old m) r Hnd)
      as (pools' & Hpools' & Hlk).
    { intros m q' Hin. apply Hq. by right. }
    { intros m. simpl. destruct (decide (m = n)) as [->|Hmn].
      - rewrite lookup_insert. destruct (old n ++ l) eqn:E; [|done]. apply app_eq_nil in E as [_ ->]. done.
      - rewrite lookup_insert_ne by done. apply Hp. }
    { done. }
    exists pools'. split; [done|]. intros m. rewrite Hlk. cbn [fmap list_fmap fst].
    destruct (decide (m = n)) as [->|Hmn].
    + rewrite decide_False by done. rewrite decide_True by left. rewrite app_nil_r. unfold part. by rewrite Hl.
    + destruct (decide (m ∈ qs.*1)) as [H|H]; [rewrite decide_True by by right|rewrite decide_False]; [done|done|].
      intros [Hc|Hc]%elem_of_cons; done.
Qed.

Lemma chunk_pools_lookup p k r n : pr_pools (ch_profile (chunk_request p k r)) !! n = chunk_pool n <$> r !! n.
Proof. unfold chunk_request. cbn [ch_profile pr_pools]. rewrite map_lookup_imap. by destruct (r !! n). Qed.

Lemma merge_chunk p k r qs pools rs :
  qs ≡ₚ map_to_list (pr_pools (ch_profile (chunk_request p k r))) → no_empty r → assembled pools rs →
  ∃ pools', merge_pools pools qs = Done pools' ∧ assembled pools' (rs ++ [r]).
Proof.
  intros Hqs Hr Ha.
  destruct (merge_pools_spec qs pools (λ n, parts n rs) r) as (pools' & H1 & H2); try done.
  - rewrite Hqs. apply NoDup_fst_map_to_list.
  - intros n q Hin. rewrite Hqs in Hin. apply elem_of_map_to_list in Hin. rewrite chunk_pools_lookup in Hin.
    destruct (r !! n) as [l|]; [|discriminate Hin]. injection Hin as <-. by exists l.
  - exists pools'. split; [done|]. intros n. rewrite H2, parts_app, parts_one. case_decide as Hd; [done|].
    assert (part n r = []) as ->; [|done]. unfold part. destruct (r !! n) as [l|] eqn:E; [|done]. exfalso. apply Hd.
    rewrite Hqs. apply elem_of_list_fmap. exists (n, chunk_pool n l). split; [done|].
    apply elem_of_map_to_list. by rewrite chunk_pools_lookup, E.
Qed.

Lemma wrap32_small z : 0 <= z < 2 ^ 31 → wrap32 z = z.
Proof. intros H. unfold wrap32. rewrite Z.mod_small; lia. Qed.

Lemma get_chunked_spec p k cs : ∀ i pools done_rs rs,
  assembled pools done_rs → Forall no_empty rs → rs ≠ [] →
  cs.*1 = map (chunk_request p k) rs → pool_orders_fit cs →
  Z.of_nat k < 2 ^ 31 → i = Z.of_nat (length done_rs) + 1 → (length done_rs + length rs = k)%nat →
  ∃ pools', get_chunked i pools cs = Done (Received (Profile (pr_name p) pools' (pr_ext p))) ∧
            assembled pools' (done_rs ++ rs).
Proof.
  induction cs as [|[c qs] cs IH]; intros i pools drs rs Ha Hne Hnil Hcs Hfit Hk Hi Hlen.
  - destruct rs; [done|]. done.
  - destruct rs as [|r rs]; [done|]. cbn [fmap list_fmap fst map] in Hcs. injection Hcs as Hc Hcs.
    apply Forall_cons in Hfit as [Hq Hfit]. apply Forall_cons in Hne as [Hr Hne]. cbn [fst snd] in Hq.
    rewrite Hc in Hq. destruct (merge_chunk p k r qs pools drs Hq Hr Ha) as (pools' & Hm & Ha').
    cbn [get_chunked]. replace (i <? 0) with false by lia. rewrite Hm, Hc.
    cbn [chunk_request ch_num ch_profile pr_name pr_ext]. rewrite wrap32_small by lia.
    cbn [length] in Hlen.
    destruct (Z.of_nat k =? i) eqn:E.
    + destruct rs as [|r' rs]; [|simpl in Hlen; lia]. exists pools'. done.
    + destruct rs as [|r' rs].
      { simpl in Hlen. lia. }
      rewrite wrap32_small by (simpl in Hlen; lia).
      destruct (IH (i + 1) pools' (drs ++ [r]) (r' :: rs)) as (pools'' & H1 & H2); try done.
      * rewrite app_length. simpl. lia.
      * rewrite app_length. simpl in *. lia.
      * exists pools''. split; [done|]. by rewrite <-app_assoc in H2.
Qed.

(** C36 *)
Lemma chunks_round_trip size limit empty p ts cs :
  NamesFit p ts → NoFilterPanic p ts.*1 →
  1 + Z.of_nat (length ts) * Z.of_nat (base.size (pr_pools p)) < 2 ^ 31 →
  (∀ rs, chunks_of size limit empty p ts = Done rs → cs.*1 = requests_of p rs) → pool_orders_fit cs →
  ∃ pools, get_chunked_request cs = Done (Received (Profile (pr_name p) pools (pr_ext p))) ∧
    ∀ n, pools !! n = match filter (Eligible p n) ts.*1 with [] => None | l => Some (chunk_pool n l) end.
Proof.
  intros Hf Hp Hlen Hcs Hfit.
  destruct (chunks_contents size limit empty p ts Hf Hp) as (rs & Hrs & Hnil & Hne & Hparts).
  pose proof (chunks_count _ _ _ _ _ _ Hf Hrs) as Hcount. specialize (Hcs rs Hrs).
  destruct (get_chunked_spec p (length rs) cs 1 ∅ [] rs) as (pools & H1 & H2); try done; try lia.
  exists pools. split; [done|]. intros n. rewrite H2. simpl. by rewrite Hparts.
Qed.
