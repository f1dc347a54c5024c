(** Lemmas for C99 - C103. *)
From Coq Require Import Ascii String ZArith NArith Lia Relations.
From stdpp Require Import prelude strings gmap relations.
From Verif.Model Require Import GoStrings Types Filter Wire Proto Cache Replica Handlers Invoke Chunk Mmf Samples System RedisSystem MockFrontend.
From Verif.Spec Require Import HandlerSpec ChunkSpec SystemSpec MmfSpec EndToEndSpec SampleSpec InvokeSpec MockSpec.
From Verif.Proofs Require Import StringLemmas MiscLemmas MmfLemmas EndToEndLemmas EndToEndMem EndToEndRedis SampleLemmas.
Local Open Scope string_scope.
Local Open Scope nat_scope.

(** ** Tickets *)
Lemma digit_ascii c : is_digit c = true → in_range 0 127 c = true.
Proof. intros H. destruct c as [[] [] [] [] [] [] [] []]; (reflexivity || discriminate H). Qed.
Lemma digits_utf8 s : all_digits s = true → utf8_valid s = true.
Proof.
  induction s as [|c s IH]; [done|]. intros H. change (is_digit c && all_digits s = true) in H.
  apply andb_true_iff in H as [Hc Hs].
  change (utf8_valid (String c s)) with (if in_range 0 127 c then utf8_valid s else
    match s with
    | "" => false
    | String c1 s2 =>
        if in_range 194 223 c then cont_byte c1 && utf8_valid s2
        else match s2 with
        | "" => false
        | String c2 s3 =>
            if in_range 224 239 c then
              (if in_range 224 224 c then in_range 160 191 c1
               else if in_range 237 237 c then in_range 128 159 c1
               else cont_byte c1) && cont_byte c2 && utf8_valid s3
            else match s3 with
            | "" => false
            | String c3 s4 =>
                if in_range 240 244 c then
                  (if in_range 240 240 c then in_range 144 191 c1
                   else if in_range 244 244 c then in_range 128 143 c1
                   else cont_byte c1) && cont_byte c2 && cont_byte c3 && utf8_valid s4
                else false
            end
        end
    end).
  rewrite (digit_ascii c Hc). by apply IH.
Qed.
Lemma format_Z_utf8 z : utf8_valid (format_Z z) = true.
Proof.
  unfold format_Z. destruct (z <? 0)%Z.
  - change ("-" +:+ format_N (Z.to_N (- z))) with (String "-" (format_N (Z.to_N (- z)))).
    exact (digits_utf8 _ (format_N_digits _)).
  - exact (digits_utf8 _ (format_N_digits _)).
Qed.

Lemma mock_class_cases r : mock_class r = "tank" ∨ mock_class r = "healer" ∨ mock_class r = "dps".
Proof. unfold mock_class. destruct (r + 1 =? 1)%Z; [by left|]. destruct (r + 1 =? 2)%Z; auto. Qed.

Lemma mock_client_ok req : MockTicket req → ClientTicketOk req.
Proof.
  intros (t & d & r & _ & Hd & _ & ->). repeat split.
  - cbn in H. apply lookup_singleton_Some in H as [_ <-]. exact Hd.
  - cbn in H. apply lookup_singleton_Some in H as [<- _]. apply format_Z_utf8.
  - cbn in H. apply lookup_singleton_Some in H as [<- _]. reflexivity.
  - cbn in H. apply lookup_singleton_Some in H as [_ <-]. destruct (mock_class_cases r) as [->|[-> | ->]]; reflexivity.
  - intros s Hs. cbn in Hs. apply elem_of_list_singleton in Hs as ->. apply format_Z_utf8.
  - exfalso. revert H. clear. change ((∅ : gmap string any) !! k ≠ Some a). by rewrite lookup_empty.
  - exfalso. revert H. clear. change ((∅ : gmap string any) !! k ≠ Some a). by rewrite lookup_empty.
Qed.

Lemma class_pool_in n a : filter_in (Some (class_pool n)) (Some a) = Done true ↔ fd_strings a !! "class" = Some n.
Proof.
  unfold filter_in, class_pool. cbn [po_double_filters po_string_filters po_tag_filters in_doubles in_tags].
  change (in_time (Pool n [] [("class", n)] [] None None ∅) (Some a)) with true. cbn [negb in_strings fst snd].
  destruct (fd_strings a !! "class") as [v|]; [|split; discriminate]. destruct (bool_decide (n = v)) eqn:E.
  - apply bool_decide_eq_true in E as ->. done.
  - apply bool_decide_eq_false in E. split; [discriminate|]. intros [= <-]. done.
Qed.
Lemma example_pool n q : pr_pools example_profile !! n = Some q ↔ n ∈ ["tank"; "dps"; "healer"] ∧ q = class_pool n.
Proof.
  cbn [pr_pools example_profile]. rewrite !lookup_insert_Some, lookup_singleton_Some.
  rewrite !elem_of_cons, elem_of_nil. split.
  - intros [[<- <-]|[_ [[<- <-]|[_ [<- <-]]]]]; auto 10.
  - intros [[-> |[-> |[-> |[]]]] ->]; [by left|right..]; (split; [done|]); [by left|right; split; done].
Qed.
Lemma example_eligible n t : Eligible example_profile n t ↔ n ∈ ["tank"; "dps"; "healer"] ∧
  ∃ q, q = class_pool n ∧ filter_in (Some q) (tk_attrs t) = Done true.
Proof.
  unfold Eligible. split.
  - intros (q & Hq & _ & Hin). apply example_pool in Hq as [Hn ->]. eauto.
  - intros [Hn (q & -> & Hin)]. exists (class_pool n). split; [by apply example_pool|]. split; [reflexivity|done].
Qed.

Lemma mock_eligible ttl now id req t : MockTicket req → StoredAs ttl now id req t →
  ∃ c, c ∈ ["tank"; "healer"; "dps"] ∧ ClassOf t c ∧ ∀ n, Eligible example_profile n t ↔ n = c.
Proof.
  intros (t0 & d & r & _ & _ & _ & ->) (_ & _ & a & cr & ex & z & Ha & _ & Hs & _). cbn in Hs.
  assert (fd_strings a !! "class" = Some (mock_class r)) as Hc by (rewrite Hs; apply lookup_singleton).
  exists (mock_class r). split; [destruct (mock_class_cases r) as [-> |[-> | ->]]; repeat constructor|].
  split; [by exists a|]. intros n. rewrite example_eligible. rewrite Ha. setoid_rewrite class_pool_in || idtac. split.
  - intros [_ (q & -> & H)]. apply class_pool_in in H. congruence.
  - intros ->. split.
    + rewrite !elem_of_cons. destruct (mock_class_cases r) as [-> |[-> | ->]]; auto 10.
    + eexists. split; [done|]. by apply class_pool_in.
Qed.

Lemma mock_valid {S} cfg (x : inst S) : MockCreates cfg x → ValidCreates cfg x.
Proof. intros H cl v Hcl Hc. destruct (H cl v Hcl Hc) as (now & req & _ & Hcc). eauto. Qed.

Definition one_pool (ts : list ticket) : Prop := ∀ t, t ∈ ts → ∃ c, c ∈ ["tank"; "healer"; "dps"] ∧ ClassOf t c ∧
  ∀ n, Eligible example_profile n t ↔ n = c.

Lemma mem_one_pool cfg t0 s1 s2 ts :
  (0 <= t0)%Z → SaneTTL (cfg_ticket_ttl cfg) → mreach cfg t0 s1 → rtc (mstep cfg) s1 s2 →
  MockCreates cfg (ms_inst s2) → SnapshotBetween cfg (ms_inst s1) (ms_inst s2) ts → one_pool ts.
Proof.
  intros H0 Httl Hr Hr12 Hv Hs t Ht.
  destruct (mem_snapshot_source _ _ _ _ _ _ H0 Hr Hr12 Hs Ht) as (i & cl & v & Hcl & Hc & Et & _).
  destruct (Hv cl v (elem_of_list_lookup_2 _ _ _ Hcl) Hc) as (now & req & Hm & Hcc).
  destruct (create_call_stored _ _ _ _ v (tk_id t) Httl Hcc Hc) as [Hst _]. rewrite <-Et in Hst.
  exact (mock_eligible _ _ _ _ _ Hm Hst).
Qed.
Lemma red_one_pool cfg s1 s2 n x1 x2 ts :
  SaneTTL (cfg_ticket_ttl cfg) →
  yreach cfg s1 → rtc (ystep cfg) s1 s2 → ry_insts s1 !! n = Some x1 → ry_insts s2 !! n = Some x2 →
  AllMockCreates cfg s2 → SnapshotBetween cfg (rx_inst x1) (rx_inst x2) ts → one_pool ts.
Proof.
  intros Httl Hr Hr12 Hx1 Hx2 Hv Hs t Ht.
  destruct (red_snapshot_source _ _ _ _ _ _ _ _ Hr Hr12 Hx1 Hx2 Hs Ht) as (m & y & i & cl & v & Hy & Hcl & Hc & Et & _).
  destruct (Hv m y Hy cl v (elem_of_list_lookup_2 _ _ _ Hcl) Hc) as (now & req & Hm & Hcc).
  destruct (create_call_stored _ _ _ _ v (tk_id t) Httl Hcc Hc) as [Hst _]. rewrite <-Et in Hst.
  exact (mock_eligible _ _ _ _ _ Hm Hst).
Qed.

Lemma one_pool_distinct ts f ms :
  one_pool ts → NoFilterPanic example_profile ts → CountFits example_profile ts → NoDup (map tk_id ts) →
  SampleOutcome example_profile ts f None (Done ms) → NoDup (map tk_id (RunTickets ms)).
Proof.
  intros H1 Hp Hf Hnd Ho. refine (sample_distinct _ _ _ _ Hp Hf Hnd _ Ho).
  intros t n n' Ht _ _ He He'. destruct (H1 t Ht) as (c & _ & _ & Hc). apply Hc in He, He'. congruence.
Qed.

Lemma mem_players cfg t0 s1 s2 ts f o :
  (0 <= t0)%Z → SaneTTL (cfg_ticket_ttl cfg) → mreach cfg t0 s1 → rtc (mstep cfg) s1 s2 →
  MockCreates cfg (ms_inst s2) → SnapshotBetween cfg (ms_inst s1) (ms_inst s2) ts → CountFits example_profile ts →
  SampleOutcome example_profile ts f None o →
  one_pool ts ∧ ∃ ms, o = Done ms ∧ NoDup (map tk_id (RunTickets ms)).
Proof.
  intros H0 Httl Hr Hr12 Hv Hs Hf Ho. pose proof (mem_one_pool _ _ _ _ _ H0 Httl Hr Hr12 Hv Hs) as H1. split; [done|].
  assert (Hp : NoFilterPanic example_profile ts).
  { eapply mem_no_filter_panic; [done|done|done|done|by apply mock_valid|done]. }
  destruct (sample_runs _ _ _ _ Hp Hf Ho) as [ms ->]. exists ms. split; [done|].
  refine (one_pool_distinct ts f ms H1 Hp Hf _ Ho). by eapply mem_snapshot_nodup.
Qed.
Lemma red_players cfg s1 s2 n x1 x2 ts f o :
  SaneTTL (cfg_ticket_ttl cfg) →
  yreach cfg s1 → rtc (ystep cfg) s1 s2 → ry_insts s1 !! n = Some x1 → ry_insts s2 !! n = Some x2 →
  AllMockCreates cfg s2 → SnapshotBetween cfg (rx_inst x1) (rx_inst x2) ts → CountFits example_profile ts →
  SampleOutcome example_profile ts f None o →
  one_pool ts ∧ ∃ ms, o = Done ms ∧ NoDup (map tk_id (RunTickets ms)).
Proof.
  intros Httl Hr Hr12 Hx1 Hx2 Hv Hs Hf Ho. pose proof (red_one_pool _ _ _ _ _ _ _ Httl Hr Hr12 Hx1 Hx2 Hv Hs) as H1. split; [done|].
  assert (Hp : NoFilterPanic example_profile ts).
  { refine (red_no_filter_panic cfg s1 s2 n x1 x2 ts _ Httl Hr Hr12 Hx1 Hx2 _ Hs).
    intros m x Hx. apply mock_valid. exact (Hv m x Hx). }
  destruct (sample_runs _ _ _ _ Hp Hf Ho) as [ms ->]. exists ms. split; [done|].
  refine (one_pool_distinct ts f ms H1 Hp Hf _ Ho). exact (red_snapshot_nodup cfg s1 n x1 _ ts Hr Hx1 Hs).
Qed.

(** ** C100 *)
Lemma not_competitive t : ¬ Eligible example_profile "competitive" t.
Proof. intros (q & Hq & _). apply example_pool in Hq as [Hq _]. rewrite !elem_of_cons, elem_of_nil in Hq. naive_solver. Qed.
Lemma royale_nothing ts ms :
  NoFilterPanic example_profile ts → CountFits example_profile ts →
  SampleOutcome example_profile ts Royale None (Done ms) → ms = [].
Proof.
  intros Hp Hf Ho. destruct (sample_whole _ _ _ _ Hp Hf Ho) as (pools & show & clock & ps & [= ->] & Hps & HP).
  cbn [run_matches]. specialize (HP "competitive").
  assert (filter (Eligible example_profile "competitive") ts = []) as E.
  { clear -ts. induction ts as [|t ts IH]; [done|]. rewrite filter_cons_False; [exact IH|]. apply not_competitive. }
  rewrite E in HP.
  match goal with |- battleroyale ?x ?y = [] => pose proof (battleroyale_groups x y) as (ls & H1 & _ & H2 & _) end.
  rewrite HP in H2. change (length ls = 0) in H2. apply nil_length_inv in H2 as ->. by inversion H1.
Qed.
Lemma solo_some ts ms t t' c c' : 
  NoFilterPanic example_profile ts → CountFits example_profile ts →
  t ∈ ts → t' ∈ ts → t ≠ t' → Eligible example_profile c t → Eligible example_profile c' t' →
  SampleOutcome example_profile ts Solo None (Done ms) → ms ≠ [].
Proof.
  intros Hp Hf Ht Ht' Hne Hc Hc' Ho ->.
  assert (length [t; t'] ≤ 1) as Hl; [|cbn in Hl; lia].
  apply (solo_leaves _ _ _ [t; t'] Hp Hf Ho).
  - apply NoDup_cons. split; [|apply NoDup_singleton]. intros H. by apply elem_of_list_singleton in H.
  - intros x. rewrite !elem_of_cons, elem_of_nil. intros [-> |[-> |[]]].
    + split; [done|]. split; [by exists c|]. apply not_elem_of_nil.
    + split; [done|]. split; [by exists c'|]. apply not_elem_of_nil.
Qed.
Lemma team_some ts ms :
  NoFilterPanic example_profile ts → CountFits example_profile ts →
  2 ≤ length (filter (Eligible example_profile "tank") ts) → 2 ≤ length (filter (Eligible example_profile "healer") ts) →
  6 ≤ length (filter (Eligible example_profile "dps") ts) →
  SampleOutcome example_profile ts Team None (Done ms) → ms ≠ [].
Proof.
  intros Hp Hf H1 H2 H3 Ho ->. destruct (team_matches _ _ _ Hp Hf Ho) as [E _]. cbn [length] in E.
  pose proof (Nat.div_le_mono _ _ 2 ltac:(lia) H1) as D1. pose proof (Nat.div_le_mono _ _ 2 ltac:(lia) H2) as D2.
  pose proof (Nat.div_le_mono _ _ 6 ltac:(lia) H3) as D3.
  change (2 `div` 2) with 1 in *. change (6 `div` 6) with 1 in D3. change (1 ≤ length (filter (Eligible example_profile "tank") ts) `div` 2) in D1.
  revert E D1 D2 D3. generalize (length (filter (Eligible example_profile "tank") ts) `div` 2)
    (length (filter (Eligible example_profile "healer") ts) `div` 2) (length (filter (Eligible example_profile "dps") ts) `div` 6).
  intros a b c. assert (1 ≤ Z.to_nat 100000) as HZ by lia. revert HZ. generalize (Z.to_nat 100000). lia.
Qed.

(** ** C101 *)
Lemma sort_matches_spec ms : ∀ acc rej,
  sort_matches ms acc rej = ((acc ++ (filter (λ x, rejects x.2 = false) ms).*1)%list, (rej ++ (filter (λ x, rejects x.2 = true) ms).*1)%list).
Proof.
  induction ms as [|[m r] ms IH]; intros acc rej; cbn [sort_matches]; [by rewrite !app_nil_r|].
  rewrite !filter_cons. cbn [snd]. destruct (rejects r) eqn:E; rewrite IH.
  - rewrite decide_False by congruence. rewrite decide_True by done. rewrite fmap_cons. cbn [fst]. by rewrite <-app_assoc.
  - rewrite decide_True by done. rewrite decide_False by congruence. rewrite fmap_cons. cbn [fst]. by rewrite <-app_assoc.
Qed.

Lemma sort_matches_parts ms acc rej : sort_matches ms [] [] = (acc, rej) →
  acc = (filter (λ x, rejects x.2 = false) ms).*1 ∧ rej = (filter (λ x, rejects x.2 = true) ms).*1 ∧
  (acc ++ rej)%list ≡ₚ ms.*1.
Proof.
  rewrite sort_matches_spec. intros [= <- <-]. split; [done|]. split; [done|]. cbn [app]. clear acc rej || idtac.
  induction ms as [|[m r] ms IH]; [done|]. rewrite !filter_cons, fmap_cons. cbn [fst snd]. destruct (rejects r) eqn:E.
  - rewrite decide_False by congruence. rewrite decide_True by done. rewrite fmap_cons. cbn [fst]. rewrite <-Permutation_middle. by constructor.
  - rewrite decide_True by done. rewrite decide_False by congruence. rewrite fmap_cons. cbn [fst]. cbn [app]. by constructor.
Qed.
Lemma rejects_spec r : (0 <= r)%Z → rejects r = true ↔ r = 0%Z ∨ r = 1%Z.
Proof. unfold rejects. rewrite Z.leb_le. lia. Qed.

Lemma requeued_exact rej ids : RequeuedIds rej ids → ∀ id, id ∈ ids ↔ ∃ m, m ∈ rej ∧ TicketIn m id.
Proof.
  intros (idss & H & ->) id. induction H as [|m is rej idss Hm _ IH]; cbn [concat].
  { split; [intros Hx; by apply elem_of_nil in Hx|intros (m & Hx & _); by apply elem_of_nil in Hx]. }
  rewrite elem_of_app, IH. assert (id ∈ is ↔ TicketIn m id) as ->.
  { clear IH. destruct m as [m|]; cbn in Hm.
    - destruct Hm as (l & Hl & ->). rewrite elem_of_list_In, in_concat. setoid_rewrite in_map_iff. split.
      + intros (x & ([n r] & <- & Hin) & Hid). apply in_map_iff in Hid as (t & <- & Ht).
        exists m, n, r, t. split; [done|]. apply elem_of_list_In in Hin. rewrite Hl in Hin. apply elem_of_map_to_list in Hin.
        split; [done|]. split; [by apply elem_of_list_In|done].
      + intros (m' & n & r & t & [= <-] & Hr & Ht & <-). exists (map tk_id (ro_tickets r)). split.
        * exists (n, r). split; [done|]. apply elem_of_list_In. rewrite Hl. by apply elem_of_map_to_list.
        * apply in_map. by apply elem_of_list_In.
    - subst is. split; [intros Hx; by apply elem_of_nil in Hx|]. by intros (m' & n & r & t & H & _). }
  setoid_rewrite elem_of_cons. naive_solver.
Qed.

(** ** C102 *)
Lemma proxy_valid replies : (∀ id, Some id ∈ replies → valid_ticket_id id = true) →
  valid_ids (map proxy_create replies) = omap id replies.
Proof.
  unfold valid_ids. induction replies as [|[i|] rs IH]; intros H; [done|..].
  - cbn [map proxy_create]. rewrite filter_cons_True by (apply H; left). cbn [omap list_omap id].
    rewrite IH; [done|]. intros x Hx. apply H. by right.
  - cbn [map proxy_create]. rewrite filter_cons_False by (vm_compute; discriminate). cbn [omap list_omap id].
    apply IH. intros x Hx. apply H. by right.
Qed.
Lemma mock_activation cfg replies : (∀ id, Some id ∈ replies → valid_ticket_id id = true) →
  (1 <= Z.of_nat (length replies) <= cfg_max_updates cfg)%Z →
  activate_start cfg (map proxy_create replies) = Send (map (λ id, Update CmdActivate id "") (omap id replies)).
Proof.
  intros Hv Hl. unfold activate_start, set_active_start. rewrite map_length. rewrite proxy_valid by done.
  destruct (Z.eqb_spec (Z.of_nat (length replies)) 0); [lia|].
  destruct (Z.ltb_spec (cfg_max_updates cfg) (Z.of_nat (length replies))); [lia|]. reflexivity.
Qed.
Lemma target_iff conn omhost : call_target conn omhost = omhost ↔ conn = "grpc" ∨ omhost = "localhost:58081".
Proof.
  unfold call_target. destruct (String.eqb_spec conn "grpc"); split; auto.
  intros [?|?]; [done|]. congruence.
Qed.

Lemma mock_queued : proxy_create None = "" ∧ ∀ id, proxy_create (Some id) = id.
Proof. done. Qed.

(** ** What a player asks for *)
Lemma mock_request t d r : (- 2 ^ 63 <= t < 2 ^ 63)%Z → (0 <= r < 5)%Z →
  PlayerRequest t d (if (r =? 0)%Z then "tank" else if (r =? 1)%Z then "healer" else "dps") (mock_ticket t d r).
Proof.
  intros Ht Hr. assert (wrap64 t = t) as Hw.
  { unfold wrap64. rewrite Z.mod_small; lia. }
  unfold PlayerRequest, mock_ticket. rewrite Hw. cbn [tk_id tk_exp tk_ext tk_attrs].
  do 3 (split; [done|]). eexists. split; [done|]. cbn [fd_tags fd_strings fd_doubles fd_ctime].
  split; [done|]. split.
  { unfold mock_class. destruct (Z.eqb_spec r 0), (Z.eqb_spec (r + 1) 1), (Z.eqb_spec r 1), (Z.eqb_spec (r + 1) 2); try done; lia. }
  split; [done|]. exists (ts_new t). split; [done|]. unfold ts_new, giga. cbn [ts_seconds ts_nanos].
  pose proof (Z.div_mod t 1000000000 ltac:(lia)). pose proof (Z.mod_pos_bound t 1000000000 ltac:(lia)). lia.
Qed.
