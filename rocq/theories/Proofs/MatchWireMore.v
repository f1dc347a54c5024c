(** Proofs about Model/MatchWire.v: whole runs, and accepted tickets that are too
    large. *)
From Coq Require Import Ascii String ZArith NArith Lia.
From stdpp Require Import prelude strings gmap.
From Verif.Model Require Import GoStrings Types Wire Proto Filter Chunk Cache Handlers.
From Verif.Spec Require Import ChunkSpec.
From Verif.Proofs Require Import StringLemmas ChunkLemmas ChunkMore ChunkWitness.
From Verif.Model Require Import ProtoMsg FnWire Mmf Samples MatchWire.
From Verif.Spec Require Import FnWireSpec MmfSpec SampleSpec.
From Verif.Proofs Require Import WireLemmas ProtoLemmas ProtoMsgLemmas ProtoMsgMore FnWireLemmas MmfLemmas SampleLemmas MockLemmas.
From Verif.Spec Require Import MatchWireSpec.
From Verif.Proofs Require Import MatchWireLemmas.
Local Open Scope string_scope.
Local Open Scope list_scope.
Local Open Scope Z_scope.

(** ** Numbers as text *)

Lemma size_nat_le k p : (N.pos p < 2 ^ N.of_nat k)%N → (Pos.size_nat p ≤ k)%nat.
Proof.
  revert k. induction p as [p IH|p IH|]; intros k H; cbn [Pos.size_nat].
  - destruct k as [|k]; [change (2 ^ N.of_nat 0)%N with 1%N in H; lia|].
    rewrite Nat2N.inj_succ, N.pow_succ_r' in H. specialize (IH k ltac:(lia)). lia.
  - destruct k as [|k]; [change (2 ^ N.of_nat 0)%N with 1%N in H; lia|].
    rewrite Nat2N.inj_succ, N.pow_succ_r' in H. specialize (IH k ltac:(lia)). lia.
  - destruct k as [|k]; [change (2 ^ N.of_nat 0)%N with 1%N in H; lia|]. lia.
Qed.
Lemma fmt_fuel_len fuel : ∀ n acc, (String.length (fmt_fuel fuel n acc) ≤ fuel + String.length acc)%nat.
Proof.
  induction fuel as [|fuel IH]; intros n acc; cbn [fmt_fuel]; [lia|].
  destruct (n <? 10)%N; cbn [String.length]; [lia|]. specialize (IH (n / 10)%N (String (digit_char (n mod 10)) acc)).
  cbn [String.length] in IH. lia.
Qed.
Lemma format_N_len n : (n < 2 ^ 31)%N → (String.length (format_N n) ≤ 32)%nat.
Proof.
  intros H. unfold format_N. etrans; [apply fmt_fuel_len|]. cbn [String.length].
  destruct n as [|p]; cbn [N.size_nat]; [lia|]. pose proof (size_nat_le 31 p H). lia.
Qed.
Lemma zeros_len n : String.length (zeros n) = n.
Proof. induction n as [|n IH]; cbn; [done|]. by rewrite IH. Qed.
Lemma format_pad_len w n : (n < 2 ^ 31)%N → (String.length (format_pad w n) ≤ 32 + w)%nat.
Proof.
  intros H. unfold format_pad. rewrite app_length_s, zeros_len. pose proof (format_N_len n H). lia.
Qed.
Lemma zeros_digits n : all_digits (zeros n) = true.
Proof. induction n as [|n IH]; [done|]. cbn. exact IH. Qed.
Lemma format_pad_utf8 w n : utf8_valid (format_pad w n) = true.
Proof. apply utf8_valid_app; apply digits_utf8; [apply zeros_digits|apply format_N_digits]. Qed.

Lemma match_id_utf8 f t n : utf8_valid t = true → utf8_valid (match_id (sample_name f) t n) = true.
Proof.
  intros Ht. unfold match_id. apply utf8_valid_app; [done|]. apply utf8_valid_app; [by destruct f|].
  apply utf8_valid_app; [done|]. apply utf8_valid_app; [done|]. apply utf8_valid_app; [done|].
  apply digits_utf8, format_N_digits.
Qed.
Lemma match_id_len f t n : (n < 2 ^ 31)%N → slenZ (match_id (sample_name f) t n) <= 82 + slenZ t.
Proof.
  intros Hn. unfold match_id. rewrite !app_length_s. pose proof (format_N_len n Hn).
  assert (String.length (sample_name f) ≤ 30)%nat by (destruct f; cbn; lia).
  change (String.length "profile-") with 8%nat. change (String.length "-time-") with 6%nat.
  change (String.length "-num-") with 5%nat. lia.
Qed.
Lemma roster_name_utf8 f n : utf8_valid (roster_name (sample_name f) n) = true.
Proof.
  unfold roster_name. apply utf8_valid_app; [by destruct f|]. apply utf8_valid_app; [done|]. apply format_pad_utf8.
Qed.
Lemma roster_name_len f n : (n < 2 ^ 31)%N → slenZ (roster_name (sample_name f) n) <= 73.
Proof.
  intros Hn. unfold roster_name. rewrite !app_length_s. pose proof (format_pad_len 4 n Hn).
  assert (String.length (sample_name f) ≤ 30)%nat by (destruct f; cbn; lia).
  change (String.length "_roster") with 7%nat. lia.
Qed.

(** ** The shape of a match *)

Definition players (f : sample) : nat := match f with Solo => 2 | Royale => 100 | Team => 5 end.
Definition shape (f : sample) (show : Z → string) (clock : N → instant) (i : nat) (m : match_) : Prop :=
  (∃ k, ma_id m = match_id (sample_name f) (stamp show (clock k)) (N.of_nat i)) ∧
  match f with
  | Solo | Royale =>
      ∃ l, let rn := roster_name (sample_name f) (N.of_nat i) in
           ma_rosters m = {[rn := Roster rn None l ∅]} ∧ length l = players f
  | Team =>
      ∃ l1 l2, ma_rosters m = {["team01" := Roster "team01" None l1 ∅; "team02" := Roster "team02" None l2 ∅]} ∧
               length l1 = players f ∧ length l2 = players f
  end.

Lemma solo_shape t ts : ∀ ps num i m, (length ps < 2)%nat → solo_loop t ps num ts !! i = Some m →
  ∃ l, m = single_match solo_name t (num + N.of_nat i) l ∧ length l = 2%nat.
Proof.
  induction ts as [|x ts IH]; intros ps num i m Hp H; cbn [solo_loop] in H; [done|].
  destruct (_ <=? _)%nat eqn:E.
  - apply Nat.leb_le in E. rewrite app_length in E. cbn [length] in E. destruct i as [|i].
    + cbn in H. injection H as <-. rewrite N.add_0_r. eexists. split; [done|]. rewrite app_length. cbn [length].
      unfold solo_players in E. lia.
    + cbn in H. destruct (IH [] (num + 1)%N i m ltac:(cbn; lia) H) as (l & -> & Hl). exists l. split; [|done].
      f_equal. lia.
  - apply Nat.leb_gt in E. by apply (IH (ps ++ [x]) num i m).
Qed.
Lemma royale_shape t ts fuel : ∀ j num i m, royale_loop fuel t j num ts !! i = Some m →
  ∃ l, m = single_match royale_name t (num + N.of_nat i) l ∧ length l = 100%nat.
Proof.
  induction fuel as [|fuel IH]; intros j num i m H; cbn [royale_loop] in H; [done|].
  destruct (_ <=? _)%nat eqn:E; [|done]. apply Nat.leb_le in E. destruct i as [|i].
  - cbn [lookup list_lookup] in H. injection H as <-. rewrite N.add_0_r. eexists. split; [done|].
    rewrite take_length, drop_length. unfold royale_players in *. lia.
  - destruct (IH (j + royale_players)%nat (num + 1)%N i m H) as (l & -> & Hl). exists l. split; [|done]. f_equal. lia.
Qed.
Lemma team_number_len a b c j l : TeamNumber a b c j l → length l = 5%nat.
Proof. unfold TeamNumber. intros H. apply (f_equal length) in H. rewrite map_length in H. exact H. Qed.

Lemma run_shape f show clock ps pools i m : run_matches f show clock ps pools !! i = Some m → shape f show clock i m.
Proof.
  intros H. destruct f; cbn [run_matches] in H; unfold shape; cbn [players].
  - destruct (solo_shape _ _ [] 0 i m ltac:(cbn; lia) H) as (l & -> & Hl). cbn [ma_id ma_rosters single_match].
    rewrite N.add_0_l. split; [by exists 0%N|]. by exists l.
  - destruct (royale_shape _ _ _ _ _ _ _ H) as (l & -> & Hl). cbn [ma_id ma_rosters single_match].
    rewrite N.add_0_l. split; [by exists 0%N|]. by exists l.
  - split.
    + exists (0 + N.of_nat i)%N. exact (team_numbered _ _ _ _ _ i m H).
    + destruct (teamshooter_spec (λ k, stamp show (clock k)) pools) as [_ Ht].
      destruct (Ht i m H) as (l1 & l2 & Hr & H1 & H2). exists l1, l2. split; [done|].
      split; eapply team_number_len; [exact H1|exact H2].
Qed.

Lemma shape_tickets f show clock i m t : shape f show clock i m →
  t ∈ MatchTickets m ↔ ∃ n r, ma_rosters m !! n = Some r ∧ t ∈ ro_tickets r.
Proof.
  intros _. unfold MatchTickets. rewrite elem_of_list_In, in_concat. split.
  - intros (l & Hl & Ht). apply in_map_iff in Hl as ([n r] & <- & Hr). apply elem_of_list_In, elem_of_map_to_list in Hr.
    exists n, r. split; [done|]. by apply elem_of_list_In.
  - intros (n & r & Hr & Ht). exists (ro_tickets r). split; [|by apply elem_of_list_In].
    apply in_map_iff. exists (n, r). split; [done|]. by apply elem_of_list_In, elem_of_map_to_list.
Qed.

(** ** Dressed matches are encoded and decoded *)

Lemma common_good f prof : good_ext (common_ext f prof).
Proof.
  apply map_Forall_insert_2; [done|]. apply map_Forall_insert_2; [done|].
  apply map_Forall_singleton. done.
Qed.
Lemma team_good prof now : good_ext (<["creationTime" := any_time now]> (common_ext Team prof)).
Proof. apply map_Forall_insert_2; [done|]. apply common_good. Qed.

Lemma dress_good f prof now show clock i m :
  (∀ z, utf8_valid (show z) = true) → shape f show clock i m → (∀ t, t ∈ MatchTickets m → good_ticket t) →
  good_match (dress f prof now m).
Proof.
  intros Hs Hm Ht. pose proof (λ t, shape_tickets f show clock i m t Hm) as Hin. destruct Hm as [[k Hid] Hr].
  assert (∀ n r, ma_rosters m !! n = Some r → Forall good_ticket (ro_tickets r)) as Hg.
  { intros n r Hnr. apply Forall_forall. intros t Htr. apply Ht, Hin. by exists n, r. }
  assert (utf8_valid (ma_id m) = true) as Hu by (rewrite Hid; apply match_id_utf8, Hs).
  assert (good_ext ∅) as He by (intros ???; done).
  destruct f; unfold dress; split_and!; cbn [ma_id ma_rosters ma_ext].
  all: try exact Hu; try apply common_good; try apply team_good.
  - destruct Hr as (l & Hr & _). cbv zeta in Hr. rewrite Hr. rewrite map_fmap_singleton. apply map_Forall_singleton.
    pose proof (roster_name_utf8 Solo (N.of_nat i)) as Hn. split; [exact Hn|]. split_and!; cbn; [exact Hn|done| |].
    + refine (Hg _ (Roster _ None l ∅) _). rewrite Hr. apply lookup_singleton.
    + apply map_Forall_singleton. done.
  - destruct Hr as (l & Hr & _). cbv zeta in Hr. rewrite Hr. rewrite map_fmap_singleton. apply map_Forall_singleton.
    pose proof (roster_name_utf8 Royale (N.of_nat i)) as Hn. split; [exact Hn|]. split_and!; cbn; [exact Hn|done| |].
    + refine (Hg _ (Roster _ None l ∅) _). rewrite Hr. apply lookup_singleton.
    + apply map_Forall_singleton. done.
  - destruct Hr as (l1 & l2 & Hr & _). rewrite Hr in *.
    apply map_Forall_insert_2; [|apply map_Forall_singleton].
    + split; [done|]. split_and!; cbn; try done. refine (Hg "team01" (Roster _ None l1 ∅) _). apply lookup_insert.
    + split; [done|]. split_and!; cbn; try done. refine (Hg "team02" (Roster _ None l2 ∅) _). rewrite lookup_insert_ne by done. apply lookup_singleton.
Qed.

(** The loop of om-core on what was sent. *)
Lemma recv_result_fits m b : good_match m → marshals_result (Some m) b → Z.of_nat (String.length b) <= grpc_max →
  recv_result b = Some (Some m).
Proof.
  intros Hg Hb Hl. unfold recv_result. replace (max_receive <? _) with false by (symmetry; apply Z.ltb_ge; exact Hl).
  apply rt_result; [exact (proj1 (good_match_ok m Hg))|exact Hb|]. rewrite slen_length. unfold grpc_max in Hl. lia.
Qed.
Lemma recv_result_too_long b : ¬ Z.of_nat (String.length b) <= grpc_max → recv_result b = None.
Proof.
  intros Hl. unfold recv_result. replace (max_receive <? _) with true; [done|]. symmetry. apply Z.ltb_lt.
  change max_receive with grpc_max. lia.
Qed.
Lemma results_received ms bs : Forall good_match ms → SentResults ms bs →
  if decide (ResultsFit bs) then received_results bs = (Some <$> ms, true)
  else ∃ k, (k < length ms)%nat ∧ received_results bs = (Some <$> take k ms, false).
Proof.
  intros Hg H. induction H as [|m b ms bs Hm H IH].
  - rewrite decide_True; [done|constructor].
  - apply Forall_cons in Hg as [Hgm Hg]. specialize (IH Hg).
    destruct (decide (Z.of_nat (String.length b) <= grpc_max)) as [Hl|Hl].
    + cbn [received_results]. rewrite (recv_result_fits m b Hgm Hm Hl).
      destruct (decide (ResultsFit bs)) as [Hf|Hf].
      * rewrite decide_True by (constructor; done). by rewrite IH.
      * rewrite decide_False by (intros Hx; apply Forall_cons in Hx as [_ Hx]; done).
        destruct IH as (k & Hk & ->). exists (S k). split; [cbn; lia|]. done.
    + rewrite decide_False by (intros Hx; apply Forall_cons in Hx as [Hx _]; done).
      exists 0%nat. split; [cbn; lia|]. cbn [received_results]. by rewrite recv_result_too_long.
Qed.

(** ** Matches of small tickets are small *)

Lemma zsum_bound (g : ticket → Z) K l : (∀ t, t ∈ l → g t <= K) → zsum g l <= K * Z.of_nat (length l).
Proof.
  induction l as [|t l IH]; intros H; cbn [foldr length]; [lia|].
  pose proof (H t ltac:(left)). specialize (IH ltac:(intros t' Ht'; apply H; by right)). lia.
Qed.
Lemma zsum_length l : zsum (λ _ : ticket, 1) l = Z.of_nat (length l).
Proof. induction l as [|t l IH]; cbn [foldr length]; [done|]. rewrite IH. lia. Qed.

Lemma roster_cost_max K k nm l e : (∀ t, t ∈ l → ticket_size t <= K) →
  roster_cost k (Roster nm None l e) <= 44 + slenZ k + slenZ nm + (K + 5) * Z.of_nat (length l) + ext_cost e.
Proof.
  intros H. unfold roster_cost. cbn [ro_name ro_tickets ro_ext]. pose proof (zsum_bound ticket_size K l H).
  rewrite zsum_length. lia.
Qed.
Lemma roster_cost_dressed K k nm l now : (∀ t, t ∈ l → ticket_size t <= K) →
  roster_cost k (Roster nm None l {[ "CreationTime" := any_time now ]}) <= 188 + slenZ k + slenZ nm + (K + 5) * Z.of_nat (length l).
Proof.
  intros H. etrans; [exact (Z.le_trans _ _ _ (roster_cost_max K k nm l {[ "CreationTime" := any_time now ]} H)
    (proj1 (Z.add_le_mono_l _ _ _) (roster_ext_max now)))|]. lia.
Qed.
Lemma rosters_cost_empty : rosters_cost ∅ = 0.
Proof. reflexivity. Qed.
Lemma rosters_cost_one k r : rosters_cost {[k := r]} = roster_cost k r.
Proof. change {[k := r]} with (<[k := r]> (∅ : gmap string roster)). rewrite rosters_cost_insert by done. rewrite rosters_cost_empty. lia. Qed.
Lemma plain_one k nm l e : Forall (λ t, ticket_size t < 2 ^ 28) l → plain_rosters {[k := Roster nm None l e]}.
Proof. intros H. apply map_Forall_singleton. done. Qed.
Lemma ext_cost_none : ext_cost (∅ : extensions) = 0.
Proof. reflexivity. Qed.

Lemma dress_size f prof now show clock i m :
  (∀ z, slenZ (show z) <= 100) → slenZ prof <= 10000 → (N.of_nat i < 2 ^ 31)%N →
  shape f show clock i m → (∀ t, t ∈ MatchTickets m → ticket_size t <= SmallTicket f) →
  result_size (dress f prof now m) <= grpc_max.
Proof.
  intros Hs Hp Hi Hm Ht. pose proof (λ t, shape_tickets f show clock i m t Hm) as Hin. destruct Hm as [[k Hid] Hr].
  pose proof (match_id_len f (stamp show (clock k)) (N.of_nat i) Hi) as Hlen. rewrite <-Hid in Hlen.
  assert (slenZ (stamp show (clock k)) <= 100) as Hst by apply Hs.
  assert (SmallTicket f < 2 ^ 28) as H28 by (destruct f; done).
  assert (∀ l, (∀ t, t ∈ l → ticket_size t <= SmallTicket f) → Forall (λ t, ticket_size t < 2 ^ 28) l) as H28'.
  { intros l Hl. apply Forall_forall. intros t Htl. specialize (Hl t Htl). lia. }
  pose proof (roster_name_len f (N.of_nat i) Hi) as Hrn. cbn [players] in Hr. unfold grpc_max.
  destruct f.
  - destruct Hr as (l & Hr & Hl). cbv zeta in Hr. change (players Solo) with 2%nat in Hl.
    assert (∀ t, t ∈ l → ticket_size t <= SmallTicket Solo) as Htl.
    { intros t Htl. apply Ht, Hin. rewrite Hr. eexists _, _. split; [apply lookup_singleton|exact Htl]. }
    etrans; [apply result_size_max|]; cbn [dress ma_id ma_rosters ma_ext]; rewrite Hr, map_fmap_singleton;
      cbn [ro_name ro_assignment ro_tickets ro_ext].
    + apply plain_one, H28', Htl.
    + rewrite rosters_cost_one. pose proof (roster_cost_dressed (SmallTicket Solo) (roster_name (sample_name Solo) (N.of_nat i))
        (roster_name (sample_name Solo) (N.of_nat i)) l now Htl) as Hc. rewrite Hl in Hc.
      pose proof (common_ext_max Solo prof). change (SmallTicket Solo) with 2090000 in Hc.
      match goal with |- _ + ?x + _ <= _ => set (c := x) end.
      match type of Hc with ?x <= _ => change x with c in Hc end. lia.
  - destruct Hr as (l & Hr & Hl). cbv zeta in Hr. change (players Royale) with 100%nat in Hl.
    assert (∀ t, t ∈ l → ticket_size t <= SmallTicket Royale) as Htl.
    { intros t Htl. apply Ht, Hin. rewrite Hr. eexists _, _. split; [apply lookup_singleton|exact Htl]. }
    etrans; [apply result_size_max|]; cbn [dress ma_id ma_rosters ma_ext]; rewrite Hr, map_fmap_singleton;
      cbn [ro_name ro_assignment ro_tickets ro_ext].
    + apply plain_one, H28', Htl.
    + rewrite rosters_cost_one. pose proof (roster_cost_dressed (SmallTicket Royale) (roster_name (sample_name Royale) (N.of_nat i))
        (roster_name (sample_name Royale) (N.of_nat i)) l now Htl) as Hc. rewrite Hl in Hc.
      pose proof (common_ext_max Royale prof). change (SmallTicket Royale) with 41800 in Hc.
      match goal with |- _ + ?x + _ <= _ => set (c := x) end.
      match type of Hc with ?x <= _ => change x with c in Hc end. lia.
  - destruct Hr as (l1 & l2 & Hr & Hl1 & Hl2). change (players Team) with 5%nat in Hl1, Hl2.
    assert (∀ t, t ∈ l1 → ticket_size t <= SmallTicket Team) as Ht1.
    { intros t Htl. apply Ht, Hin. rewrite Hr. eexists _, _. split; [apply lookup_insert|exact Htl]. }
    assert (∀ t, t ∈ l2 → ticket_size t <= SmallTicket Team) as Ht2.
    { intros t Htl. apply Ht, Hin. rewrite Hr. exists "team02". eexists. split; [rewrite lookup_insert_ne by done; apply lookup_singleton|exact Htl]. }
    etrans; [apply result_size_max|]; cbn [dress ma_id ma_rosters ma_ext]; rewrite Hr.
    + apply map_Forall_insert_2; [|apply map_Forall_singleton]; (split; [done|]); apply H28'; done.
    + rewrite rosters_cost_insert by (rewrite lookup_singleton_ne; done). rewrite rosters_cost_one.
      pose proof (roster_cost_max (SmallTicket Team) "team01" "team01" l1 ∅ Ht1) as Hc1.
      pose proof (roster_cost_max (SmallTicket Team) "team02" "team02" l2 ∅ Ht2) as Hc2. rewrite Hl1 in Hc1. rewrite Hl2 in Hc2.
      rewrite ext_cost_none in Hc1, Hc2. pose proof (team_ext_max prof now).
      change (SmallTicket Team) with 418000 in Hc1, Hc2. change (String.length "team01") with 6%nat in *.
      change (String.length "team02") with 6%nat in *. lia.
Qed.

(** ** Whole runs *)

Lemma accepted_cached t : Accepted t → cached t.
Proof. intros (ttl & now & o & req & v & id & _ & _ & _ & Hu & ->). by exists id, v. Qed.
Lemma all_accepted_cached ts : Forall Accepted ts → Forall cached ts.
Proof. intros H. eapply Forall_impl; [exact H|]. apply accepted_cached. Qed.

Lemma given_read p ts msgs : AskedFor p ts → GivenTo p ts msgs →
  if decide (AllFit msgs)
  then ∃ got, request_from_bytes msgs = Done (Received got) ∧ IsServed p ts.*1 got
  else request_from_bytes msgs = Done RecvErr.
Proof.
  intros ((s & r & Hs & Hr) & Hn & Ha & Hf & Hc) (cs & Hb & Hm).
  destruct (served_from_bytes s r p ts Hs Hr Hn (all_accepted_cached _ Ha) Hf Hc) as (cs' & Hb' & _ & H).
  rewrite Hb in Hb'. injection Hb' as <-. exact (H msgs Hm).
Qed.

Lemma served_named p ts got : IsServed p ts got → ∀ n, NamedTickets (pr_pools got) n = filter (Eligible p n) ts.
Proof.
  intros (_ & _ & H) n. unfold NamedTickets. rewrite H. destruct (filter (Eligible p n) ts) as [|t l]; done.
Qed.

(** No match is made of a request that could not be read. *)
Lemma no_request_no_run f show clock nows ps : ps ≡ₚ map_to_list (request_pools RecvErr) →
  run_dressed f show clock nows ps RecvErr = Done [].
Proof.
  intros Hps. cbn [request_pools] in Hps. rewrite map_to_list_empty in Hps. apply Permutation_nil_r in Hps as ->.
  unfold run_dressed, run_sample. destruct f; [reflexivity|reflexivity|].
  cbn [request_pools]. destruct (no_request_no_match "" (λ k, stamp show (clock k)) RecvErr ltac:(by left)) as (_ & _ & H).
  cbn [request_pools] in H. rewrite H. reflexivity.
Qed.

Lemma ran_cases p ts f show ms : AskedFor p ts → FunctionRan p ts f show ms →
  ms = [] ∨ ∃ msgs got ps clock nows, GivenTo p ts msgs ∧ AllFit msgs ∧ IsServed p ts.*1 got ∧ ps ≡ₚ map_to_list (pr_pools got) ∧
    ms = imap (λ k m, dress f (pr_name p) (nows k) m) (run_matches f show clock ps (pr_pools got)).
Proof.
  intros Ha (msgs & got & ps & clock & nows & Hg & Hr & Hps & Hrun). pose proof (given_read p ts msgs Ha Hg) as H.
  destruct (decide (AllFit msgs)) as [Hf|Hf].
  - destruct H as (got' & Hg' & Hserved). rewrite Hr in Hg'. injection Hg' as ->. right.
    exists msgs, got', ps, clock, nows. split; [done|]. split; [done|]. split; [done|]. split; [done|].
    unfold run_dressed in Hrun. change (run_sample f show clock ps (Received got')) with
      (Done (run_matches f show clock ps (pr_pools got'))) in Hrun. injection Hrun as <-.
    cbn [request_name]. by destruct Hserved as (-> & _).
  - rewrite Hr in H. injection H as ->. left. rewrite (no_request_no_run f show clock nows ps Hps) in Hrun. by injection Hrun.
Qed.

Lemma run_tickets_in ms m t : m ∈ ms → t ∈ MatchTickets m → t ∈ RunTickets ms.
Proof.
  intros Hm Ht. unfold RunTickets. apply elem_of_list_In, in_concat. exists (MatchTickets m).
  split; [apply in_map, elem_of_list_In, Hm|by apply elem_of_list_In].
Qed.

Lemma imap_elem {A B} (g : nat → A → B) l x : x ∈ imap g l → ∃ i y, l !! i = Some y ∧ x = g i y.
Proof.
  intros H. apply elem_of_list_lookup in H as [i H]. rewrite list_lookup_imap in H.
  destruct (l !! i) as [y|] eqn:E; [|done]. cbn in H. injection H as <-. by exists i, y.
Qed.

Lemma ran_matches p ts f show ms m : AskedFor p ts → FunctionRan p ts f show ms → m ∈ ms →
  ∃ i m0 clock now, (i < length ms)%nat ∧ shape f show clock i m0 ∧ m = dress f (pr_name p) now m0 ∧
    ∀ t, t ∈ MatchTickets m0 → t ∈ ts.*1.
Proof.
  intros Ha Hr Hm. destruct (ran_cases _ _ _ _ _ Ha Hr) as [->|(msgs & got & ps & clock & nows & _ & _ & Hs & Hps & ->)];
    [by apply elem_of_nil in Hm|].
  apply imap_elem in Hm as (i & m0 & Hi & ->). exists i, m0, clock, (nows i).
  split; [rewrite imap_length; by eapply lookup_lt_Some|]. split; [by eapply run_shape|]. split; [done|].
  intros t Ht. pose proof (run_tickets_in _ _ _ (elem_of_list_lookup_2 _ _ _ Hi) Ht) as Hin.
  destruct (run_from f show clock ps _ _ t Hps (served_named _ _ _ Hs) Hin) as (n & _ & Hn).
  by apply elem_of_list_filter in Hn as [_ Hn].
Qed.

Lemma ran_good p ts f show ms : (∀ z, utf8_valid (show z) = true) →
  AskedFor p ts → FunctionRan p ts f show ms → Forall good_match ms.
Proof.
  intros Hs Ha Hr. apply Forall_forall. intros m Hm.
  destruct (ran_matches _ _ _ _ _ _ Ha Hr Hm) as (i & m0 & clock & now & _ & Hsh & -> & Ht).
  apply (dress_good f _ _ show clock i); [done|done|]. intros t Hin. specialize (Ht t Hin).
  destruct Ha as (_ & _ & Hacc & _). rewrite Forall_forall in Hacc.
  destruct (accepted_cached _ (Hacc t Ht)) as (key & v & Hu & ->). by apply stored_ticket_good.
Qed.

Lemma matches_received p ts f show ms bs : (∀ z, utf8_valid (show z) = true) →
  AskedFor p ts → FunctionRan p ts f show ms → SentResults ms bs →
  if decide (ResultsFit bs) then received_results bs = (Some <$> ms, true)
  else ∃ k, (k < length ms)%nat ∧ received_results bs = (Some <$> take k ms, false).
Proof. intros Hs Ha Hr Hb. apply results_received; [by eapply ran_good|done]. Qed.

Lemma dressed_says p ts f show ms m : AskedFor p ts → FunctionRan p ts f show ms → m ∈ ms →
  SaysText m "profileName" (pr_name p) ∧ SaysText m "mmfName" (sample_name f).
Proof.
  intros Ha Hr Hm. destruct (ran_matches _ _ _ _ _ _ Ha Hr Hm) as (i & m0 & clock & now & _ & _ & -> & _).
  split; [apply says_profile|apply says_name].
Qed.

(** The number of matches. *)
Lemma concat_len {A B} (g : A → list B) K l : (∀ x, x ∈ l → (length (g x) ≤ K)%nat) →
  (length (concat (map g l)) ≤ length l * K)%nat.
Proof.
  induction l as [|x l IH]; intros H; [done|]. cbn [map concat length]. rewrite app_length.
  pose proof (H x ltac:(left)). specialize (IH ltac:(intros y Hy; apply H; by right)). lia.
Qed.
Lemma filter_len {A} (P : A → Prop) `{∀ x, Decision (P x)} l : (length (filter P l) ≤ length l)%nat.
Proof. apply filter_length. Qed.

Lemma groups_len k ts ms : FirstGroups k ts ms → (0 < k)%nat → (length ms ≤ length ts)%nat.
Proof.
  intros (ls & H1 & _ & H3 & _) Hk. rewrite (Forall2_length _ _ _ H1), H3. apply Nat.div_le_upper_bound; [lia|]. nia.
Qed.
Lemma eligible_pool p n t : Eligible p n t → is_Some (pr_pools p !! n).
Proof. intros (q & Hq & _). by exists q. Qed.

Lemma served_size p ts got : IsServed p ts got → (base.size (pr_pools got) ≤ base.size (pr_pools p))%nat.
Proof.
  intros (_ & _ & H). rewrite <-!size_dom. apply subseteq_size. intros n Hn. apply elem_of_dom in Hn as [q Hq].
  rewrite H in Hq. destruct (filter (Eligible p n) ts) as [|t l] eqn:E; [done|].
  assert (t ∈ filter (Eligible p n) ts) as Ht by (rewrite E; left).
  apply elem_of_list_filter in Ht as [Ht _]. apply elem_of_dom. by eapply eligible_pool.
Qed.

Lemma ran_count p ts f show ms : AskedFor p ts → FunctionRan p ts f show ms → Z.of_nat (length ms) < 2 ^ 31.
Proof.
  intros Ha Hr. destruct (ran_cases _ _ _ _ _ Ha Hr) as [->|(msgs & got & ps & clock & nows & _ & _ & Hs & Hps & ->)];
    [done|].
  destruct Ha as (_ & _ & _ & _ & Hc). rewrite imap_length. pose proof (served_named _ _ _ Hs) as Hn.
  assert (∀ n, (length (NamedTickets (pr_pools got) n) ≤ length ts)%nat) as Hl.
  { intros n. rewrite Hn. etrans; [apply filter_length|]. by rewrite fmap_length. }
  destruct f; cbn [run_matches].
  - pose proof (groups_len _ _ _ (soloduel_groups (stamp show (clock 0%N)) ps) ltac:(lia)) as H.
    assert (length (AllTickets ps) ≤ length ps * length ts)%nat as H2.
    { unfold AllTickets. apply concat_len. intros [n q] Hin. rewrite Hps in Hin. apply elem_of_map_to_list in Hin.
      specialize (Hl n). unfold NamedTickets in Hl. by rewrite Hin in Hl. }
    assert (length ps ≤ base.size (pr_pools p))%nat as H3.
    { rewrite (Permutation_length Hps). change (length (map_to_list (pr_pools got))) with (base.size (pr_pools got)).
      by eapply served_size. }
    assert (length ps * length ts ≤ base.size (pr_pools p) * length ts)%nat by (apply Nat.mul_le_mono_r; done).
    clear -H H2 Hc H0. nia.
  - pose proof (groups_len _ _ _ (battleroyale_groups (stamp show (clock 0%N)) (pr_pools got)) ltac:(lia)) as H.
    pose proof (Hl "competitive") as H2. rewrite Hn in H, H2.
    destruct (filter (Eligible p "competitive") ts.*1) as [|t l] eqn:E.
    { cbn [length] in H. lia. }
    assert (t ∈ filter (Eligible p "competitive") ts.*1) as Ht by (rewrite E; left).
    apply elem_of_list_filter in Ht as [Ht _]. apply eligible_pool in Ht as [q Hq].
    assert (base.size (pr_pools p) ≠ 0)%nat as H3.
    { intros H0. apply map_size_empty_iff in H0. by rewrite H0 in Hq. }
    clear -H H2 H3 Hc. nia.
  - destruct (teamshooter_spec (λ k, stamp show (clock k)) (pr_pools got)) as [H _]. rewrite H.
    assert (Z.of_nat (Z.to_nat 100000) = 100000) as H0 by (apply Z2Nat.id; lia). lia.
Qed.

Lemma small_tickets_arrive p ts f show ms bs :
  (∀ z, utf8_valid (show z) = true ∧ slenZ (show z) <= 100) → slenZ (pr_name p) <= 10000 →
  AskedFor p ts → FunctionRan p ts f show ms → SentResults ms bs →
  (∀ t, t ∈ ts.*1 → ticket_size t <= SmallTicket f) →
  received_results bs = (Some <$> ms, true).
Proof.
  intros Hs Hp Ha Hr Hb Ht. pose proof (matches_received p ts f show ms bs (λ z, proj1 (Hs z)) Ha Hr Hb) as H.
  rewrite decide_True in H; [done|]. pose proof (ran_count _ _ _ _ _ Ha Hr) as Hc.
  assert (∀ m, m ∈ ms → result_size m <= grpc_max) as Hm.
  { intros m Hm. destruct (ran_matches _ _ _ _ _ _ Ha Hr Hm) as (i & m0 & clock & now & Hi & Hsh & -> & Htm).
    eapply dress_size; [intros z; apply Hs|done| |exact Hsh|].
    - change (2 ^ 31)%N with 2147483648%N. change (2 ^ 31) with 2147483648 in Hc. lia.
    - intros t Hin. by apply Ht, Htm. }
  clear -Hb Hm. induction Hb as [|m b ms bs Hmb _ IH]; [constructor|]. constructor.
  - rewrite (result_bytes_size m b Hmb). apply Hm. left.
  - apply IH. intros m' Hm'. apply Hm. by right.
Qed.

(** ** One large ticket *)

Lemma zsum_in (g : ticket → Z) t l : (∀ x, 0 <= g x) → t ∈ l → g t <= zsum g l.
Proof.
  intros Hg. induction l as [|x l IH]; intros H; [by apply elem_of_nil in H|]. cbn [foldr].
  assert (0 <= zsum g l) as H0. { clear -Hg. induction l as [|y l IH]; cbn [foldr]; [lia|]. specialize (Hg y). lia. }
  pose proof (Hg x). apply elem_of_cons in H as [->|H]; [lia|]. specialize (IH H). lia.
Qed.
Lemma entries_field_min n (q : pool) (m : gmap string pool) : m !! n = Some q →
  slenZ (enc_field (f_msg 2 (entry_pool (n, q)))) <= flen (map (λ kv, f_msg 2 (entry_pool kv)) (map_to_list m)).
Proof.
  intros H. rewrite <-(insert_delete m n q H).
  rewrite (map_perm_len _ _ _ (map_to_list_insert _ n q (lookup_delete m n))). cbn [map]. rewrite fields_len_cons. lia.
Qed.
Lemma chunk_size_min p k (r : gmap string (list ticket)) n l t : r !! n = Some l → t ∈ l →
  ticket_size t + 4 <= chunk_size (chunk_request p k r).
Proof.
  intros Hr Ht. unfold chunk_size. change (ticket_size t + 4 <= flen (fields_chunk (chunk_request p k r))).
  unfold fields_chunk. rewrite flen_app, flen_one.
  pose proof (flen_nonneg (f_int 2 (ch_num (chunk_request p k r)))) as H0.
  pose proof (f_msg_min 1 (fields_profile (ch_profile (chunk_request p k r))) ltac:(done)) as H1.
  unfold fields_profile in H1 at 1. rewrite !flen_app in H1. cbn [ch_profile chunk_request pr_pools] in H1.
  assert (map_imap (λ n ts, Some (chunk_pool n ts)) r !! n = Some (chunk_pool n l)) as Hn by by rewrite map_lookup_imap, Hr.
  pose proof (entries_field_min _ _ _ Hn) as H2. pose proof (entry_min n l) as H3.
  assert (ticket_size t <= zsum ticket_size l) as H4 by (apply zsum_in; [intros x; unfold ticket_size; lia|done]).
  rewrite zsum_length in H3. assert (1 <= length l)%nat by (destruct l; [by apply elem_of_nil in Ht|cbn; lia]).
  cbn [pr_name pr_pools pr_ext] in H1.
  pose proof (flen_nonneg (f_string 1 (pr_name p))). pose proof (flen_nonneg (fields_ext 3 (map_to_list (pr_ext p)))).
  cbn [chunk_request ch_profile ch_num] in *. lia.
Qed.

Lemma sent_all_fit cs msgs : SentAs cs msgs → AllFit msgs ↔ ∀ c, c ∈ cs → chunk_size c <= grpc_max.
Proof.
  intros H. induction H as [|c [b qs] cs msgs [Hc _] _ IH].
  - split; [intros _ c Hc; by apply elem_of_nil in Hc|constructor].
  - cbn in Hc. split.
    + intros Hx. apply Forall_cons in Hx as [H1 H2]. intros c' Hc'. apply elem_of_cons in Hc' as [->|Hc'].
      * cbn in H1. by rewrite <-(chunk_bytes_size _ _ Hc).
      * by apply IH.
    + intros Hx. constructor; [|apply IH; intros c' Hc'; apply Hx; by right].
      cbn. rewrite (chunk_bytes_size _ _ Hc). apply Hx. left.
Qed.

Lemma ticket_in_chunk p ts cs n t : NamesFit p ts → build_requests p ts = Done cs → t ∈ ts.*1 → Eligible p n t →
  ∃ c, c ∈ cs ∧ ticket_size t + 4 <= chunk_size c.
Proof.
  intros Hf H Ht He. unfold build_requests in H. destruct (chunks_of _ _ _ _ _) as [rs|] eqn:E; [|done]. injection H as <-.
  destruct (chunks_done _ _ _ _ _ _ Hf E) as [_ Hp].
  assert (t ∈ ChunkLemmas.parts n rs) as Hin by (rewrite Hp; by apply elem_of_list_filter).
  unfold ChunkLemmas.parts in Hin. apply elem_of_list_In, in_concat in Hin as (l & Hl & Htl). apply in_map_iff in Hl as (r & <- & Hr).
  unfold part in Htl. destruct (r !! n) as [l|] eqn:Er; cbn in Htl; [|done].
  exists (chunk_request p (length rs) r). split.
  - unfold requests_of. apply elem_of_list_fmap. exists r. split; [done|]. by apply elem_of_list_In.
  - eapply chunk_size_min; [exact Er|]. by apply elem_of_list_In.
Qed.

Lemma one_ticket_spoils p ts msgs n t : AskedFor p ts → GivenTo p ts msgs → t ∈ ts.*1 → Eligible p n t →
  grpc_max < ticket_size t + 4 → request_from_bytes msgs = Done RecvErr.
Proof.
  intros Ha Hg Ht He Hl. pose proof (given_read p ts msgs Ha Hg) as H. rewrite decide_False in H; [done|].
  destruct Ha as (_ & Hn & _). destruct Hg as (cs & Hb & Hm).
  destruct (ticket_in_chunk _ _ _ _ _ Hn Hb Ht He) as (c & Hc & Hs).
  rewrite (sent_all_fit _ _ Hm). intros Hx. specialize (Hx c Hc). lia.
Qed.
Lemma one_ticket_no_match p ts f show ms n t : AskedFor p ts → FunctionRan p ts f show ms → t ∈ ts.*1 → Eligible p n t →
  grpc_max < ticket_size t + 4 → ms = [].
Proof.
  intros Ha (msgs & got & ps & clock & nows & Hg & Hr & Hps & Hrun) Ht He Hl.
  rewrite (one_ticket_spoils p ts msgs n t Ha Hg Ht He Hl) in Hr. injection Hr as <-.
  rewrite (no_request_no_run f show clock nows ps Hps) in Hrun. by injection Hrun.
Qed.

(** Tickets up to the limit. *)
Lemma chunks_fit_large p ts cs c :
  NamesFit p ts → 1 + Z.of_nat (length ts) * Z.of_nat (base.size (pr_pools p)) < 2 ^ 31 →
  empty_chunk_size p < max_pb_size →
  (∀ t, t ∈ ts.*1 → empty_chunk_size p + ticket_size t + names_cost (pr_pools p) + 14 <= grpc_max ∧ 128 <= ticket_size t) →
  names_cost (pr_pools p) <= 38000 →
  build_requests p ts = Done cs → c ∈ cs → chunk_size c <= grpc_max.
Proof.
  intros Hf Hlen He Ht Hn H Hc. unfold build_requests in H. destruct (chunks_of _ _ _ _ _) as [rs|] eqn:E; [|done].
  injection H as <-. unfold requests_of in Hc. apply elem_of_list_fmap in Hc as (r & -> & Hr).
  destruct (chunks_shaped _ _ _ _ _ _ E) as (Hnil & Hsh & _). rewrite Forall_forall in Hsh. specialize (Hsh r Hr).
  pose proof (chunks_count _ _ _ _ _ _ Hf E) as Hcount.
  assert (Hin : ∀ n l t, r !! n = Some l → t ∈ l → t ∈ ts.*1).
  { intros n l t Hl Htl. by destruct (chunk_entry_eligible _ _ _ _ _ _ _ _ _ t Hf E Hr Hl Htl). }
  assert (0 <= empty_chunk_size p) as He0 by (unfold empty_chunk_size, chunk_size; lia).
  pose proof (names_cost_nonneg (pr_pools p)) as Hn0.
  assert (128 * entries r <= weight ticket_size r) as Hent.
  { rewrite <-weight_const. apply weight_mono. intros n l t Hl Htl. by apply Ht, (Hin n l). }
  assert (names_cost r <= names_cost (pr_pools p)) as Hnc.
  { apply names_cost_mono. intros n [l Hl]. destruct (chunk_pool_valid _ _ _ _ _ _ _ _ _ Hf E Hr Hl) as (q & Hq & _). eauto. }
  etrans; [apply chunk_size_max|].
  - destruct rs; [done|simpl; lia].
  - lia.
  - intros n l Hl. apply Forall_forall. intros t Htl. destruct (Ht t (Hin n l t Hl Htl)) as [Ht1 _].
    change grpc_max with 4194304 in Ht1. change (2 ^ 28) with 268435456. lia.
  - destruct Hsh as [Hsh|[->|(n & t & Hin' & ->)]].
    + unfold overhead, grpc_max. change max_pb_size with 4000000 in Hsh. lia.
    + unfold overhead, grpc_max, entries in *. rewrite !weight_empty in *. change max_pb_size with 4000000 in He. lia.
    + unfold overhead, entries in *. rewrite !weight_single in *. destruct (Ht t Hin') as [H1 _]. lia.
Qed.

Lemma larger_tickets_read p ts msgs : AskedFor p ts → GivenTo p ts msgs →
  empty_chunk_size p < max_pb_size → names_cost (pr_pools p) <= 38000 →
  (∀ t, t ∈ ts.*1 → empty_chunk_size p + ticket_size t + names_cost (pr_pools p) + 14 <= grpc_max ∧ 128 <= ticket_size t) →
  ∃ got, request_from_bytes msgs = Done (Received got) ∧ IsServed p ts.*1 got.
Proof.
  intros Ha Hg He Hn Ht. pose proof (given_read p ts msgs Ha Hg) as H. rewrite decide_True in H; [done|].
  destruct Ha as (_ & Hf & _ & _ & Hc). destruct Hg as (cs & Hb & Hm). apply (sent_all_fit _ _ Hm).
  intros c Hin. by eapply (chunks_fit_large p ts cs c).
Qed.

(** ** Accepted tickets that are large *)

Fixpoint fill (n : nat) : string := match n with O => "" | S n => String "x" (fill n) end.
Lemma fill_length n : String.length (fill n) = n.
Proof. induction n as [|n IH]; cbn; [done|]. by rewrite IH. Qed.
Lemma fill_utf8 n : utf8_valid (fill n) = true.
Proof. induction n as [|n IH]; [done|]. exact (utf8_valid_app "x" (fill n) eq_refl IH). Qed.

Definition big_asked (n : nat) : ticket := Ticket "" None (Some (Filterable [fill n] ∅ ∅ None)) ∅.
Definition big_now : instant := 1700000000 * 10 ^ 9.
Definition big_kept (id : string) (n : nat) : ticket :=
  Ticket id (Some (Timestamp 1700000600 0)) (Some (Filterable [fill n] ∅ ∅ (Some (Timestamp 1700000000 0)))) ∅.

Lemma big_prepared n : prepare_ticket 600 big_now (big_asked n) = big_kept "" n.
Proof. reflexivity. Qed.
Lemma big_asked_fields n : fields_ticket_c (big_asked n) = [f_msg 3 [(1%N, WLen (fill n))]].
Proof. reflexivity. Qed.
Lemma big_kept_fields a id n : fields_ticket_c (big_kept (String a id) n) =
  [(1%N, WLen (String a id)); f_msg 2 (fields_ts (Timestamp 1700000600 0));
   f_msg 3 [(1%N, WLen (fill n)); f_msg 4 (fields_ts (Timestamp 1700000000 0))]].
Proof. reflexivity. Qed.
Lemma big_stored_fields n : fields_ticket_c (big_kept "" n) =
  [f_msg 2 (fields_ts (Timestamp 1700000600 0));
   f_msg 3 [(1%N, WLen (fill n)); f_msg 4 (fields_ts (Timestamp 1700000000 0))]].
Proof. reflexivity. Qed.

Lemma big_request_size n : slenZ (enc_fields [f_msg 1 (fields_ticket_c (big_asked n))]) <= Z.of_nat n + 33.
Proof.
  change (flen [f_msg 1 (fields_ticket_c (big_asked n))] <= Z.of_nat n + 33). rewrite big_asked_fields, flen_one.
  pose proof (f_msg_max 1 [f_msg 3 [(1%N, WLen (fill n))]] ltac:(done)) as H1. rewrite flen_one in H1.
  pose proof (f_msg_max 3 [(1%N, WLen (fill n))] ltac:(done)) as H2. rewrite flen_one in H2.
  pose proof (wlen_max 1 (fill n) ltac:(done)) as H3. rewrite fill_length in H3. lia.
Qed.
Lemma big_kept_min a id n : Z.of_nat n + 23 + slenZ id <= ticket_size (big_kept (String a id) n).
Proof.
  unfold ticket_size. change (Z.of_nat n + 23 + slenZ id <= flen (fields_ticket_c (big_kept (String a id) n))).
  rewrite big_kept_fields, !fields_len_cons, fields_len_nil.
  pose proof (wlen_min 1 (String a id) ltac:(done)) as H1. cbn [String.length] in H1.
  assert (slenZ (enc_field (f_msg 2 (fields_ts (Timestamp 1700000600 0)))) = 8) as H2 by reflexivity.
  pose proof (f_msg_min 3 [(1%N, WLen (fill n)); f_msg 4 (fields_ts (Timestamp 1700000000 0))] ltac:(done)) as H3.
  rewrite !fields_len_cons, fields_len_nil in H3.
  pose proof (wlen_min 1 (fill n) ltac:(done)) as H4. rewrite fill_length in H4.
  assert (slenZ (enc_field (f_msg 4 (fields_ts (Timestamp 1700000000 0)))) = 8) as H5 by reflexivity. lia.
Qed.
Lemma big_kept_max a id n : ticket_size (big_kept (String a id) n) <= Z.of_nat n + 50 + slenZ id.
Proof.
  unfold ticket_size. change (flen (fields_ticket_c (big_kept (String a id) n)) <= Z.of_nat n + 50 + slenZ id).
  rewrite big_kept_fields, !fields_len_cons, fields_len_nil.
  pose proof (wlen_max 1 (String a id) ltac:(done)) as H1. cbn [String.length] in H1.
  assert (slenZ (enc_field (f_msg 2 (fields_ts (Timestamp 1700000600 0)))) = 8) as H2 by reflexivity.
  pose proof (f_msg_max 3 [(1%N, WLen (fill n)); f_msg 4 (fields_ts (Timestamp 1700000000 0))] ltac:(done)) as H3.
  rewrite !fields_len_cons, fields_len_nil in H3.
  pose proof (wlen_max 1 (fill n) ltac:(done)) as H4. rewrite fill_length in H4.
  assert (slenZ (enc_field (f_msg 4 (fields_ts (Timestamp 1700000000 0)))) = 8) as H5 by reflexivity. lia.
Qed.
Lemma big_stored_size n : slenZ (enc_fields (fields_ticket_c (big_kept "" n))) <= Z.of_nat n + 50.
Proof.
  change (flen (fields_ticket_c (big_kept "" n)) <= Z.of_nat n + 50).
  rewrite big_stored_fields, !fields_len_cons, fields_len_nil.
  assert (slenZ (enc_field (f_msg 2 (fields_ts (Timestamp 1700000600 0)))) = 8) as H2 by reflexivity.
  pose proof (f_msg_max 3 [(1%N, WLen (fill n)); f_msg 4 (fields_ts (Timestamp 1700000000 0))] ltac:(done)) as H3.
  rewrite !fields_len_cons, fields_len_nil in H3.
  pose proof (wlen_max 1 (fill n) ltac:(done)) as H4. rewrite fill_length in H4.
  assert (slenZ (enc_field (f_msg 4 (fields_ts (Timestamp 1700000000 0)))) = 8) as H5 by reflexivity. lia.
Qed.

Lemma big_accepted id n : utf8_valid id = true → Z.of_nat n + 33 <= grpc_max → Accepted (big_kept id n).
Proof.
  intros Hu Hn. set (v := enc_fields (fields_ticket_c (big_kept "" n))).
  assert (utf8_ticket (canon_orders (big_kept "" n)) (big_kept "" n) = true) as Hut.
  { unfold utf8_ticket. cbn [big_kept tk_id tk_attrs]. unfold utf8_filterable. cbn [fd_tags forallb].
    rewrite (fill_utf8 n). reflexivity. }
  assert (orders_ok (big_kept "" n) (canon_orders (big_kept "" n))) as Ho by by unfold orders_ok.
  assert (marshal_ticket (canon_orders (big_kept "" n)) (big_kept "" n) = Some v) as Hm by (unfold marshal_ticket; by rewrite Hut).
  exists 600, big_now, (canon_orders (big_kept "" n)), (big_asked n), v, id. split_and!.
  - unfold RequestFits. pose proof (big_request_size n). lia.
  - rewrite big_prepared. exact Ho.
  - unfold create_ticket. rewrite big_prepared, Hm. reflexivity.
  - exact Hu.
  - unfold stored_ticket. rewrite (rt_ticket _ _ _ Ho) with (2 := Hm); [reflexivity| |].
    + split; [by split|]. split; [constructor|by split].
    + rewrite slen_length. pose proof (big_stored_size n) as Hs. fold v in Hs. unfold grpc_max in Hn. lia.
Qed.

(** ** Witnesses *)

Definition visits (l : list ticket) : list (ticket * list string) := map (λ t, (t, ["all"])) l.
Lemma visits_fst l : (visits l).*1 = l.
Proof. unfold visits. induction l as [|t l IH]; cbn; [done|]. f_equal. exact IH. Qed.
Definition big_tickets (ids : list string) (n : nat) : list ticket := map (λ id, big_kept id n) ids.

Lemma big_eligible id n : Eligible all_profile "all" (big_kept id n).
Proof. exists all_pool. split; [apply lookup_singleton|]. split; reflexivity. Qed.

Lemma big_asked_for ids n :
  (∃ s r, unmarshal_request s = Some r ∧ rq_profile r = Some all_profile) →
  Forall (λ id, utf8_valid id = true) ids → Z.of_nat n + 33 <= grpc_max → Z.of_nat (length ids) < 2 ^ 30 →
  AskedFor all_profile (visits (big_tickets ids n)).
Proof.
  intros Hs Hu Hn Hl. split; [exact Hs|]. split_and!.
  - intros t ns Hin. unfold visits in Hin. apply elem_of_list_fmap in Hin as (t' & [= -> ->] & _).
    apply names_order; [apply NoDup_singleton|]. intros k. rewrite all_names. apply elem_of_list_singleton.
  - rewrite visits_fst. apply Forall_forall. intros t Ht. apply elem_of_list_fmap in Ht as (id & -> & Hid).
    rewrite Forall_forall in Hu. apply big_accepted; [by apply Hu|done].
  - intros t k q Hin Hq _. cbn [all_profile pr_pools] in Hq. apply lookup_singleton_Some in Hq as [<- <-].
    rewrite visits_fst in Hin. apply elem_of_list_fmap in Hin as (id & -> & _). done.
  - unfold visits, big_tickets. rewrite !map_length. cbn [all_profile pr_pools]. rewrite map_size_singleton.
    change (2 ^ 30) with 1073741824 in Hl. change (2 ^ 31) with 2147483648. lia.
Qed.

Lemma given_exists p ts : AskedFor p ts → ∃ msgs, GivenTo p ts msgs.
Proof.
  intros ((s & r & Hs & Hr) & Hn & Ha & Hf & Hc).
  destruct (served_from_bytes s r p ts Hs Hr Hn (all_accepted_cached _ Ha) Hf Hc) as (cs & Hb & (msgs & Hm) & _).
  by exists msgs, cs.
Qed.

Lemma results_exist ms : Forall good_match ms → ∃ bs, SentResults ms bs.
Proof.
  induction 1 as [|m ms Hm _ [bs IH]]; [exists []; constructor|].
  destruct (canon_result (Some m)) as (fs & Hfs). exists (enc_fields fs :: bs). constructor; [|exact IH].
  split; [exact (proj2 (good_match_ok m Hm))|]. by exists fs.
Qed.

Lemma dressed_weight f prof now m : MatchWeight (dress f prof now m) = MatchWeight m.
Proof.
  destruct f; [| |reflexivity]; unfold MatchWeight; cbn [dress ma_rosters];
  (induction (ma_rosters m) as [|k r rs Hk IH] using map_ind; [reflexivity|];
   rewrite fmap_insert, weight_insert_r, weight_insert_r by (done || by rewrite lookup_fmap, Hk); cbn [ro_tickets];
   by rewrite IH).
Qed.

Definition two_ids : list string := ["1700000000000-0"; "1700000000000-1"].
Definition two_big (n : nat) : list ticket := big_tickets two_ids n.

Lemma two_served (n : nat) (show : Z → string) (clock : N → instant) (nows : nat → instant) :
  Z.of_nat n = 2200000 → (∀ z, utf8_valid (show z) = true) →
  (∃ s r, unmarshal_request s = Some r ∧ rq_profile r = Some all_profile) →
  AskedFor all_profile (visits (two_big n)) ∧
  ∃ ms bs, FunctionRan all_profile (visits (two_big n)) Solo show ms ∧ SentResults ms bs ∧ received_results bs = ([], false).
Proof.
  intros Hz Hshow Hs.
  assert (AskedFor all_profile (visits (two_big n))) as Ha.
  { apply big_asked_for; [exact Hs|repeat constructor| |done]. rewrite Hz. done. }
  split; [exact Ha|]. destruct (given_exists _ _ Ha) as [msgs Hg].
  assert (∀ t, t ∈ (two_big n) → 2200037 <= ticket_size t <= 2200064) as Hsz.
  { unfold two_big, big_tickets, two_ids. cbn [map]. intros t Ht.
    apply elem_of_cons in Ht as [->|Ht]; [|apply elem_of_list_singleton in Ht as ->].
    - pose proof (big_kept_min "1" "700000000000-0" n) as H1. pose proof (big_kept_max "1" "700000000000-0" n) as H2.
      change (String.length "700000000000-0") with 14%nat in *. lia.
    - pose proof (big_kept_min "1" "700000000000-1" n) as H1. pose proof (big_kept_max "1" "700000000000-1" n) as H2.
      change (String.length "700000000000-1") with 14%nat in *. lia. }
  assert (empty_chunk_size all_profile <= 100) as He by (vm_compute; discriminate).
  assert (names_cost (pr_pools all_profile) <= 100) as Hnc by (vm_compute; discriminate).
  destruct (larger_tickets_read _ _ _ Ha Hg) as (got & Hgot & Hserved).
  { change max_pb_size with 4000000. lia. }
  { lia. }
  { intros t Ht. rewrite visits_fst in Ht. specialize (Hsz t Ht). change grpc_max with 4194304. lia. }
  rewrite visits_fst in Hserved.
  assert (filter (Eligible all_profile "all") (two_big n) = (two_big n)) as Hfil.
  { unfold two_big, big_tickets, two_ids. cbn [map]. 
    rewrite filter_cons_True by apply big_eligible. rewrite filter_cons_True by apply big_eligible. reflexivity. }
  set (rs := run_matches Solo show clock (map_to_list (pr_pools got)) (pr_pools got)).
  set (ms := imap (λ k m, dress Solo (pr_name all_profile) (nows k) m) rs).
  assert (FunctionRan all_profile (visits (two_big n)) Solo show ms) as Hran.
  { exists msgs, (Received got), (map_to_list (pr_pools got)), clock, nows. split; [exact Hg|]. split; [exact Hgot|].
    split; [done|]. unfold run_dressed. change (run_sample Solo show clock (map_to_list (pr_pools got)) (Received got)) with (Done rs).
    cbn [request_name]. destruct Hserved as (-> & _). reflexivity. }
  pose proof (ran_good _ _ _ _ _ Hshow Ha Hran) as Hgood. destruct (results_exist ms Hgood) as [bs Hbs].
  exists ms, bs. split; [exact Hran|]. split; [exact Hbs|].
  assert (AllTickets (map_to_list (pr_pools got)) = (two_big n)) as Hall.
  { assert (pr_pools got = {["all" := Pool "" [] [] [] None (Some (Roster "all_roster" None (two_big n) ∅)) ∅]}) as ->.
    { destruct Hserved as (_ & _ & Hp). apply map_eq. intros nm. rewrite Hp.
      destruct (decide (nm = "all")) as [->|Hn].
      - rewrite Hfil, lookup_singleton. reflexivity.
      - rewrite lookup_singleton_ne by done.
        destruct (filter (Eligible all_profile nm) (two_big n)) as [|t l] eqn:E; [done|]. exfalso.
        assert (t ∈ filter (Eligible all_profile nm) (two_big n)) as Ht by (rewrite E; left).
        apply elem_of_list_filter in Ht as [(q & Hq & _) _]. cbn [all_profile pr_pools] in Hq.
        apply lookup_singleton_Some in Hq as [Hq _]. congruence. }
    rewrite map_to_list_singleton. unfold AllTickets. cbn [map concat snd PoolTickets po_participants ro_tickets].
    apply app_nil_r. }
  destruct (soloduel_groups (stamp show (clock 0%N)) (map_to_list (pr_pools got))) as (ls & H1 & H2 & H3 & H4).
  change (soloduel (stamp show (clock 0%N)) (map_to_list (pr_pools got))) with rs in H1.
  rewrite Hall in H3, H4. change (length (two_big n)) with 2%nat in H3, H4. change (2 `div` 2)%nat with 1%nat in H3, H4.
  destruct ls as [|l [|]]; [done| |done]. cbn [concat] in H4. rewrite app_nil_r in H4.
  change (take (2 * 1) (two_big n)) with (two_big n) in H4. subst l.
  assert (∃ m0, rs = [m0] ∧ SingleRoster m0 (two_big n)) as (m0 & Ers & Hsr).
  { inversion H1 as [|m0 ? rs' ? Hm0 Hnil]; subst. inversion Hnil; subst. by exists m0. }
  clearbody rs. subst rs. cbn in ms.
  assert (grpc_max < result_size (dress Solo (pr_name all_profile) (nows 0%nat) m0)) as Hlarge.
  { eapply Z.lt_le_trans; [|apply result_size_min]. rewrite dressed_weight. destruct Hsr as (nm & Hn).
    unfold MatchWeight. rewrite Hn.
    change {[nm := Roster nm None (two_big n) ∅]} with (<[nm := Roster nm None (two_big n) ∅]> (∅ : gmap string roster)).
    rewrite weight_insert_r by apply lookup_empty. rewrite map_fold_empty. cbn [ro_tickets].
    assert (2200037 * 2 <= zsum ticket_size (two_big n)) as Hw; [|change grpc_max with 4194304; lia].
    clear -Hsz. unfold two_big, big_tickets, two_ids in *. cbn [map] in *. 
    cbn [foldr]. pose proof (Hsz (big_kept "1700000000000-0" n) ltac:(left)).
    pose proof (Hsz (big_kept "1700000000000-1" n) ltac:(right; left)). lia. }
  unfold SentResults in Hbs. inversion Hbs as [|m b ms' bs' Hmb Hnil]; subst. inversion Hnil; subst.
  cbn [received_results]. rewrite recv_result_too_long; [done|]. rewrite (result_bytes_size _ _ Hmb). apply Z.lt_nge. exact Hlarge.
Qed.

(** A ticket that is accepted but never reaches a function. *)
Definition lone_count : nat := Z.to_nat 4194271.
Definition lone : ticket := big_kept "1700000000000-0" lone_count.
Lemma lone_count_Z : Z.of_nat lone_count = 4194271.
Proof. apply Z2Nat.id. done. Qed.
Lemma lone_large : grpc_max < ticket_size lone + 4.
Proof.
  unfold lone. pose proof lone_count_Z as Hz. revert Hz. generalize lone_count. intros n Hn.
  pose proof (big_kept_min "1" "700000000000-0" n) as H1. change (String.length "700000000000-0") with 14%nat in H1.
  change grpc_max with 4194304. lia.
Qed.
Lemma lone_accepted : Accepted lone.
Proof.
  unfold lone. pose proof lone_count_Z as Hz. revert Hz. generalize lone_count. intros n Hn.
  apply big_accepted; [reflexivity|]. change grpc_max with 4194304. lia.
Qed.
Lemma lone_asked : (∃ s r, unmarshal_request s = Some r ∧ rq_profile r = Some all_profile) →
  AskedFor all_profile (visits [lone]).
Proof.
  intros Hs. unfold lone. pose proof lone_count_Z as Hz. revert Hz. generalize lone_count. intros n Hn.
  apply (big_asked_for ["1700000000000-0"] n); [exact Hs|repeat constructor| |done]. change grpc_max with 4194304. lia.
Qed.

Lemma first_too_large p ts f show ms bs i b : (∀ z, utf8_valid (show z) = true) →
  AskedFor p ts → FunctionRan p ts f show ms → SentResults ms bs →
  bs !! i = Some b → grpc_max < Z.of_nat (String.length b) → ResultsFit (take i bs) →
  received_results bs = (Some <$> take i ms, false).
Proof.
  intros Hs Ha Hr Hb Hi Hl Hf. pose proof (ran_good _ _ _ _ _ Hs Ha Hr) as Hg. clear -Hb Hi Hl Hf Hg.
  revert i Hi Hf. induction Hb as [|m b' ms bs Hm H IH]; intros i Hi Hf; [done|].
  apply Forall_cons in Hg as [Hgm Hg]. destruct i as [|i].
  - cbn in Hi. injection Hi as ->. cbn [received_results take]. rewrite recv_result_too_long by lia. done.
  - cbn [take] in Hf. apply Forall_cons in Hf as [H1 H2]. cbn [received_results].
    rewrite (recv_result_fits m b' Hgm Hm H1). cbn in Hi. rewrite (IH Hg i Hi H2). done.
Qed.

Lemma match_weight m b : marshals_result (Some m) b → MatchWeight m <= slenZ b.
Proof. intros H. rewrite (result_bytes_size m b H). apply result_size_min. Qed.
