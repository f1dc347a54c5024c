(** The sample matchmaking functions. *)
From Coq Require Import Ascii String ZArith NArith Lia ZifyBool.
From stdpp Require Import prelude strings gmap.
From Verif.Model Require Import GoStrings Types Chunk Mmf.
From Verif.Spec Require Import MmfSpec.
From Verif.Proofs Require Import StringLemmas.
Local Open Scope string_scope.
Local Open Scope nat_scope.

Lemma single_single fn t num l : SingleRoster (single_match fn t num l) l.
Proof. by eexists. Qed.

Lemma solo_tickets_all ps : solo_tickets ps = AllTickets ps.
Proof. done. Qed.

(** ** soloduel *)
Lemma solo_groups t n : ∀ ts num, length ts ≤ n → FirstGroups 2 ts (solo_loop t [] num ts).
Proof.
  induction n as [|n IH]; intros ts num Hn.
  - destruct ts; [|simpl in Hn; lia]. exists []. split; [constructor|]. split; [constructor|]. done.
  - destruct ts as [|x [|y ts]].
    + exists []. split; [constructor|]. split; [constructor|]. done.
    + exists []. split; [constructor|]. split; [constructor|]. done.
    + destruct (IH ts (num + 1)%N) as (ls & H1 & H2 & H3 & H4); [simpl in Hn; lia|].
      exists ([x; y] :: ls).
      change (solo_loop t [] num (x :: y :: ts))
        with (single_match solo_name t num [x; y] :: solo_loop t [] (num + 1) ts).
      assert (length (x :: y :: ts) `div` 2 = S (length ts `div` 2)) as Hd.
      { cbn [length]. replace (S (S (length ts))) with (length ts + 1 * 2) by lia. rewrite Nat.div_add; lia. }
      split; [constructor; [apply single_single|done]|]. split; [by constructor|]. rewrite Hd. split; [cbn [length]; by rewrite H3|].
      replace (2 * S (length ts `div` 2)) with (S (S (2 * (length ts `div` 2)))) by lia. cbn [concat app take]. by rewrite H4.
Qed.
Lemma soloduel_groups t ps : FirstGroups 2 (AllTickets ps) (soloduel t ps).
Proof. apply (solo_groups t (length (AllTickets ps))). done. Qed.

Lemma groups_sublist k ts ms m l :
  FirstGroups k ts ms → m ∈ ms → SingleRoster m l → ∃ a b, ts = (a ++ l ++ b)%list.
Proof.
  intros (ls & H1 & _ & _ & H4) Hm [n Hl].
  assert (∃ a b, concat ls = (a ++ l ++ b)%list) as (a & b & Hab).
  { clear H4. induction H1 as [|m' l' ms ls [n' Hs] _ IH]; [by apply elem_of_nil in Hm|].
    apply elem_of_cons in Hm as [->|Hm].
    - rewrite Hs in Hl. assert (l' = l) as ->.
      { assert (({[n' := Roster n' None l' ∅]} : gmap string roster) !! n = Some (Roster n None l ∅)) as He.
        { rewrite Hl. apply lookup_singleton. }
        apply lookup_singleton_Some in He as [-> [= ->]]. done. }
      exists [], (concat ls). done.
    - destruct (IH Hm) as (a & b & Hab). exists (l' ++ a)%list, b. cbn [concat]. by rewrite Hab, app_assoc. }
  exists a, (b ++ drop (k * (length ts `div` k)) ts)%list.
  rewrite <-(take_drop (k * (length ts `div` k)) ts) at 1. rewrite <-H4, Hab. by rewrite <-!app_assoc.
Qed.

Lemma soloduel_distinct t ps m l :
  NoDup (tk_id <$> AllTickets ps) → m ∈ soloduel t ps → SingleRoster m l → NoDup (tk_id <$> l).
Proof.
  intros Hnd Hm Hl. destruct (groups_sublist 2 _ _ m l (soloduel_groups t ps) Hm Hl) as (a & b & Hab).
  rewrite Hab, !fmap_app in Hnd. apply NoDup_app in Hnd as (_ & _ & Hnd). by apply NoDup_app in Hnd as (? & _).
Qed.

(** ** battleroyale *)
Lemma royale_groups fuel t ts : ∀ i num, i ≤ length ts → length ts - i < fuel * 100 →
  ∃ ls, Forall2 SingleRoster (royale_loop fuel t i num ts) ls ∧ Forall (λ l, length l = 100) ls ∧
    length ls = (length ts - i) `div` 100 ∧ concat ls = take (100 * ((length ts - i) `div` 100)) (drop i ts).
Proof.
  induction fuel as [|fuel IH]; intros i num Hi Hf; [lia|]. cbn [royale_loop]. unfold royale_players at 1.
  destruct (i + 100 <=? length ts) eqn:E.
  - apply Nat.leb_le in E.
    destruct (IH (i + 100) (num + 1)%N) as (ls & H1 & H2 & H3 & H4); [lia|lia|].
    exists (take 100 (drop i ts) :: ls).
    assert ((length ts - i) `div` 100 = S ((length ts - (i + 100)) `div` 100)) as Hd.
    { replace (length ts - i) with (length ts - (i + 100) + 1 * 100) by lia. rewrite Nat.div_add; lia. }
    split; [constructor; [apply single_single|exact H1]|].
    split; [constructor; [rewrite take_length, drop_length; lia|done]|]. rewrite Hd. split; [cbn [length]; by rewrite H3|].
    cbn [concat]. rewrite H4. replace (100 * S ((length ts - (i + 100)) `div` 100)) with (100 + 100 * ((length ts - (i + 100)) `div` 100)) by lia.
    rewrite <-(take_drop 100 (drop i ts)) at 2. rewrite take_add_app by (rewrite take_length, drop_length; lia).
    by rewrite drop_drop.
  - apply Nat.leb_gt in E. exists []. rewrite Nat.div_small by lia. split; [constructor|]. split; [constructor|]. done.
Qed.
Lemma battleroyale_groups t pools : FirstGroups 100 (NamedTickets pools "competitive") (battleroyale t pools).
Proof.
  unfold battleroyale. change (pool_tickets (pools !! "competitive")) with (NamedTickets pools "competitive").
  destruct (royale_groups (S (length (NamedTickets pools "competitive"))) t (NamedTickets pools "competitive") 0 0%N)
    as (ls & H1 & H2 & H3 & H4); [lia|lia|].
  rewrite Nat.sub_0_r in *. rewrite drop_0 in H4. by exists ls.
Qed.

(** ** teamshooter *)
Section Team.
Context (pools : gmap string pool).
Notation tanks := (NamedTickets pools "tank").
Notation healers := (NamedTickets pools "healer").
Notation dps := (NamedTickets pools "dps").

Definition idx_at (idx : gmap string nat) (j : nat) : Prop :=
  idx !! "tank" = Some j ∧ idx !! "healer" = Some j ∧ idx !! "dps" = Some (3 * j).

Definition enough (j : nat) : Prop := j < length tanks ∧ j < length healers ∧ 3 * j + 2 < length dps.

Lemma named_eq n : pool_tickets (pools !! n) = NamedTickets pools n.
Proof. done. Qed.

Lemma fill_exhausted ty s : ts_exhausted s = true → ts_exhausted (fill_slot pools s ty) = true.
Proof. intros H. unfold fill_slot. by destruct (pool_tickets _ !! _). Qed.
Lemma fill_exhausted_all tys s : ts_exhausted s = true → ts_exhausted (foldl (fill_slot pools) s tys) = true.
Proof. revert s. induction tys as [|ty tys IH]; intros s H; simpl; [done|]. by apply IH, fill_exhausted. Qed.

Lemma fill_some ty s i x : ts_idx s !! ty = Some i → NamedTickets pools ty !! i = Some x →
  fill_slot pools s ty = TeamState (<[ty := S i]> (ts_idx s)) (ts_roster s ++ [x])%list (ts_exhausted s).
Proof. intros Hi Hx. unfold fill_slot. rewrite Hi. cbn [default from_option id]. by rewrite named_eq, Hx. Qed.
Lemma fill_none ty s i : ts_idx s !! ty = Some i → length (NamedTickets pools ty) ≤ i →
  ts_exhausted (fill_slot pools s ty) = true.
Proof.
  intros Hi Hx. unfold fill_slot. rewrite Hi. cbn [default from_option id]. rewrite named_eq.
  apply lookup_ge_None in Hx. by rewrite Hx.
Qed.

Ltac lk := repeat (rewrite lookup_insert || (rewrite lookup_insert_ne by done)); try done.

Lemma fill_team j idx : idx_at idx j →
  if decide (enough j) then
    ∃ l, foldl (fill_slot pools) (TeamState idx [] false) team_comp =
           TeamState (ts_idx (foldl (fill_slot pools) (TeamState idx [] false) team_comp)) l false ∧
         TeamNumber tanks healers dps j l ∧
         idx_at (ts_idx (foldl (fill_slot pools) (TeamState idx [] false) team_comp)) (S j)
  else ts_exhausted (foldl (fill_slot pools) (TeamState idx [] false) team_comp) = true.
Proof.
  intros (H1 & H2 & H3). unfold team_comp. cbn [foldl].
  destruct (decide (j < length tanks)) as [Ht|Ht].
  2: { rewrite decide_False by (intros (? & _); lia). do 4 apply fill_exhausted. eapply fill_none; [exact H1|lia]. }
  destruct (lookup_lt_is_Some_2 tanks j Ht) as [x1 Hx1].
  rewrite (fill_some "tank" _ j x1) by done. cbn [ts_idx ts_roster ts_exhausted app].
  set (idx1 := <["tank" := S j]> idx).
  assert (idx1 !! "healer" = Some j) as H2' by (unfold idx1; by lk).
  assert (idx1 !! "dps" = Some (3 * j)) as H3' by (unfold idx1; by lk).
  destruct (decide (j < length healers)) as [Hh|Hh].
  2: { rewrite decide_False by (intros (? & ? & _); lia). do 3 apply fill_exhausted. eapply fill_none; [exact H2'|lia]. }
  destruct (lookup_lt_is_Some_2 healers j Hh) as [x2 Hx2].
  rewrite (fill_some "healer" _ j x2) by done. cbn [ts_idx ts_roster ts_exhausted app].
  set (idx2 := <["healer" := S j]> idx1).
  assert (idx2 !! "dps" = Some (3 * j)) as H3'' by (unfold idx2; by lk).
  destruct (decide (3 * j < length dps)) as [Hd|Hd].
  2: { rewrite decide_False by (intros (? & ? & ?); lia). do 2 apply fill_exhausted. eapply fill_none; [exact H3''|lia]. }
  destruct (lookup_lt_is_Some_2 dps (3 * j) Hd) as [x3 Hx3].
  rewrite (fill_some "dps" (TeamState idx2 [x1; x2] false) (3 * j) x3) by done. cbn [ts_idx ts_roster ts_exhausted app].
  set (idx3 := <["dps" := S (3 * j)]> idx2).
  assert (idx3 !! "dps" = Some (3 * j + 1)) as H4 by (unfold idx3; rewrite lookup_insert; f_equal; lia).
  destruct (decide (3 * j + 1 < length dps)) as [Hd1|Hd1].
  2: { rewrite decide_False by (intros (? & ? & ?); lia). apply fill_exhausted. eapply fill_none; [exact H4|lia]. }
  destruct (lookup_lt_is_Some_2 dps (3 * j + 1) Hd1) as [x4 Hx4].
  rewrite (fill_some "dps" (TeamState idx3 [x1; x2; x3] false) (3 * j + 1) x4) by done. cbn [ts_idx ts_roster ts_exhausted app].
  set (idx4 := <["dps" := S (3 * j + 1)]> idx3).
  assert (idx4 !! "dps" = Some (3 * j + 2)) as H5 by (unfold idx4; rewrite lookup_insert; f_equal; lia).
  destruct (decide (3 * j + 2 < length dps)) as [Hd2|Hd2].
  2: { rewrite decide_False by (intros (? & ? & ?); lia). eapply fill_none; [exact H5|lia]. }
  destruct (lookup_lt_is_Some_2 dps (3 * j + 2) Hd2) as [x5 Hx5].
  rewrite (fill_some "dps" (TeamState idx4 [x1; x2; x3; x4] false) (3 * j + 2) x5) by done. cbn [ts_idx ts_roster ts_exhausted app].
  rewrite decide_True by (unfold enough; lia).
  exists [x1; x2; x3; x4; x5]. split; [done|]. split.
  - unfold TeamNumber. cbn [map]. by rewrite Hx1, Hx2, Hx3, Hx4, Hx5.
  - unfold idx_at, idx4, idx3, idx2, idx1. split; [by lk|]. split; [by lk|]. rewrite lookup_insert. f_equal. lia.
Qed.

Lemma fill_match k idx : idx_at idx (2 * k) →
  if decide (enough (2 * k + 1)) then
    ∃ idx' rs, fill_teams pools num_teams 1 idx false ∅ = (idx', false, rs) ∧ idx_at idx' (2 * S k) ∧
      ∀ id e, TeamMatch tanks healers dps k (Match id rs e)
  else ∃ idx' rs, fill_teams pools num_teams 1 idx false ∅ = (idx', true, rs).
Proof.
  intros Hidx. unfold num_teams. cbn [fill_teams].
  change ("team" +:+ format_pad 2 (N.of_nat 1)) with "team01".
  change ("team" +:+ format_pad 2 (N.of_nat 2)) with "team02".
  pose proof (fill_team _ _ Hidx) as H1. case_decide as E1.
  - destruct H1 as (l1 & Hf1 & Hn1 & Hi1). rewrite Hf1. cbn [ts_idx ts_roster ts_exhausted].
    set (idx1 := ts_idx (foldl (fill_slot pools) (TeamState idx [] false) team_comp)) in *.
    pose proof (fill_team _ _ Hi1) as H2. case_decide as E2.
    + destruct H2 as (l2 & Hf2 & Hn2 & Hi2). rewrite Hf2. cbn [ts_idx ts_roster ts_exhausted].
      rewrite decide_True by (unfold enough in *; lia). eexists _, _. split; [reflexivity|]. split.
      * replace (2 * S k) with (S (S (2 * k))) by lia. exact Hi2.
      * intros id e. exists l1, l2. split; [|split].
        -- cbn [ma_rosters]. rewrite insert_commute by done. done.
        -- done.
        -- replace (2 * k + 1) with (S (2 * k)) by lia. done.
    + rewrite decide_False by (replace (2 * k + 1) with (S (2 * k)) by lia; done).
      eexists _, _. rewrite H2. reflexivity.
  - rewrite decide_False by (unfold enough in *; lia). eexists _, _.
    rewrite H1.
    set (s := foldl (fill_slot pools) (TeamState idx [] false) team_comp).
    rewrite (fill_exhausted_all team_comp (TeamState (ts_idx s) [] true)) by done. reflexivity.
Qed.

Definition team_limit : nat := length tanks `div` 2 `min` (length healers `div` 2) `min` (length dps `div` 6).

Lemma enough_limit k : enough (2 * k + 1) ↔ k < team_limit.
Proof.
  unfold enough, team_limit.
  pose proof (Nat.div_mod (length tanks) 2). pose proof (Nat.mod_upper_bound (length tanks) 2).
  pose proof (Nat.div_mod (length healers) 2). pose proof (Nat.mod_upper_bound (length healers) 2).
  pose proof (Nat.div_mod (length dps) 6). pose proof (Nat.mod_upper_bound (length dps) 6).
  lia.
Qed.

Lemma team_loop_spec times fuel : ∀ k idx num, idx_at idx (2 * k) → k ≤ team_limit →
  length (team_loop fuel times num pools idx) = fuel `min` (team_limit - k) ∧
  ∀ i m, team_loop fuel times num pools idx !! i = Some m → TeamMatch tanks healers dps (k + i) m.
Proof.
  induction fuel as [|fuel IH]; intros k idx num Hidx Hk; [split; [done|]; intros i m Hm; by destruct i|].
  cbn [team_loop]. pose proof (fill_match k idx Hidx) as H. case_decide as E.
  - destruct H as (idx' & rs & -> & Hidx' & HM). apply enough_limit in E.
    destruct (IH (S k) idx' (num + 1)%N Hidx' ltac:(lia)) as [H1 H2]. split.
    + cbn [length]. rewrite H1. lia.
    + intros [|i] m Hm; cbn [lookup list_lookup] in Hm.
      * injection Hm as <-. rewrite Nat.add_0_r. apply HM.
      * replace (k + S i) with (S k + i) by lia. by apply H2.
  - destruct H as (idx' & rs & ->). rewrite enough_limit in E. split; [|intros i m Hm; by destruct i].
    replace (team_limit - k) with 0 by lia. by rewrite Nat.min_0_r.
Qed.
End Team.

Lemma teamshooter_spec times pools :
  let tanks := NamedTickets pools "tank" in
  let healers := NamedTickets pools "healer" in
  let dps := NamedTickets pools "dps" in
  length (teamshooter times pools) =
    length tanks `div` 2 `min` (length healers `div` 2) `min` (length dps `div` 6) `min` Z.to_nat 100000 ∧
  ∀ k m, teamshooter times pools !! k = Some m → TeamMatch tanks healers dps k m.
Proof.
  intros tanks healers dps. unfold teamshooter.
  destruct (team_loop_spec pools times max_matches 0 start_indices 0%N) as [H1 H2].
  - split; [done|]. split; done.
  - lia.
  - split; [|exact H2]. rewrite H1. rewrite Nat.sub_0_r. unfold max_matches. apply Nat.min_comm.
Qed.

(** ** Ids *)
Lemma digits_no_dash a b : all_digits (a +:+ String "-" b) = false.
Proof. rewrite all_digits_app. cbn. by rewrite andb_false_r. Qed.
Lemma last_dash a b d1 d2 :
  all_digits d1 = true → all_digits d2 = true → a +:+ String "-" d1 = b +:+ String "-" d2 → d1 = d2.
Proof.
  intros H1 H2. revert b. induction a as [|c a IH]; intros [|c' b] H; cbn in H.
  - by injection H.
  - injection H as _ H. rewrite H, digits_no_dash in H1. done.
  - injection H as _ H. rewrite <-H, digits_no_dash in H2. done.
  - injection H as _ H. by apply (IH b).
Qed.
Lemma match_id_inj fn fn' t t' n n' : match_id fn t n = match_id fn' t' n' → n = n'.
Proof.
  unfold match_id. intros H. apply format_N_inj.
  eapply (last_dash ("profile-" +:+ fn +:+ "-time-" +:+ t +:+ "-num") ("profile-" +:+ fn' +:+ "-time-" +:+ t' +:+ "-num"));
    [apply format_N_digits|apply format_N_digits|].
  rewrite !app_assoc_s. exact H.
Qed.

Definition numbered (fn : string) (times : N → string) (num : N) (ms : list match_) : Prop :=
  ∀ i m, ms !! i = Some m → ma_id m = match_id fn (times (num + N.of_nat i)%N) (num + N.of_nat i)%N.

Lemma numbered_nil fn times num : numbered fn times num [].
Proof. intros [|i] m H; done. Qed.
Lemma numbered_cons fn times num m ms :
  ma_id m = match_id fn (times num) num → numbered fn times (num + 1) ms → numbered fn times num (m :: ms).
Proof.
  intros Hm Hms [|i] m' H; cbn [lookup list_lookup] in H.
  - injection H as <-. by rewrite N.add_0_r.
  - rewrite (Hms i m' H). replace (num + 1 + N.of_nat i)%N with (num + N.of_nat (S i))%N by lia. done.
Qed.
Lemma numbered_distinct fn times num ms : numbered fn times num ms → NoDup (ma_id <$> ms).
Proof.
  intros H. apply NoDup_alt. intros i j x Hi Hj. rewrite list_lookup_fmap in Hi, Hj.
  destruct (ms !! i) as [mi|] eqn:Ei; [|done]. destruct (ms !! j) as [mj|] eqn:Ej; [|done].
  cbn in Hi, Hj. injection Hi as <-. injection Hj as Hj. rewrite (H i mi Ei), (H j mj Ej) in Hj.
  apply match_id_inj in Hj. lia.
Qed.

Lemma solo_numbered t ts : ∀ ps num, numbered solo_name (λ _, t) num (solo_loop t ps num ts).
Proof.
  induction ts as [|x ts IH]; intros ps num; cbn [solo_loop]; [apply numbered_nil|].
  destruct (_ <=? _); [|apply IH]. by apply numbered_cons.
Qed.
Lemma royale_numbered t ts fuel : ∀ i num, numbered royale_name (λ _, t) num (royale_loop fuel t i num ts).
Proof.
  induction fuel as [|fuel IH]; intros i num; cbn [royale_loop]; [apply numbered_nil|].
  destruct (_ <=? _); [|apply numbered_nil]. by apply numbered_cons.
Qed.
Lemma team_numbered times pools fuel : ∀ num idx, numbered team_name times num (team_loop fuel times num pools idx).
Proof.
  induction fuel as [|fuel IH]; intros num idx; cbn [team_loop]; [apply numbered_nil|].
  destruct (fill_teams _ _ _ _ _ _) as [[idx' []] rs]; [apply numbered_nil|]. by apply numbered_cons.
Qed.
Lemma solo_ids t ps : NoDup (ma_id <$> soloduel t ps).
Proof. eapply numbered_distinct, solo_numbered. Qed.
Lemma royale_ids t pools : NoDup (ma_id <$> battleroyale t pools).
Proof. eapply numbered_distinct, royale_numbered. Qed.
Lemma team_ids times pools : NoDup (ma_id <$> teamshooter times pools).
Proof. eapply numbered_distinct, team_numbered. Qed.

(** Functions whose request could not be read return no match. *)
Lemma no_request_no_match t times r : r = RecvErr ∨ r = RecvNil →
  soloduel t (map_to_list (request_pools r)) = [] ∧ battleroyale t (request_pools r) = [] ∧
  teamshooter times (request_pools r) = [].
Proof.
  intros Hr. assert (request_pools r = ∅) as -> by by destruct Hr as [->| ->].
  split; [done|]. split; [done|]. destruct (teamshooter_spec times ∅) as [H _].
  apply nil_length_inv. rewrite H. done.
Qed.
