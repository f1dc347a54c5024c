(** Property theorems about the sample matchmaking functions: C48 - C52. *)
From Coq Require Import Ascii String ZArith NArith Lia.
From stdpp Require Import prelude strings gmap.
From Verif.Model Require Import GoStrings Types Chunk Mmf.
From Verif.Spec Require Import MmfSpec.
From Verif.Proofs Require Import MmfLemmas.
Local Open Scope string_scope.
Local Open Scope nat_scope.

Definition numbered_ticket (s : string) (n : nat) : ticket := Ticket (s +:+ format_N (N.of_nat n)) None None ∅.
Definition ticket_list (s : string) (n : nat) : list ticket := map (numbered_ticket s) (seq 0 n).
Definition filled_pool (ts : list ticket) : pool := Pool "" [] [] [] None (Some (Roster "r" None ts ∅)) ∅.

(** C48: for every order [ps] of the pools, the matches are the consecutive pairs
    of the tickets of all pools. *)
Theorem C48_duels_pair_tickets_in_order : ∀ time ps, FirstGroups 2 (AllTickets ps) (soloduel time ps).
Proof. exact soloduel_groups. Qed.
Print Assumptions C48_duels_pair_tickets_in_order.

Example C48_example :
  soloduel "T" [("p", filled_pool (ticket_list "a" 3)); ("q", filled_pool (ticket_list "b" 2))] =
    [single_match solo_name "T" 0 [numbered_ticket "a" 0; numbered_ticket "a" 1];
     single_match solo_name "T" 1 [numbered_ticket "a" 2; numbered_ticket "b" 0]].
Proof. refine (bool_decide_eq_true_1 _ _); vm_compute; reflexivity. Qed.

(** C49: no ticket is matched against itself. *)
Definition C49_no_self_match : Prop :=
  ∀ time ps m l, NoDup ps.*1 → Forall (λ kv, NoDup (tk_id <$> PoolTickets kv.2)) ps →
    m ∈ soloduel time ps → SingleRoster m l → NoDup (tk_id <$> l).

(** It is false: one ticket in two pools. *)
Theorem C49_no_self_match_refuted : ¬ C49_no_self_match.
Proof.
  intros H. set (x := numbered_ticket "a" 0).
  assert (NoDup (tk_id <$> [x; x])) as Hd.
  { apply (H "T" [("p", filled_pool [x]); ("q", filled_pool [x])] (single_match solo_name "T" 0 [x; x])).
    - refine (bool_decide_eq_true_1 _ _); vm_compute; reflexivity.
    - constructor; [apply NoDup_singleton|]. constructor; [apply NoDup_singleton|constructor].
    - left.
    - by eexists. }
  apply NoDup_cons in Hd as [Hd _]. apply Hd. left.
Qed.
Print Assumptions C49_no_self_match_refuted.

(** C49 when no ticket is in two pools. *)
Theorem C49_no_self_match_partial : ∀ time ps m l,
  NoDup (tk_id <$> AllTickets ps) → m ∈ soloduel time ps → SingleRoster m l → NoDup (tk_id <$> l).
Proof. exact soloduel_distinct. Qed.
Print Assumptions C49_no_self_match_partial.

Example C49_example :
  let ps := [("p", filled_pool (ticket_list "a" 3)); ("q", filled_pool (ticket_list "b" 2))] in
  NoDup (tk_id <$> AllTickets ps) ∧
  SingleRoster (single_match solo_name "T" 1 [numbered_ticket "a" 2; numbered_ticket "b" 0])
    [numbered_ticket "a" 2; numbered_ticket "b" 0] ∧
  single_match solo_name "T" 1 [numbered_ticket "a" 2; numbered_ticket "b" 0] ∈ soloduel "T" ps.
Proof.
  split; [refine (bool_decide_eq_true_1 _ _); vm_compute; reflexivity|]. split; [by eexists|].
  rewrite C48_example. right. left.
Qed.

(** C50: the matches are the consecutive hundreds of the pool "competitive". *)
Theorem C50_royale_fills_hundreds : ∀ time pools,
  FirstGroups 100 (NamedTickets pools "competitive") (battleroyale time pools).
Proof. exact battleroyale_groups. Qed.
Print Assumptions C50_royale_fills_hundreds.

Example C50_example :
  length (battleroyale "T" {["competitive" := filled_pool (ticket_list "a" 250)]}) = 2 ∧
  length (battleroyale "T" {["competitive" := filled_pool (ticket_list "a" 200)]}) = 2 ∧
  length (battleroyale "T" {["competitive" := filled_pool (ticket_list "a" 199)]}) = 1 ∧
  battleroyale "T" {["casual" := filled_pool (ticket_list "a" 250)]} = [].
Proof. split_and!; vm_compute; reflexivity. Qed.

(** C51: complete teams, every ticket used once, in order, as many matches as
    possible. *)
Theorem C51_team_matches_complete_and_maximal : ∀ times pools,
  let tanks := NamedTickets pools "tank" in
  let healers := NamedTickets pools "healer" in
  let dps := NamedTickets pools "dps" in
  length (teamshooter times pools) =
    length tanks `div` 2 `min` (length healers `div` 2) `min` (length dps `div` 6) `min` Z.to_nat 100000 ∧
  ∀ k m, teamshooter times pools !! k = Some m → TeamMatch tanks healers dps k m.
Proof. exact teamshooter_spec. Qed.
Print Assumptions C51_team_matches_complete_and_maximal.

Definition team_pools (a b c : nat) : gmap string pool :=
  {["tank" := filled_pool (ticket_list "t" a); "healer" := filled_pool (ticket_list "h" b);
    "dps" := filled_pool (ticket_list "d" c)]}.
Example C51_example :
  length (teamshooter (λ _, "T") (team_pools 5 4 13)) = 2 ∧ length (teamshooter (λ _, "T") (team_pools 5 4 11)) = 1 ∧
  (map tk_id <$> (ro_tickets <$> (ma_rosters <$> teamshooter (λ _, "T") (team_pools 5 4 13) !! 1) ≫= lookup "team02")) =
    Some ["t3"; "h3"; "d9"; "d10"; "d11"].
Proof. split_and!; vm_compute; reflexivity. Qed.

(** C52: match ids are unique within a run. *)
Theorem C52_duel_ids_unique : ∀ time ps, NoDup (ma_id <$> soloduel time ps).
Proof. exact solo_ids. Qed.
Print Assumptions C52_duel_ids_unique.
Theorem C52_royale_ids_unique : ∀ time pools, NoDup (ma_id <$> battleroyale time pools).
Proof. exact royale_ids. Qed.
Print Assumptions C52_royale_ids_unique.
Theorem C52_team_ids_unique : ∀ times pools, NoDup (ma_id <$> teamshooter times pools).
Proof. exact team_ids. Qed.
Print Assumptions C52_team_ids_unique.

Example C52_example :
  ma_id <$> soloduel "T" [("p", filled_pool (ticket_list "a" 22))] !! 10 =
    Some "profile-a-simple-1v1-matchfunction-time-T-num-10".
Proof. vm_compute. reflexivity. Qed.
