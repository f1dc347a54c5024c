(** C90-C93: the sample matchmaking functions on what om-core sends them. *)
From Coq Require Import Ascii String ZArith NArith Lia.
From stdpp Require Import prelude strings gmap relations.
From Verif.Model Require Import GoStrings Types Filter Wire Proto Cache Replica Handlers MemRepl Queues RedisRepl Snapshot Chunk Mmf Samples System RedisSystem.
From Verif.Spec Require Import HandlerSpec CacheSpec ChunkSpec SystemSpec EndToEndSpec MmfSpec SampleSpec.
From Verif.Proofs Require Import SampleLemmas.
From Verif.Props Require Import ChunkProps MmfProps.

(** ** C90: matches are made of tickets of the right pools, and few are left over *)

(** With one instance and the in-memory store: a sample function does not panic, and
    every ticket in its matches was created by a client, is known to that client by
    the id it has in the match, and passes the filters of a pool the function uses. *)
Theorem C90_matches_of_clients_tickets : ∀ cfg t0 s1 s2 ts p f o,
  (0 <= t0)%Z → SaneTTL (cfg_ticket_ttl cfg) → mreach cfg t0 s1 → rtc (mstep cfg) s1 s2 →
  ValidCreates cfg (ms_inst s2) → SnapshotBetween cfg (ms_inst s1) (ms_inst s2) ts → CountFits p ts →
  SampleOutcome p ts f None o →
  ∃ ms, o = Done ms ∧ ∀ t, t ∈ RunTickets ms →
    (∃ n, SamplePool f n ∧ Eligible p n t) ∧
    ∃ i cl now req, in_calls (ms_inst s2) !! i = Some cl ∧ CreateCall cfg cl now req ∧
      StoredAs (cfg_ticket_ttl cfg) now (tk_id t) req t ∧ (∀ r, r ∈ cl_got cl → r = Response (tk_id t) None).
Proof. exact mem_sample. Qed.
Print Assumptions C90_matches_of_clients_tickets.

(** The same for several instances on one Redis stream. *)
Theorem C90_matches_of_clients_tickets_redis : ∀ cfg s1 s2 n x1 x2 ts p f o,
  SaneTTL (cfg_ticket_ttl cfg) →
  yreach cfg s1 → rtc (ystep cfg) s1 s2 → ry_insts s1 !! n = Some x1 → ry_insts s2 !! n = Some x2 →
  AllValidCreates cfg s2 → SnapshotBetween cfg (rx_inst x1) (rx_inst x2) ts → CountFits p ts →
  SampleOutcome p ts f None o →
  ∃ ms, o = Done ms ∧ ∀ t, t ∈ RunTickets ms →
    (∃ q, SamplePool f q ∧ Eligible p q t) ∧
    ∃ m y i cl now req, ry_insts s2 !! m = Some y ∧ in_calls (rx_inst y) !! i = Some cl ∧ CreateCall cfg cl now req ∧
      StoredAs (cfg_ticket_ttl cfg) now (tk_id t) req t ∧
      (AllSendable y → ∀ r, r ∈ cl_got cl → Good r → r_result r = tk_id t).
Proof. exact red_sample. Qed.
Print Assumptions C90_matches_of_clients_tickets_redis.

(** All tickets of the matches are from the snapshot. *)
Theorem C90_matches_from_snapshot : ∀ p ts f ms t,
  NoFilterPanic p ts → CountFits p ts → SampleOutcome p ts f None (Done ms) → t ∈ RunTickets ms →
  t ∈ ts ∧ ∃ n, SamplePool f n ∧ Eligible p n t.
Proof. exact sample_sound. Qed.
Print Assumptions C90_matches_from_snapshot.

(** soloduel leaves at most one of the tickets that are eligible for some pool. *)
Theorem C90_duels_leave_at_most_one : ∀ p ts ms u,
  NoFilterPanic p ts → CountFits p ts → SampleOutcome p ts Solo None (Done ms) → NoDup u →
  (∀ t, t ∈ u → t ∈ ts ∧ (∃ n, Eligible p n t) ∧ t ∉ RunTickets ms) → length u <= 1.
Proof. exact solo_leaves. Qed.
Print Assumptions C90_duels_leave_at_most_one.

(** battleroyale leaves fewer than 100 of the tickets eligible for "competitive". *)
Theorem C90_royale_leaves_less_than_a_match : ∀ p ts ms u,
  NoFilterPanic p ts → CountFits p ts → SampleOutcome p ts Royale None (Done ms) → NoDup u →
  (∀ t, t ∈ u → t ∈ ts ∧ Eligible p "competitive" t ∧ t ∉ RunTickets ms) → length u <= 99.
Proof. exact royale_leaves. Qed.
Print Assumptions C90_royale_leaves_less_than_a_match.

(** teamshooter makes as many matches as the tickets of the three pools allow, up to
    the limit of 100000. *)
Theorem C90_teams_as_many_as_possible : ∀ p ts ms,
  NoFilterPanic p ts → CountFits p ts → SampleOutcome p ts Team None (Done ms) →
  let tanks := filter (Eligible p "tank") ts in
  let healers := filter (Eligible p "healer") ts in
  let dps := filter (Eligible p "dps") ts in
  length ms = length tanks `div` 2 `min` (length healers `div` 2) `min` (length dps `div` 6) `min` Z.to_nat 100000 ∧
  ∀ k m, ms !! k = Some m → TeamMatch tanks healers dps k m.
Proof. exact team_matches. Qed.
Print Assumptions C90_teams_as_many_as_possible.

(** A profile with one pool per role, and players. *)
Section example.
Local Open Scope string_scope.
Definition role_profile : profile :=
  Profile "shooter" {["tank" := tag_pool "tank"; "healer" := tag_pool "healer"; "dps" := tag_pool "dps"]} ∅.
Definition versatile (n : nat) : ticket := tagged (format_N (N.of_nat n) +:+ "-0") ["tank"; "healer"; "dps"].
Definition versatiles : list ticket := map versatile (seq 0 6).
Definition specialists : list ticket :=
  [tagged "1-0" ["tank"]; tagged "2-0" ["dps"]; tagged "3-0" ["healer"]; tagged "4-0" ["tank"]; tagged "5-0" ["dps"];
   tagged "6-0" ["dps"]; tagged "7-0" ["healer"]; tagged "8-0" ["dps"]; tagged "9-0" ["dps"]; tagged "10-0" ["dps"];
   tagged "11-0" ["dps"]].

Lemma role_no_panic ids : NoFilterPanic role_profile (map (λ x, tagged x.1 x.2) ids).
Proof.
  intros t n q Ht Hq _. apply elem_of_list_fmap in Ht as (x & -> & _). unfold role_profile in Hq. cbn [pr_pools] in Hq.
  rewrite !lookup_insert_Some, lookup_singleton_Some in Hq.
  destruct Hq as [[<- <-]|[_ [[<- <-]|[_ [<- <-]]]]]; cbn; repeat case_match; done.
Qed.

Lemma specialists_no_panic : NoFilterPanic role_profile specialists.
Proof.
  exact (role_no_panic [("1-0", ["tank"]); ("2-0", ["dps"]); ("3-0", ["healer"]); ("4-0", ["tank"]); ("5-0", ["dps"]);
    ("6-0", ["dps"]); ("7-0", ["healer"]); ("8-0", ["dps"]); ("9-0", ["dps"]); ("10-0", ["dps"]); ("11-0", ["dps"])]).
Qed.
Lemma versatiles_no_panic : NoFilterPanic role_profile versatiles.
Proof. exact (role_no_panic (map (λ n, (format_N (N.of_nat n) +:+ "-0", ["tank"; "healer"; "dps"])) (seq 0 6))). Qed.
Lemma specialists_fit : CountFits role_profile specialists.
Proof. vm_compute. reflexivity. Qed.
Lemma versatiles_fit : CountFits role_profile versatiles.
Proof. vm_compute. reflexivity. Qed.

(** Eleven specialists make one match; the seventh damage dealer is left. *)
Example C90_example : ∃ ms, SampleOutcome role_profile specialists Team None (Done ms) ∧ length ms = 1 ∧
  ∀ k m, ms !! k = Some m →
    TeamMatch [tagged "1-0" ["tank"]; tagged "4-0" ["tank"]] [tagged "3-0" ["healer"]; tagged "7-0" ["healer"]]
      [tagged "2-0" ["dps"]; tagged "5-0" ["dps"]; tagged "6-0" ["dps"]; tagged "8-0" ["dps"]; tagged "9-0" ["dps"];
       tagged "10-0" ["dps"]; tagged "11-0" ["dps"]] k m.
Proof.
  destruct (sample_exists role_profile specialists Team specialists_no_panic specialists_fit) as [ms Hms].
  exists ms. split; [exact Hms|]. destruct (team_matches _ _ _ specialists_no_panic specialists_fit Hms) as [H1 H2].
  assert (E1 : filter (Eligible role_profile "tank") specialists = [tagged "1-0" ["tank"]; tagged "4-0" ["tank"]]).
  { refine (bool_decide_eq_true_1 _ _); vm_compute; reflexivity. }
  assert (E2 : filter (Eligible role_profile "healer") specialists = [tagged "3-0" ["healer"]; tagged "7-0" ["healer"]]).
  { refine (bool_decide_eq_true_1 _ _); vm_compute; reflexivity. }
  assert (E3 : filter (Eligible role_profile "dps") specialists =
    [tagged "2-0" ["dps"]; tagged "5-0" ["dps"]; tagged "6-0" ["dps"]; tagged "8-0" ["dps"]; tagged "9-0" ["dps"];
       tagged "10-0" ["dps"]; tagged "11-0" ["dps"]]).
  { refine (bool_decide_eq_true_1 _ _); vm_compute; reflexivity. }
  rewrite E1, E2, E3 in *. split; [|exact H2]. rewrite H1.
  change (1 `min` Z.to_nat 100000 = 1)%nat. lia.
Qed.
End example.

(** ** C91: no ticket is used twice in a run *)
Definition C91_ticket_used_once (f : sample) : Prop := ∀ p ts ms,
  NoFilterPanic p ts → CountFits p ts → NoDup (tk_id <$> ts) → SampleOutcome p ts f None (Done ms) →
  NoDup (tk_id <$> RunTickets ms).

(** It is false of soloduel and teamshooter: a player who fits several roles is used
    once for each of them. *)
Theorem C91_ticket_used_once_refuted : ∀ f, f ≠ Royale → ¬ C91_ticket_used_once f.
Proof.
  intros f Hf H. destruct (sample_exists role_profile versatiles f versatiles_no_panic versatiles_fit) as [ms Hms].
  assert (Hnd : NoDup (tk_id <$> versatiles)) by (refine (bool_decide_eq_true_1 _ _); vm_compute; reflexivity).
  refine (run_repeats _ _ _ _ Hf versatiles_no_panic versatiles_fit Hms _ eq_refl
            (H _ _ _ versatiles_no_panic versatiles_fit Hnd Hms)).
  intros n t Hn Ht. refine (bool_decide_eq_true_1 (Eligible _ _ _) _).
  assert (Hall : forallb (λ n, forallb (λ t, bool_decide (Eligible role_profile n t)) versatiles) ["tank"; "healer"; "dps"]%string = true)
    by (vm_compute; reflexivity).
  rewrite forallb_forall in Hall. specialize (Hall n (proj1 (elem_of_list_In _ _) Hn)). rewrite forallb_forall in Hall.
  exact (Hall t (proj1 (elem_of_list_In _ _) Ht)).
Qed.
Print Assumptions C91_ticket_used_once_refuted.

(** It holds when no ticket is eligible for two of the pools that the function uses;
    so for battleroyale always. *)
Theorem C91_ticket_used_once_partial : ∀ p ts f ms,
  NoFilterPanic p ts → CountFits p ts → NoDup (tk_id <$> ts) →
  (∀ t n n', t ∈ ts → SamplePool f n → SamplePool f n' → Eligible p n t → Eligible p n' t → n = n') →
  SampleOutcome p ts f None (Done ms) → NoDup (tk_id <$> RunTickets ms).
Proof. exact sample_distinct. Qed.
Print Assumptions C91_ticket_used_once_partial.

Theorem C91_royale_uses_tickets_once : C91_ticket_used_once Royale.
Proof. intros p ts ms Hp Hf Hn. apply sample_distinct; [done..|]. intros t n n' _ -> ->. done. Qed.
Print Assumptions C91_royale_uses_tickets_once.

(** The specialists above fit one role each. *)
Example C91_example : ∀ t n n', t ∈ specialists → SamplePool Team n → SamplePool Team n' →
  Eligible role_profile n t → Eligible role_profile n' t → n = n'.
Proof.
  intros t n n' Ht Hn Hn' He He'.
  assert (Hall : forallb (λ t, forallb (λ n, forallb (λ n',
      bool_decide (Eligible role_profile n t → Eligible role_profile n' t → n = n')) ["tank"; "healer"; "dps"]%string)
      ["tank"; "healer"; "dps"]%string) specialists = true) by (vm_compute; reflexivity).
  rewrite forallb_forall in Hall. specialize (Hall t (proj1 (elem_of_list_In _ _) Ht)). rewrite forallb_forall in Hall.
  specialize (Hall n (proj1 (elem_of_list_In _ _) Hn)). rewrite forallb_forall in Hall.
  specialize (Hall n' (proj1 (elem_of_list_In _ _) Hn')). exact (bool_decide_eq_true_1 _ Hall He He').
Qed.

(** ** C92: a function that can not read its whole request makes no match *)
Theorem C92_broken_request_no_match : ∀ p ts f k o,
  NoFilterPanic p ts → CountFits p ts → SampleOutcome p ts f (Some k) o → o = Done [].
Proof. exact sample_broken. Qed.
Print Assumptions C92_broken_request_no_match.

Example C92_example :
  (∃ o, SampleOutcome role_profile specialists Team (Some 0) o) ∧
  get_chunked_request [(Chunk (Profile "x" {["tank"%string := filled_pool (ticket_list "a" 4)]} ∅) 2,
                        [("tank"%string, filled_pool (ticket_list "a" 4))])] = Done RecvErr.
Proof. split; [exact (broken_exists _ _ _ specialists_no_panic specialists_fit)|]. vm_compute. reflexivity. Qed.

(** ** C93: match ids of different runs differ *)
Definition C93_ids_of_runs_differ : Prop := ∀ f show clock ps r clock' ps' r' ms ms' m m',
  (∀ a b, show a = show b → a = b) → (∀ k k', clock k ≠ clock' k') →
  run_sample f show clock ps r = Done ms → run_sample f show clock' ps' r' = Done ms' →
  m ∈ ms → m' ∈ ms' → ma_id m ≠ ma_id m'.

(** It is false: the time in an id is cut off to hundredths of a second. *)
Theorem C93_ids_of_runs_differ_refuted : ¬ C93_ids_of_runs_differ.
Proof.
  intros H. set (ps := [("p"%string, filled_pool (ticket_list "a" 2))]).
  assert (Hr : ∀ t, t = 0%Z ∨ t = 1%Z → run_sample Solo format_Z (λ _, t) ps (Received (Profile "" ∅ ∅)) =
    Done [single_match solo_name "0" 0 (ticket_list "a" 2)]).
  { intros t [-> | ->]; refine (bool_decide_eq_true_1 _ _); vm_compute; reflexivity. }
  refine (H Solo format_Z (λ _, 0%Z) ps _ (λ _, 1%Z) ps _ _ _ _ _ format_Z_inj _
            (Hr 0%Z (or_introl eq_refl)) (Hr 1%Z (or_intror eq_refl)) (elem_of_list_here _ _) (elem_of_list_here _ _) eq_refl).
  intros _ _. done.
Qed.
Print Assumptions C93_ids_of_runs_differ_refuted.

(** It holds for runs that read the clock in different hundredths of a second, and
    for different functions always. *)
Theorem C93_ids_of_runs_differ_partial : ∀ f show clock ps r clock' ps' r' ms ms' m m',
  (∀ a b, show a = show b → a = b) → (∀ k k', clock k / 10000000 ≠ clock' k' / 10000000)%Z →
  run_sample f show clock ps r = Done ms → run_sample f show clock' ps' r' = Done ms' →
  m ∈ ms → m' ∈ ms' → ma_id m ≠ ma_id m'.
Proof. exact runs_ids_differ. Qed.
Print Assumptions C93_ids_of_runs_differ_partial.

Theorem C93_ids_of_functions_differ : ∀ f f' show clock ps r show' clock' ps' r' ms ms' m m',
  f ≠ f' → run_sample f show clock ps r = Done ms → run_sample f' show' clock' ps' r' = Done ms' →
  m ∈ ms → m' ∈ ms' → ma_id m ≠ ma_id m'.
Proof. exact functions_ids_differ. Qed.
Print Assumptions C93_ids_of_functions_differ.

Example C93_example :
  run_sample Solo format_Z (λ _, 17000000012345678%Z) [("p"%string, filled_pool (ticket_list "a" 2))] (Received (Profile "" ∅ ∅)) =
    Done [single_match solo_name "1700000001" 0 (ticket_list "a" 2)].
Proof. refine (bool_decide_eq_true_1 _ _); vm_compute; reflexivity. Qed.
