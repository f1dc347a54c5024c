(** Property theorems about the example's players and decisions: C99 - C103. *)
From Coq Require Import Ascii String ZArith NArith Lia.
From stdpp Require Import prelude strings gmap relations.
From Verif.Model Require Import GoStrings Types Filter Wire Proto Cache Replica Handlers Invoke Chunk Mmf Samples System RedisSystem MockFrontend.
From Verif.Spec Require Import HandlerSpec ChunkSpec SystemSpec EndToEndSpec SampleSpec InvokeSpec MockSpec.
From Verif.Proofs Require Import FilterLemmas SampleLemmas MockLemmas.
Local Open Scope string_scope.
Local Open Scope nat_scope.

(** C99: when all tickets come from the mock frontend, every ticket a function of the
    example can be given is in exactly one of the example's pools, the one of its class,
    and a run of any of the functions uses no ticket twice. *)
Theorem C99_players_used_once : ∀ cfg t0 s1 s2 ts f o,
  (0 <= t0)%Z → SaneTTL (cfg_ticket_ttl cfg) → mreach cfg t0 s1 → rtc (mstep cfg) s1 s2 →
  MockCreates cfg (ms_inst s2) → SnapshotBetween cfg (ms_inst s1) (ms_inst s2) ts → CountFits example_profile ts →
  SampleOutcome example_profile ts f None o →
  (∀ t, t ∈ ts → ∃ c, c ∈ ["tank"; "healer"; "dps"] ∧ ClassOf t c ∧ ∀ n, Eligible example_profile n t ↔ n = c) ∧
  ∃ ms, o = Done ms ∧ NoDup (map tk_id (RunTickets ms)).
Proof. exact mem_players. Qed.
Print Assumptions C99_players_used_once.

(** The same for several instances on one Redis stream. *)
Theorem C99_players_used_once_redis : ∀ cfg s1 s2 n x1 x2 ts f o,
  SaneTTL (cfg_ticket_ttl cfg) →
  yreach cfg s1 → rtc (ystep cfg) s1 s2 → ry_insts s1 !! n = Some x1 → ry_insts s2 !! n = Some x2 →
  AllMockCreates cfg s2 → SnapshotBetween cfg (rx_inst x1) (rx_inst x2) ts → CountFits example_profile ts →
  SampleOutcome example_profile ts f None o →
  (∀ t, t ∈ ts → ∃ c, c ∈ ["tank"; "healer"; "dps"] ∧ ClassOf t c ∧ ∀ n, Eligible example_profile n t ↔ n = c) ∧
  ∃ ms, o = Done ms ∧ NoDup (map tk_id (RunTickets ms)).
Proof. exact red_players. Qed.
Print Assumptions C99_players_used_once_redis.

(** om-core accepts the tickets of the mock frontend. *)
Theorem C99_players_accepted : ∀ req, MockTicket req → ClientTicketOk req.
Proof. exact mock_client_ok. Qed.
Print Assumptions C99_players_accepted.

(** What their requests say; [t] is the time, [d] the time as a double, [r] the random number. *)
Theorem C99_request : ∀ t d r, (- 2 ^ 63 <= t < 2 ^ 63)%Z → (0 <= r < 5)%Z →
  PlayerRequest t d (if (r =? 0)%Z then "tank" else if (r =? 1)%Z then "healer" else "dps") (mock_ticket t d r).
Proof. exact mock_request. Qed.
Print Assumptions C99_request.

(** One in five players is a tank, one a healer, three deal damage. *)
Definition n_ts : instant := 1700000000123456789%Z.
Example C99_example :
  map (λ r, mock_class (Z.of_nat r)) (seq 0 5) = ["tank"; "healer"; "dps"; "dps"; "dps"] ∧
  (∀ t, MockTicket t → t ≠ Ticket "" None None ∅) ∧ MockTicket (mock_ticket n_ts 0%N 4%Z) ∧
  bool_decide (Eligible example_profile "dps" (mock_ticket n_ts 0%N 4%Z)) = true ∧
  bool_decide (Eligible example_profile "tank" (mock_ticket n_ts 0%N 4%Z)) = false ∧
  tk_attrs (mock_ticket n_ts 0%N 4%Z) = Some (Filterable ["1700000000123456789"] {["class" := "dps"]}
    {["1700000000123456789" := 0%N]} (Some (Timestamp 1700000000 123456789))).
Proof.
  split; [reflexivity|]. split; [by intros t (t0 & d & r & _ & _ & _ & ->)|]. split.
  { exists n_ts, 0%N, 4%Z. split; [|split; [reflexivity|split; [lia|reflexivity]]]. unfold SaneNow, n_ts. lia. }
  split; [vm_compute; reflexivity|]. split; [vm_compute; reflexivity|].
  refine (bool_decide_eq_true_1 _ _). vm_compute. reflexivity.
Qed.

(** C100: every function the example calls makes a match when there are many players of
    each class. *)
Definition C100_every_function_matches : Prop := ∀ f ts ms, f ∈ example_functions →
  NoFilterPanic example_profile ts → CountFits example_profile ts → NoDup (map tk_id ts) →
  (∀ c, c ∈ ["tank"; "healer"; "dps"] → 100 ≤ length (filter (Eligible example_profile c) ts)) →
  SampleOutcome example_profile ts f None (Done ms) → ms ≠ [].

(** A hundred players of each class. *)
Definition player (c : string) (n : nat) : ticket :=
  Ticket (c +:+ format_N (N.of_nat n)) None (Some (Filterable [] {["class" := c]} ∅ None)) ∅.
Definition crowd : list ticket :=
  concat (map (λ c, map (player c) (seq 0 100)) ["tank"; "healer"; "dps"]).
Lemma crowd_no_panic : NoFilterPanic example_profile crowd.
Proof.
  intros t n q Ht _ _ Hx. assert (∃ a, tk_attrs t = Some a) as [a Ha].
  { unfold crowd in Ht. apply elem_of_list_In, in_concat in Ht as (l & Hl & Ht). apply in_map_iff in Hl as (c & <- & _).
    apply in_map_iff in Ht as (k & <- & _). by eexists. }
  rewrite Ha in Hx. apply filter_panics in Hx as [Hx|(q' & _ & Hx & _)]; discriminate Hx.
Qed.
Lemma crowd_fits : CountFits example_profile crowd.
Proof. vm_compute. reflexivity. Qed.
Lemma crowd_classes c : c ∈ ["tank"; "healer"; "dps"] → length (filter (Eligible example_profile c) crowd) = 100.
Proof.
  intros Hc. assert (Hall : forallb (λ c, length (filter (Eligible example_profile c) crowd) =? 100) ["tank"; "healer"; "dps"] = true)
    by (vm_compute; reflexivity).
  rewrite forallb_forall in Hall. apply Nat.eqb_eq. apply Hall. by apply elem_of_list_In.
Qed.

(** It is false: battleroyale looks for a pool "competitive", which the example's
    profile does not have. *)
Theorem C100_every_function_matches_refuted : ¬ C100_every_function_matches.
Proof.
  intros H. destruct (sample_exists example_profile crowd Royale crowd_no_panic crowd_fits) as [ms Hms].
  refine (H Royale crowd ms _ crowd_no_panic crowd_fits _ _ Hms (royale_nothing _ _ crowd_no_panic crowd_fits Hms)).
  - right. left.
  - refine (bool_decide_eq_true_1 _ _). vm_compute. reflexivity.
  - intros c Hc. rewrite (crowd_classes c Hc). done.
Qed.
Print Assumptions C100_every_function_matches_refuted.

(** battleroyale never makes a match in the example; soloduel does as soon as two
    tickets are eligible, teamshooter with two tanks, two healers and six dps. *)
Theorem C100_royale_never_partial : ∀ ts ms,
  NoFilterPanic example_profile ts → CountFits example_profile ts →
  SampleOutcome example_profile ts Royale None (Done ms) → ms = [].
Proof. exact royale_nothing. Qed.
Print Assumptions C100_royale_never_partial.

Theorem C100_solo_partial : ∀ ts ms t t' c c',
  NoFilterPanic example_profile ts → CountFits example_profile ts →
  t ∈ ts → t' ∈ ts → t ≠ t' → Eligible example_profile c t → Eligible example_profile c' t' →
  SampleOutcome example_profile ts Solo None (Done ms) → ms ≠ [].
Proof. exact solo_some. Qed.
Print Assumptions C100_solo_partial.

Theorem C100_team_partial : ∀ ts ms,
  NoFilterPanic example_profile ts → CountFits example_profile ts →
  2 ≤ length (filter (Eligible example_profile "tank") ts) → 2 ≤ length (filter (Eligible example_profile "healer") ts) →
  6 ≤ length (filter (Eligible example_profile "dps") ts) →
  SampleOutcome example_profile ts Team None (Done ms) → ms ≠ [].
Proof. exact team_some. Qed.
Print Assumptions C100_team_partial.

Example C100_example : ∃ ms, SampleOutcome example_profile crowd Team None (Done ms) ∧ ms ≠ [].
Proof.
  destruct (sample_exists example_profile crowd Team crowd_no_panic crowd_fits) as [ms Hms]. exists ms. split; [exact Hms|].
  refine (team_some _ _ crowd_no_panic crowd_fits _ _ _ Hms); rewrite crowd_classes by (repeat constructor); lia.
Qed.

(** C101: the example accepts or rejects each match it gets, and queues exactly the
    tickets of rejected matches again. *)
Theorem C101_matches_sorted : ∀ ms acc rej, sort_matches ms [] [] = (acc, rej) →
  acc = (filter (λ x, rejects x.2 = false) ms).*1 ∧ rej = (filter (λ x, rejects x.2 = true) ms).*1 ∧
  (acc ++ rej)%list ≡ₚ ms.*1.
Proof. exact sort_matches_parts. Qed.
Print Assumptions C101_matches_sorted.

Theorem C101_rejected_tickets_queued : ∀ rej ids, RequeuedIds rej ids →
  ∀ id, id ∈ ids ↔ ∃ m, m ∈ rej ∧ TicketIn m id.
Proof. exact requeued_exact. Qed.
Print Assumptions C101_rejected_tickets_queued.

(** One match in a hundred is rejected (the comment :248). *)
Definition C101_one_in_a_hundred : Prop :=
  length (filter (λ r, rejects (Z.of_nat r) = true) (seq 0 100)) = 1.
Theorem C101_one_in_a_hundred_refuted : ¬ C101_one_in_a_hundred.
Proof. vm_compute. discriminate. Qed.
Print Assumptions C101_one_in_a_hundred_refuted.

Theorem C101_two_in_a_hundred_partial :
  length (filter (λ r, rejects (Z.of_nat r) = true) (seq 0 100)) = 2 ∧
  ∀ r, (0 <= r)%Z → rejects r = true ↔ r = 0%Z ∨ r = 1%Z.
Proof. exact (conj eq_refl rejects_spec). Qed.
Print Assumptions C101_two_in_a_hundred_partial.

Example C101_example :
  sort_matches [(None, 1%Z); (Some (Match "a" ∅ ∅), 2%Z); (None, 0%Z)] [] [] = ([Some (Match "a" ∅ ∅)], [None; None]) ∧
  RequeuedIds [None; Some (Match "b" {["r" := Roster "r" None [Ticket "1-1" None None ∅] ∅]} ∅)] ["1-1"].
Proof.
  split; [reflexivity|]. exists [[]; ["1-1"]]. split; [|reflexivity]. constructor; [reflexivity|]. constructor; [|constructor].
  exists [("r", Roster "r" None [Ticket "1-1" None None ∅] ∅)]. split; [|reflexivity]. cbn [ma_rosters].
  by rewrite map_to_list_singleton.
Qed.

(** C102: all that the mock frontend queues for activation are ids of tickets it created. *)
Definition C102_queues_created_ids : Prop := ∀ reply, reply = Some (proxy_create reply).
Theorem C102_queues_created_ids_refuted : ¬ C102_queues_created_ids.
Proof. intros H. specialize (H None). discriminate H. Qed.
Print Assumptions C102_queues_created_ids_refuted.

(** After a failure an empty id is queued; om-core treats a batch as if these were not
    in it, and a batch with nothing else as a request for nothing. *)
Theorem C102_failures_ignored_partial : ∀ cfg replies, (∀ id, Some id ∈ replies → valid_ticket_id id = true) →
  (1 <= Z.of_nat (length replies) <= cfg_max_updates cfg)%Z →
  activate_start cfg (map proxy_create replies) = Send (map (λ id, Update CmdActivate id "") (omap id replies)).
Proof. exact mock_activation. Qed.
Print Assumptions C102_failures_ignored_partial.

(** What is queued: the id of the new ticket, or the empty one after a failure. *)
Theorem C102_what_is_queued : proxy_create None = "" ∧ ∀ id, proxy_create (Some id) = id.
Proof. exact mock_queued. Qed.
Print Assumptions C102_what_is_queued.

Example C102_example :
  map proxy_create [Some "1700000000-1"; None] = ["1700000000-1"; ""] ∧
  activate_start default_config ["1700000000-1"; ""] = Send [Update CmdActivate "1700000000-1" ""] ∧
  activate_start default_config [""] = Send [].
Proof. split; [reflexivity|]. split; vm_compute; reflexivity. Qed.

(** C103: the example's calls go to the server given with -omhost. *)
Definition C103_calls_omhost : Prop := ∀ conn omhost, call_target conn omhost = omhost.
Theorem C103_calls_omhost_refuted : ¬ C103_calls_omhost.
Proof. intros H. specialize (H "http" "om-core:8080"). discriminate H. Qed.
Print Assumptions C103_calls_omhost_refuted.

(** They do exactly if -conn is "grpc", or it is the one address used otherwise. *)
Theorem C103_calls_omhost_partial : ∀ conn omhost,
  call_target conn omhost = omhost ↔ conn = "grpc" ∨ omhost = "localhost:58081".
Proof. exact target_iff. Qed.
Print Assumptions C103_calls_omhost_partial.

Example C103_example : call_target "grpc" "om-core:8080" = "om-core:8080" ∧ call_target "GRPC" "om-core:8080" = "localhost:58081".
Proof. split; reflexivity. Qed.
