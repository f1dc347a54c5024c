(** Property theorems about chunked requests: C36 - C39 and the second half of
    C04. *)
From Coq Require Import Ascii String ZArith NArith Lia.
From stdpp Require Import prelude strings gmap.
From Verif.Model Require Import GoStrings Types Wire Proto Filter Chunk.
From Verif.Spec Require Import FilterSpec ChunkSpec.
From Verif.Proofs Require Import ChunkLemmas ChunkMore ChunkWitness.
Local Open Scope string_scope.
Local Open Scope Z_scope.

(** C04, second half: no chunk has a roster for a pool with invalid filters. *)
Theorem C04_rejected_pool_gets_nothing : ∀ p ts cs n q c,
  NamesFit p ts → build_requests p ts = Done cs → pr_pools p !! n = Some q → pool_valid q = false →
  c ∈ cs → pr_pools (ch_profile c) !! n = None.
Proof. exact rejected_pool_nothing. Qed.
Print Assumptions C04_rejected_pool_gets_nothing.

(** C36: whatever the sizes, the limit, the order in which the pools are visited
    for each ticket and the order in which the pools of each chunk are visited,
    the matchmaking function ends up with exactly the eligible tickets of every
    pool, in snapshot order. *)
Theorem C36_functions_get_exactly_the_eligible_tickets : ∀ size limit empty p ts,
  NamesFit p ts → NoFilterPanic p ts.*1 →
  1 + Z.of_nat (length ts) * Z.of_nat (base.size (pr_pools p)) < 2 ^ 31 →
  ∃ rs, chunks_of size limit empty p ts = Done rs ∧
    ∀ cs, cs.*1 = requests_of p rs → pool_orders_fit cs →
      ∃ pools, get_chunked_request cs = Done (Received (Profile (pr_name p) pools (pr_ext p))) ∧
        ∀ n, pools !! n = match filter (Eligible p n) ts.*1 with [] => None | l => Some (chunk_pool n l) end.
Proof. exact chunks_transfer. Qed.
Print Assumptions C36_functions_get_exactly_the_eligible_tickets.

(** C36: the split panics exactly when some filter does. *)
Theorem C36_split_panics_iff_a_filter_does : ∀ size limit empty p ts,
  NamesFit p ts → (chunks_of size limit empty p ts ≠ Panic ↔ NoFilterPanic p ts.*1).
Proof. exact split_panics. Qed.
Print Assumptions C36_split_panics_iff_a_filter_does.

(** Two tagged tickets, a pool for tag "a", one for tag "b", one with an invalid
    time filter. *)
Definition tagged (id : string) (tags : list string) : ticket :=
  Ticket id (Some (Timestamp 100 0)) (Some (Filterable tags ∅ ∅ (Some (Timestamp 50 0)))) ∅.
Definition tag_pool (t : string) : pool := Pool ("pool " +:+ t) [t] [] [] None None {["x" := Any "u" "v"]}.
Definition bad_pool : pool := Pool "bad" [] [] [] (Some (TimeFilter (Some (Timestamp 0 (-1))) None 0)) None ∅.
Definition ab_profile : profile :=
  Profile "ab" {["a" := tag_pool "a"; "b" := tag_pool "b"; "bad" := bad_pool]} {["e" := Any "u" "w"]}.
Definition ab_visits : list (ticket * list string) :=
  [(tagged "1-0" ["a"; "b"], ["a"; "b"]); (tagged "2-0" ["b"], ["b"; "a"]); (tagged "3-0" ["a"], ["b"; "a"]);
   (tagged "4-0" [], ["a"; "b"])].
Definition canonical_orders (cs : list chunk) : list (chunk * list (string * pool)) :=
  map (λ c, (c, map_to_list (pr_pools (ch_profile c)))) cs.

Lemma ab_names n : ValidName ab_profile n ↔ n = "a" ∨ n = "b".
Proof.
  unfold ValidName, ab_profile. cbn [pr_pools]. split.
  - intros (q & Hq & Hv). rewrite !lookup_insert_Some, lookup_singleton_Some in Hq.
    destruct Hq as [[<- <-]|[_ [[<- <-]|[_ [<- <-]]]]]; [by left|by right|done].
  - intros [->| ->]; eexists; (split; [reflexivity|reflexivity]).
Qed.
Lemma ab_names_fit : NamesFit ab_profile ab_visits.
Proof.
  intros t ns Hin. unfold ab_visits in Hin. rewrite !elem_of_cons, elem_of_nil in Hin.
  destruct Hin as [[= _ ->]|[[= _ ->]|[[= _ ->]|[[= _ ->]|[]]]]];
    (apply names_order; [apply (bool_decide_unpack _); vm_compute; exact I|
      intros n; rewrite ab_names, !elem_of_cons, elem_of_nil; tauto]).
Qed.
Lemma ab_no_panic : NoFilterPanic ab_profile ab_visits.*1.
Proof.
  intros t n q Hin Hq _. unfold ab_profile in Hq. cbn [pr_pools] in Hq.
  rewrite !lookup_insert_Some, lookup_singleton_Some in Hq.
  cbn [ab_visits fmap list_fmap fst] in Hin. rewrite !elem_of_cons, elem_of_nil in Hin.
  destruct Hq as [[<- <-]|[_ [[<- <-]|[_ [<- <-]]]]]; destruct Hin as [->|[->|[->|[->|[]]]]]; vm_compute; discriminate.
Qed.

(** With room for two entries per chunk there are two chunks. *)
Definition ab_chunks : list rosters :=
  [{["a" := [tagged "1-0" ["a"; "b"]]; "b" := [tagged "1-0" ["a"; "b"]]]};
   {["b" := [tagged "2-0" ["b"]]; "a" := [tagged "3-0" ["a"]]]}].
Definition ab_received : profile :=
  Profile "ab" {["a" := chunk_pool "a" [tagged "1-0" ["a"; "b"]; tagged "3-0" ["a"]];
                 "b" := chunk_pool "b" [tagged "1-0" ["a"; "b"]; tagged "2-0" ["b"]]]}
    {["e" := Any "u" "w"]}.
Example C36_example :
  NamesFit ab_profile ab_visits ∧ NoFilterPanic ab_profile ab_visits.*1 ∧
  chunks_of (λ _, 10) 30 5 ab_profile ab_visits = Done ab_chunks ∧
  get_chunked_request (canonical_orders (requests_of ab_profile ab_chunks)) = Done (Received ab_received).
Proof.
  split; [exact ab_names_fit|]. split; [exact ab_no_panic|].
  split; refine (bool_decide_eq_true_1 _ _); vm_compute; reflexivity.
Qed.

(** C37: the accounted size of every chunk stays below the limit, except for a
    chunk with a single entry (or none, when even the empty profile is over the
    limit); a new chunk is only started when the next ticket would not have
    fitted; every chunk carries the number of chunks, which is at least one. *)
Theorem C37_accounted_sizes : ∀ size limit empty p ts rs,
  chunks_of size limit empty p ts = Done rs →
  rs ≠ [] ∧
  (∀ r, r ∈ rs → empty + weight size r < limit ∨ r = ∅ ∨ ∃ n t, t ∈ ts.*1 ∧ r = {[n := [t]]}) ∧
  (∀ i r r', rs !! i = Some r → rs !! S i = Some r' →
     ∃ n t l, r' !! n = Some (t :: l) ∧ limit <= empty + weight size r + size t).
Proof. exact accounted_sizes. Qed.
Print Assumptions C37_accounted_sizes.

Theorem C37_chunk_count : ∀ p ts cs,
  NamesFit p ts → 1 + Z.of_nat (length ts) * Z.of_nat (base.size (pr_pools p)) < 2 ^ 31 →
  build_requests p ts = Done cs → cs ≠ [] ∧ ∀ c, c ∈ cs → ch_num c = Z.of_nat (length cs).
Proof. exact chunk_count_sent. Qed.
Print Assumptions C37_chunk_count.

Definition ab_rosters : rosters :=
  {["a" := [tagged "1-0" ["a"; "b"]; tagged "3-0" ["a"]]; "b" := [tagged "1-0" ["a"; "b"]; tagged "2-0" ["b"]]]}.
Lemma ab_requests : build_requests ab_profile ab_visits = Done [chunk_request ab_profile 1 ab_rosters].
Proof. refine (bool_decide_eq_true_1 _ _); vm_compute; reflexivity. Qed.

Example C37_example :
  chunks_of (λ _, 10) 25 5 ab_profile ab_visits =
    Done [{["a" := [tagged "1-0" ["a"; "b"]]]}; {["b" := [tagged "1-0" ["a"; "b"]]]};
          {["b" := [tagged "2-0" ["b"]]]}; {["a" := [tagged "3-0" ["a"]]]}] ∧
  weight (λ _, 10) {["a" := [tagged "1-0" ["a"; "b"]]]} = 10 ∧
  (* a limit no ticket fits under *)
  chunks_of (λ _, 10) 10 5 ab_profile (take 1 ab_visits) =
    Done [∅; {["a" := [tagged "1-0" ["a"; "b"]]]}; {["b" := [tagged "1-0" ["a"; "b"]]]}] ∧
  build_requests ab_profile ab_visits = Done [chunk_request ab_profile 1 ab_rosters] ∧
  ch_num (chunk_request ab_profile 1 ab_rosters) = 1.
Proof.
  split; [refine (bool_decide_eq_true_1 _ _); vm_compute; reflexivity|]. split; [vm_compute; reflexivity|].
  split; [refine (bool_decide_eq_true_1 _ _); vm_compute; reflexivity|].
  split; [exact ab_requests|vm_compute; reflexivity].
Qed.

(** C38, the full claim: if the empty profile plus any single ticket stays within
    the budget, every chunk is at most 4 MiB long. *)
Definition C38_chunks_fit : Prop := ∀ p ts cs c,
  NamesFit p ts → NoDup (tk_id <$> ts.*1) →
  empty_chunk_size p < max_pb_size → (∀ t, t ∈ ts.*1 → empty_chunk_size p + ticket_size t < max_pb_size) →
  build_requests p ts = Done cs → c ∈ cs → chunk_size c <= grpc_max.

(** It is false: 108,000 tickets of 37 bytes go into a single chunk, which is
    longer than 4 MiB because each ticket needs two more bytes. *)
Theorem C38_chunks_fit_refuted : ¬ C38_chunks_fit.
Proof.
  intros H.
  assert (build_requests all_profile tiny_visits = Done [chunk_request all_profile 1 {["all" := tinies]}]) as Hb.
  { unfold build_requests. by rewrite tiny_one_chunk. }
  pose proof tiny_too_large as Hl. apply Z.lt_nge in Hl. apply Hl.
  eapply (H all_profile tiny_visits [chunk_request all_profile 1 {["all" := tinies]}] _ tiny_names_fit); [| | |exact Hb|left].
  - rewrite tiny_visits_fst. exact tiny_ids_distinct.
  - vm_compute. reflexivity.
  - intros t Ht. rewrite tiny_visits_fst in Ht. apply elem_of_list_fmap in Ht as (i & -> & _).
    rewrite tiny_size. vm_compute. reflexivity.
Qed.
Print Assumptions C38_chunks_fit_refuted.

(** C38, how far off the accounted size can be. *)
Theorem C38_real_size_bound_partial : ∀ p k r,
  (0 < k)%nat → Z.of_nat k < 2 ^ 31 → (∀ n l, r !! n = Some l → Forall (λ t, ticket_size t < 2 ^ 28) l) →
  chunk_size (chunk_request p k r) <= empty_chunk_size p + weight ticket_size r + overhead r.
Proof. exact chunk_size_max. Qed.
Print Assumptions C38_real_size_bound_partial.

(** C38, when it does hold: with tickets of at least 128 bytes and moderate pool
    names. *)
Theorem C38_chunks_fit_partial : ∀ p ts cs c,
  NamesFit p ts → 1 + Z.of_nat (length ts) * Z.of_nat (base.size (pr_pools p)) < 2 ^ 31 →
  empty_chunk_size p < max_pb_size →
  (∀ t, t ∈ ts.*1 → empty_chunk_size p + ticket_size t < max_pb_size ∧ 128 <= ticket_size t) →
  names_cost (pr_pools p) <= 38000 →
  build_requests p ts = Done cs → c ∈ cs → chunk_size c <= grpc_max.
Proof. exact chunks_fit_grpc. Qed.
Print Assumptions C38_chunks_fit_partial.

Example C38_example :
  ticket_size (tiny 5) = 37 ∧ length tinies = Z.to_nat 108000 ∧ empty_chunk_size all_profile = 32 ∧
  names_cost (pr_pools ab_profile) = 196 ∧ empty_chunk_size ab_profile = 120 ∧
  build_requests ab_profile ab_visits = Done [chunk_request ab_profile 1 ab_rosters] ∧
  chunk_size (chunk_request ab_profile 1 ab_rosters) = 146 ∧
  weight ticket_size ab_rosters + overhead ab_rosters = 235.
Proof.
  split; [apply tiny_size|]. split; [unfold tinies; by rewrite map_length, seq_length|].
  split; [vm_compute; reflexivity|]. split; [vm_compute; reflexivity|]. split; [vm_compute; reflexivity|].
  split; [exact ab_requests|]. split; vm_compute; reflexivity.
Qed.

(** C39, the full claim: name, extensions and all pool definitions reach the
    function. *)
Definition C39_profile_passed_through : Prop := ∀ p ts cs P,
  NamesFit p ts → build_requests p ts = Done cs.*1 → pool_orders_fit cs →
  get_chunked_request cs = Done (Received P) →
  pr_name P = pr_name p ∧ pr_ext P = pr_ext p ∧
  ∀ n q Q, pr_pools p !! n = Some q → pr_pools P !! n = Some Q →
    po_name Q = po_name q ∧ po_tag_filters Q = po_tag_filters q ∧ po_string_filters Q = po_string_filters q ∧
    po_double_filters Q = po_double_filters q ∧ po_time_filter Q = po_time_filter q ∧ po_ext Q = po_ext q.

Lemma ab_arrives :
  get_chunked_request (canonical_orders [chunk_request ab_profile 1 ab_rosters]) = Done (Received ab_received).
Proof. refine (bool_decide_eq_true_1 _ _); vm_compute; reflexivity. Qed.

(** It is false: the pools are sent with nothing but their participants. *)
Theorem C39_profile_passed_through_refuted : ¬ C39_profile_passed_through.
Proof.
  intros H.
  edestruct (H ab_profile ab_visits (canonical_orders [chunk_request ab_profile 1 ab_rosters])) as (_ & _ & H2).
  - exact ab_names_fit.
  - exact ab_requests.
  - constructor; [reflexivity|constructor].
  - exact ab_arrives.
  - destruct (H2 "a" (tag_pool "a") (chunk_pool "a" [tagged "1-0" ["a"; "b"]; tagged "3-0" ["a"]])) as [H3 _];
      [reflexivity|reflexivity|]. discriminate H3.
Qed.
Print Assumptions C39_profile_passed_through_refuted.

(** C39, what does arrive. *)
Theorem C39_profile_passed_through_partial : ∀ p ts cs P,
  NamesFit p ts → 1 + Z.of_nat (length ts) * Z.of_nat (base.size (pr_pools p)) < 2 ^ 31 →
  build_requests p ts = Done cs.*1 → pool_orders_fit cs → get_chunked_request cs = Done (Received P) →
  pr_name P = pr_name p ∧ pr_ext P = pr_ext p ∧
  ∀ n Q, pr_pools P !! n = Some Q →
    ValidName p n ∧ ∃ l, l ≠ [] ∧ Q = Pool "" [] [] [] None (Some (Roster (n +:+ "_roster") None l ∅)) ∅.
Proof. exact passed_through_partial. Qed.
Print Assumptions C39_profile_passed_through_partial.

Example C39_example :
  build_requests ab_profile ab_visits = Done (canonical_orders [chunk_request ab_profile 1 ab_rosters]).*1 ∧
  get_chunked_request (canonical_orders [chunk_request ab_profile 1 ab_rosters]) = Done (Received ab_received) ∧
  po_name <$> pr_pools ab_profile !! "a" = Some "pool a" ∧ po_name <$> pr_pools ab_received !! "a" = Some "".
Proof.
  split; [exact ab_requests|]. split; [exact ab_arrives|]. split; vm_compute; reflexivity.
Qed.
