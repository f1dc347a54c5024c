(** Property theorems about what functions read off the wire: C113. *)
From Coq Require Import Ascii String ZArith NArith Lia.
From stdpp Require Import prelude strings gmap.
From Verif.Model Require Import GoStrings Types Wire Proto Filter Chunk Cache.
From Verif.Spec Require Import ChunkSpec.
From Verif.Proofs Require Import StringLemmas ChunkLemmas ChunkMore ChunkWitness.
From Verif.Model Require Import ProtoMsg FnWire.
From Verif.Spec Require Import FnWireSpec.
From Verif.Proofs Require Import ProtoLemmas MockLemmas ProtoMsgLemmas ProtoMsgMore FnWireLemmas.
Local Open Scope string_scope.
Local Open Scope Z_scope.

(** C113: whatever bytes the matchmaker's request came in and the tickets' values
    were replicated as, the function's GetChunkedRequest decodes exactly the
    eligible tickets of each pool out of the bytes om-core sends; provided that the
    empty profile plus any single ticket is within the budget for a chunk. *)
Definition C113_functions_read_eligible_tickets : Prop := ∀ s r p ts cs msgs,
  unmarshal_request s = Some r → rq_profile r = Some p →
  NamesFit p ts → Forall cached ts.*1 → NoDup (tk_id <$> ts.*1) → NoFilterPanic p ts.*1 →
  1 + Z.of_nat (length ts) * Z.of_nat (base.size (pr_pools p)) < 2 ^ 31 →
  (∀ t, t ∈ ts.*1 → empty_chunk_size p + ticket_size t < max_pb_size) →
  build_requests p ts = Done cs → SentAs cs msgs →
  ∃ got, request_from_bytes msgs = Done (Received got) ∧ IsServed p ts.*1 got.

(** The tickets of C38's witness as they are replicated, and a request for them. *)
Definition tiny_value : string :=
  enc_fields (fields_ticket_c (Ticket "" (Some (Timestamp 1700000600 0))
    (Some (Filterable [] ∅ ∅ (Some (Timestamp 1700000000 0)))) ∅)).
Lemma fixw_digits k n : all_digits (fixw k n) = true.
Proof.
  revert n. induction k as [|k IH]; intros n; [done|]. cbn [fixw all_digits]. rewrite IH, andb_true_r.
  pose proof (N.mod_lt n 10 ltac:(done)) as H. revert H. generalize (n mod 10)%N. intros d H.
  assert (d = 0 ∨ d = 1 ∨ d = 2 ∨ d = 3 ∨ d = 4 ∨ d = 5 ∨ d = 6 ∨ d = 7 ∨ d = 8 ∨ d = 9)%N as Hd by lia.
  by destruct Hd as [->|[->|[->|[->|[->|[->|[->|[->|[->| ->]]]]]]]]].
Qed.
Lemma tiny_cached i : cached (tiny i).
Proof.
  exists ("1700000000-" +:+ fixw 6 (N.of_nat i)), tiny_value. split.
  - apply utf8_valid_app; [reflexivity|]. apply digits_utf8, fixw_digits.
  - unfold stored_ticket. replace (unmarshal_ticket tiny_value) with
      (Ticket "" (Some (Timestamp 1700000600 0)) (Some (Filterable [] ∅ ∅ (Some (Timestamp 1700000000 0)))) ∅); [reflexivity|].
    symmetry. refine (bool_decide_eq_true_1 _ _); vm_compute; reflexivity.
Qed.
Definition all_request : string := enc_fields (f_opt 1 fields_profile (Some all_profile)).
Lemma all_request_read : unmarshal_request all_request = Some (Request (Some all_profile) []).
Proof.
  assert (option_map rq_profile (unmarshal_request all_request) = Some (Some all_profile) ∧
          option_map rq_mmfs (unmarshal_request all_request) = Some []) as [H1 H2].
  { split; [refine (bool_decide_eq_true_1 _ _); vm_compute; reflexivity|vm_compute; reflexivity]. }
  destruct (unmarshal_request all_request) as [[p l]|]; [|discriminate H1]. cbn in H1, H2.
  injection H1 as ->. injection H2 as ->. reflexivity.
Qed.
Lemma tinies_cached : Forall cached tiny_visits.*1.
Proof.
  apply Forall_forall. intros t Ht. rewrite tiny_visits_fst in Ht. apply elem_of_list_fmap in Ht as (i & -> & _). apply tiny_cached.
Qed.
Lemma tinies_count : 1 + Z.of_nat (length tiny_visits) * Z.of_nat (base.size (pr_pools all_profile)) < 2 ^ 31.
Proof.
  unfold tiny_visits, tinies. rewrite !map_length, seq_length. cbn [all_profile pr_pools]. rewrite map_size_singleton.
  unfold tiny_count. rewrite Z2Nat.id by lia. lia.
Qed.
Lemma tinies_built : build_requests all_profile tiny_visits = Done [chunk_request all_profile 1 {["all" := tinies]}].
Proof. unfold build_requests. by rewrite tiny_one_chunk. Qed.

(** It is false: the 108,000 tickets of C38 make one message that gRPC refuses, and
    the function is left with an error. *)
Theorem C113_functions_read_eligible_tickets_refuted : ¬ C113_functions_read_eligible_tickets.
Proof.
  intros H.
  destruct (served_from_bytes _ _ _ _ all_request_read eq_refl tiny_names_fit tinies_cached tiny_no_panic tinies_count)
    as (cs & Hb & (msgs & Hm) & Hrun).
  destruct (H _ _ _ _ _ msgs all_request_read eq_refl tiny_names_fit tinies_cached
    ltac:(rewrite tiny_visits_fst; exact tiny_ids_distinct) tiny_no_panic tinies_count
    ltac:(intros t Ht; rewrite tiny_visits_fst in Ht; apply elem_of_list_fmap in Ht as (i & -> & _);
          rewrite tiny_size; vm_compute; reflexivity) Hb Hm) as (got & Hgot & _).
  specialize (Hrun msgs Hm). rewrite decide_False in Hrun; [congruence|].
  rewrite tinies_built in Hb. injection Hb as <-. inversion Hm as [|c [b qs] l l' [Hc _] _ E1 E2]; subst. cbn in Hc.
  intros Ha. inversion Ha as [|x y Hle _]; subst. cbn in Hle. pose proof tiny_too_large as Hl.
  rewrite <-(chunk_bytes_size _ _ Hc) in Hl. lia.
Qed.
Print Assumptions C113_functions_read_eligible_tickets_refuted.

(** What happens, exactly: the chunks can be encoded, and the function reads the
    eligible tickets if no message is over gRPC's limit, and an error otherwise. *)
Theorem C113_functions_read_eligible_tickets_partial : ∀ s r p ts,
  unmarshal_request s = Some r → rq_profile r = Some p →
  NamesFit p ts → Forall cached ts.*1 → NoFilterPanic p ts.*1 →
  1 + Z.of_nat (length ts) * Z.of_nat (base.size (pr_pools p)) < 2 ^ 31 →
  ∃ cs, build_requests p ts = Done cs ∧ (∃ msgs, SentAs cs msgs) ∧
  ∀ msgs, SentAs cs msgs →
    if decide (AllFit msgs)
    then ∃ got, request_from_bytes msgs = Done (Received got) ∧ IsServed p ts.*1 got
    else request_from_bytes msgs = Done RecvErr.
Proof. exact served_from_bytes. Qed.
Print Assumptions C113_functions_read_eligible_tickets_partial.

(** In particular the claim holds for tickets of at least 128 bytes and pools with
    names of moderate length. *)
Theorem C113_larger_tickets_partial : ∀ s r p ts cs msgs,
  unmarshal_request s = Some r → rq_profile r = Some p →
  NamesFit p ts → Forall cached ts.*1 → NoFilterPanic p ts.*1 →
  1 + Z.of_nat (length ts) * Z.of_nat (base.size (pr_pools p)) < 2 ^ 31 →
  empty_chunk_size p < max_pb_size →
  (∀ t, t ∈ ts.*1 → empty_chunk_size p + ticket_size t < max_pb_size ∧ 128 <= ticket_size t) →
  names_cost (pr_pools p) <= 38000 →
  build_requests p ts = Done cs → SentAs cs msgs →
  ∃ got, request_from_bytes msgs = Done (Received got) ∧ IsServed p ts.*1 got.
Proof. exact larger_tickets_served. Qed.
Print Assumptions C113_larger_tickets_partial.

(** Two tickets in one chunk: the function reads both. *)
Definition duo_visits : list (ticket * list string) := map (λ t, (t, ["all"])) [tiny 1; tiny 2].
Definition duo_chunk : chunk := chunk_request all_profile 1 {["all" := [tiny 1; tiny 2]]}.
Definition duo_message : string * list (string * pool) :=
  (enc_fields (fields_chunk duo_chunk), [("all", chunk_pool "all" [tiny 1; tiny 2])]).
Example C113_example :
  build_requests all_profile duo_visits = Done [duo_chunk] ∧ SentAs [duo_chunk] [duo_message] ∧ AllFit [duo_message] ∧
  request_from_bytes [duo_message] =
    Done (Received (Profile "everyone" {["all" := chunk_pool "all" [tiny 1; tiny 2]]} ∅)) ∧
  (* cut off in the middle of the message *)
  request_from_bytes [(String.substring 0 50 duo_message.1, duo_message.2)] = Done RecvErr.
Proof.
  split; [refine (bool_decide_eq_true_1 _ _); vm_compute; reflexivity|]. split.
  { constructor; [|constructor]. split; [|vm_compute; reflexivity]. split; [vm_compute; reflexivity|].
    exists (fields_chunk duo_chunk). split; [apply canon_chunk|reflexivity]. }
  split; [apply (bool_decide_unpack _); vm_compute; exact I|].
  split; refine (bool_decide_eq_true_1 _ _); vm_compute; reflexivity.
Qed.
