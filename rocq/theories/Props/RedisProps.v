(** Property theorems about the Redis store: C14 - C18, C26, C27. *)
From Coq Require Import Ascii String ZArith NArith Sorting.
From stdpp Require Import prelude strings gmap.
From Verif.Model Require Import GoStrings Types Filter Proto Cache Replica RedisRepl RedisReader.
From Verif.Spec Require Import StringSpec IdSpec CacheSpec HandlerSpec RedisSpec.
From Verif.Proofs Require Import RedisSendLemmas RedisReadLemmas RedisWitness.
Local Open Scope string_scope.
Local Open Scope Z_scope.

(** C14: the full claim is [EveryAnswerOwn] (RedisWitness.v). It is false: in the
    batch [invalid; A; B] the answer for A is B's id. *)
Theorem C14_answers_mixed_up_refuted : ¬ EveryAnswerOwn.
Proof. exact answers_mixed_up. Qed.
Print Assumptions C14_answers_mixed_up_refuted.

(** Missing from the full claim: updates that come after an invalid update in
    the same batch. *)
Theorem C14_answers_own_partial : ∀ ttl now s os us i u r,
  (length us <= length os)%nat →
  us !! i = Some u → Forall Sendable (take (S i) us) →
  (redis_send ttl now s (PipeOk os) us).2 !! i = Some (Response r None) →
  ∃ j, r = id_text j ∧ (j, u) ∈ log_batch (st_last s) us os.
Proof. exact redis_answer_own. Qed.
Print Assumptions C14_answers_own_partial.

(** For a batch that starts with valid updates: all their answers. *)
Theorem C14_valid_prefix_partial : ∀ ttl now s os us us2,
  Forall Sendable us → (length us <= length os)%nat →
  take (length us) (redis_send ttl now s (PipeOk os) (us ++ us2)).2 = own_answers (st_last s) us os.
Proof. exact redis_answers_prefix. Qed.
Print Assumptions C14_valid_prefix_partial.

(** What position i really gets, for every batch: the i-th reply, where replies
    only exist for the valid updates. *)
Theorem C14_exact_answers : ∀ us replies i u,
  us !! i = Some u →
  merge_replies us (local_errs us) replies !! i =
    Some (match redis_encode u with
          | inl e => Response (if bool_decide (i < length replies)%nat then u_key u else "") (Some e)
          | inr _ => match replies !! i with
                     | Some (Some j) => Response (id_text j) None
                     | Some None => Response "" (Some EReply)
                     | None => Response "" None
                     end
          end).
Proof. exact merge_exact. Qed.
Print Assumptions C14_exact_answers.

Example C14_example :
  let us := [Update CmdTicket "" "A"; Update CmdActivate "1-1" ""; Update CmdAssign "" ""; Update CmdTicket "" "B"] in
  (redis_send 600 (1700000000 * giga) empty_stream (PipeOk [XaddOk w_ms; XaddOk w_ms; XaddOk w_ms]) us).2 =
    [Response "1700000000000-0" None; Response "1700000000000-1" None; Response "" (Some EMissingKey); Response "" None].
Proof. vm_compute. reflexivity. Qed.

(** C15: the full claim is [EveryAckStored] (RedisWitness.v). It is false: when the
    connection is broken, every update is answered without an error. *)
Theorem C15_ack_without_storing_refuted : ¬ EveryAckStored.
Proof. exact ack_without_storing. Qed.
Print Assumptions C15_ack_without_storing_refuted.

(** Missing from the full claim: broken connections, and updates that come after
    an invalid one in their batch. *)
Theorem C15_ack_stored_partial : ∀ ttl now s os us i u r,
  (length us <= length os)%nat →
  us !! i = Some u → Forall Sendable (take (S i) us) →
  (redis_send ttl now s (PipeOk os) us).2 !! i = Some (Response r None) →
  ∃ j, r = id_text j ∧ (j, u) ∈ log_batch (st_last s) us os.
Proof. exact redis_answer_own. Qed.
Print Assumptions C15_ack_stored_partial.

(** The log of a batch is what it appends to the stream. *)
Theorem C15_log_is_appended : ∀ ttl now s os us,
  ∃ new, Forall2 Holds new (log_batch (st_last s) us os) ∧
    st_entries (redis_send ttl now s (PipeOk os) us).1 =
      filter (kept (unix_secs now - ttl)) (st_entries s ++ new)%list ∧
    st_entries (redis_send ttl now s (PipeFail os) us).1 = (st_entries s ++ new)%list.
Proof. exact redis_send_stream. Qed.
Print Assumptions C15_log_is_appended.

(** A command that the server refuses is answered with an error. *)
Example C15_example :
  let us := [Update CmdTicket "" "A"; Update CmdTicket "" "B"] in
  let x := redis_send 600 (1700000000 * giga) empty_stream (PipeOk [XaddErr; XaddOk w_ms]) us in
  x.2 = [Response "" (Some EReply); Response "1700000000000-0" None] ∧
  st_entries x.1 = [Entry (w_ms, 0) ["ticket"; "B"]] ∧
  log_batch (0, 0) us [XaddErr; XaddOk w_ms] = [((w_ms, 0), Update CmdTicket "" "B")].
Proof. vm_compute. done. Qed.

(** C16: the full claim is [PoolNeverStarves] (RedisWitness.v). It is false:
    connections are never given back. *)
Theorem C16_pool_starves_refuted : ¬ PoolNeverStarves.
Proof. exact pool_starves. Qed.
Print Assumptions C16_pool_starves_refuted.

(** Exactly the first MaxActive calls get a connection (missing from the full
    claim: all later ones), or all of them if there is no limit. *)
Theorem C16_pool_partial : ∀ n p,
  is_Some (pool_calls n p) ↔ rp_max p = 0%nat ∨ n = 0%nat ∨ (rp_in_use p + n <= rp_max p)%nat.
Proof. exact pool_calls_spec. Qed.
Print Assumptions C16_pool_partial.

Example C16_example : is_Some (pool_calls 3 (RPool 3 0)) ∧ pool_calls 4 (RPool 3 0) = None.
Proof. split; [by eexists|done]. Qed.

(** C17. *)
Theorem C17_round_trip : ∀ u f i,
  redis_encode u = inr f → redis_decode (Entry i f) = Done (as_read i u).
Proof. exact round_trip. Qed.
Print Assumptions C17_round_trip.

(** Exactly the complete updates are encoded. *)
Theorem C17_encoded : ∀ u, Sendable u ↔ ∃ f, redis_encode u = inr f.
Proof. exact encode_sendable. Qed.
Print Assumptions C17_encoded.

Example C17_example :
  redis_encode (Update CmdAssign "17-1" "10.0.0.1:80") = inr ["assign"; "17-1"; "connection"; "10.0.0.1:80"] ∧
  as_read (17, 2) (Update CmdTicket "" "xyz") = Update CmdTicket "17-2" "xyz".
Proof. split; vm_compute; reflexivity. Qed.

(** C18: whatever is appended, trimmed or fails: no reader panics, and what a
    reader gets is in stream order, without repeats, and was appended. *)
Theorem C18_in_order_no_repeats : ∀ ttl count s log es,
  StreamOf s log →
  let st := rrun ttl count (reader_start s) es in
  rs_panicked st = false ∧
  ∃ d, d `sublist_of` (log ++ run_log (st_last s) es)%list ∧ rs_out st = map (λ p, as_read p.1 p.2) d ∧
       NoDup d.*1.
Proof. exact delivered_in_order. Qed.
Print Assumptions C18_in_order_no_repeats.

(** It is a prefix of everything appended (no gaps) if nothing unread is trimmed. *)
Theorem C18_prefix : ∀ ttl count s log es,
  StreamOf s log → TrimsOnlyRead ttl count (reader_start s) es →
  ∃ d r, (log ++ run_log (st_last s) es = d ++ r)%list ∧
         rs_out (rrun ttl count (reader_start s) es) = map (λ p, as_read p.1 p.2) d.
Proof. exact delivered_prefix. Qed.
Print Assumptions C18_prefix.

(** Polling on when nothing more is appended delivers the rest. *)
Theorem C18_catches_up : ∀ ttl count s log es n,
  StreamOf s log → TrimsOnlyRead ttl count (reader_start s) es → (1 <= count)%nat →
  (length (log ++ run_log (st_last s) es) <= n)%nat →
  rs_out (rrun ttl count (reader_start s) (es ++ replicate n (RPoll true)))%list =
    map (λ p, as_read p.1 p.2) (log ++ run_log (st_last s) es)%list.
Proof. exact reader_catches_up. Qed.
Print Assumptions C18_catches_up.

(** Thresholds below all ids (as with the threshold in seconds that the code uses)
    trim nothing. *)
Theorem C18_low_thresholds : ∀ ttl count es st b,
  (∀ e, e ∈ st_entries (rs_stream st) → b <= (e_id e).1) →
  (∀ now po us ms, RSend now po us ∈ es → XaddOk ms ∈ executed po → b <= ms) →
  (∀ now po us, RSend now po us ∈ es → unix_secs now - ttl <= b) →
  TrimsOnlyRead ttl count st es.
Proof. exact low_thresholds. Qed.
Print Assumptions C18_low_thresholds.

(** Two batches with polls of one entry each in between, one of them failing. *)
Definition c18_run : list rdev :=
  [RSend (1700000000 * giga) (PipeOk [XaddOk w_ms; XaddOk w_ms]) [Update CmdTicket "" "A"; Update CmdTicket "" "B"];
   RPoll true; RPoll false;
   RSend (1700000001 * giga) (PipeFail [XaddOk w_ms]) [Update CmdActivate "1-1" ""];
   RPoll true].
Example C18_example :
  StreamOf empty_stream [] ∧ TrimsOnlyRead 600 1 (reader_start empty_stream) c18_run ∧
  rs_out (rrun 600 1 (reader_start empty_stream) c18_run) =
    [Update CmdTicket "1700000000000-0" "A"; Update CmdTicket "1700000000000-1" "B"] ∧
  length (run_log (0, 0) c18_run) = 3%nat.
Proof.
  split.
  { unfold StreamOf. simpl. split_and!; [constructor|constructor| | |by left]; intros p Hp; by apply elem_of_nil in Hp. }
  split.
  { apply low_thresholds with (b := w_ms).
    - intros e He. by apply elem_of_nil in He.
    - intros now po us ms Hin Hms. unfold c18_run in Hin.
      repeat (apply elem_of_cons in Hin as [Hin|Hin]; [try discriminate Hin; injection Hin as -> -> ->; simpl in Hms;
        repeat (apply elem_of_cons in Hms as [[= ->]|Hms]; [done|]); by apply elem_of_nil in Hms|]).
      by apply elem_of_nil in Hin.
    - intros now po us Hin. unfold c18_run in Hin.
      repeat (apply elem_of_cons in Hin as [Hin|Hin]; [try discriminate Hin; injection Hin as -> -> ->; done|]).
      by apply elem_of_nil in Hin. }
  split; vm_compute; reflexivity.
Qed.

(** C26: the full claim is [RedisIdsExpire] (RedisWitness.v). It is false: ids
    carry milliseconds, ages are computed in seconds. *)
Theorem C26_redis_ids_stay_refuted : ¬ RedisIdsExpire.
Proof. exact redis_ids_stay. Qed.
Print Assumptions C26_redis_ids_stay_refuted.

(** In fact expiration never removes the inactive mark or the assignment of any id
    that Redis can issue since 2001. *)
Theorem C26_never_expires : ∀ cfg es ms seq,
  ms_2001 <= ms <= max_i64 → 0 <= seq → (∀ v, v ∈ hev_visits es → SaneNow v.2) →
  SaneTTL (cfg_ticket_ttl cfg) → 0 <= cfg_assign_ttl cfg →
  let k := id_text (ms, seq) in
  (k ∈ c_inactive (hev_run cfg empty_cache es) ↔ last (state_cmds_for k (hev_updates es)) = Some false) ∧
  c_assign (hev_run cfg empty_cache es) !! k = unmarshal_assignment <$> last (assigns_for k (hev_updates es)).
Proof. exact redis_never_expires. Qed.
Print Assumptions C26_never_expires.

(** Deactivated in 2023, still there after a cycle in 2027. *)
Example C26_example :
  orders_fit default_config w26_orders w26_cache ∧
  elements (c_inactive (cycle default_config w26_orders w26_cache)) = ["1700000000000-0"].
Proof. split; [unfold orders_fit; split_and!|]; vm_compute; reflexivity. Qed.

(** C27: the full claim is [TrimRemovesOld] (RedisWitness.v). It is false: the
    threshold is in seconds, the ids are in milliseconds. *)
Theorem C27_old_entries_stay_refuted : ¬ TrimRemovesOld.
Proof. exact old_entries_stay. Qed.
Print Assumptions C27_old_entries_stay_refuted.

(** In fact no batch ever removes anything. *)
Theorem C27_never_trims : ∀ ttl now s po us,
  SaneNow now → SaneTTL ttl → (∀ x, x ∈ st_entries s → ms_2001 <= (e_id x).1) → ms_2001 <= (st_last s).1 →
  ∃ new, st_entries (redis_send ttl now s po us).1 = (st_entries s ++ new)%list ∧
         Forall2 Holds new (log_batch (st_last s) us (executed po)).
Proof. exact redis_never_trims. Qed.
Print Assumptions C27_never_trims.

(** A trim with a threshold in milliseconds would remove the first entry. *)
Example C27_example :
  let s := Stream [Entry (w_ms, 0) ["ticket"; "A"]; Entry (w_ms + 700000, 0) ["ticket"; "B"]] (w_ms + 700000, 0) in
  length (st_entries (redis_send 600 (1700000700 * giga) s (PipeOk []) []).1) = 2%nat ∧
  length (st_entries (xtrim_minid s ((1700000700 - 600) * 1000))) = 1%nat.
Proof. split; vm_compute; reflexivity. Qed.
