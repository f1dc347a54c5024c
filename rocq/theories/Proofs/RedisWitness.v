(** Where the Redis store does not do what is wanted: C14, C15, C16, C26, C27. *)
From Coq Require Import Ascii String ZArith NArith Lia ZifyBool ZifyN Sorting.
From stdpp Require Import prelude strings gmap.
From Verif.Model Require Import GoStrings Types Filter Proto Cache Replica RedisRepl RedisReader.
From Verif.Spec Require Import StringSpec IdSpec CacheSpec HandlerSpec RedisSpec.
From Verif.Proofs Require Import StringLemmas MemLemmas CacheLemmas HistoryLemmas RedisLemmas RedisSendLemmas.
Local Open Scope string_scope.
Local Open Scope Z_scope.

(** Milliseconds at the beginning of 2001. *)
Definition ms_2001 : Z := 978307200000.

(** C14, the full claim. [os] has an outcome for every command sent. *)
Definition EveryAnswerOwn : Prop := ∀ ttl now s os us i u r,
  length os = length (filter Sendable us) → us !! i = Some u → u_cmd u = CmdTicket →
  (redis_send ttl now s (PipeOk os) us).2 !! i = Some (Response r None) →
  ∃ j, r = id_text j ∧ (j, u) ∈ log_batch (st_last s) us os.

Definition w_ms : Z := 1700000000000.
Definition w_batch : list update :=
  [Update CmdActivate "" ""; Update CmdTicket "" "A"; Update CmdTicket "" "B"].

Lemma answers_mixed_up : ¬ EveryAnswerOwn.
Proof.
  intros H.
  destruct (H 600 (1700000000 * giga) empty_stream [XaddOk w_ms; XaddOk w_ms] w_batch 1%nat
              (Update CmdTicket "" "A") (id_text (w_ms, 1))) as (j & Hj & Hin); try reflexivity.
  vm_compute in Hin. apply elem_of_cons in Hin as [Hin|Hin].
  - injection Hin as ->. vm_compute in Hj. discriminate Hj.
  - apply elem_of_list_singleton in Hin. discriminate Hin.
Qed.

(** C15, the full claim. *)
Definition EveryAckStored : Prop := ∀ ttl now s po us i u r,
  us !! i = Some u → (redis_send ttl now s po us).2 !! i = Some (Response r None) →
  ∃ j, (j, u) ∈ log_batch (st_last s) us (executed po).

Lemma ack_without_storing : ¬ EveryAckStored.
Proof.
  intros H.
  destruct (H 600 (1700000000 * giga) empty_stream (PipeFail []) [Update CmdTicket "" "A"] 0%nat
              (Update CmdTicket "" "A") "") as (j & Hin); try reflexivity.
  vm_compute in Hin. by apply elem_of_nil in Hin.
Qed.

(** C16, the full claim: a connection for every call. *)
Definition PoolNeverStarves : Prop := ∀ max n, is_Some (pool_calls n (RPool max 0)).
Lemma pool_starves : ¬ PoolNeverStarves.
Proof. intros H. specialize (H 1%nat 2%nat). apply pool_calls_spec in H. simpl in H. lia. Qed.

(** C26, the full claim. *)
Definition RedisIdsExpire : Prop := ∀ cfg o c ms seq now,
  ms_2001 <= ms → 0 <= seq → ms <= max_i64 → SaneNow now → SaneTTL (cfg_ticket_ttl cfg) →
  orders_fit cfg o c → (∀ v, v ∈ cycle_visits o → v.2 = now) →
  cfg_ticket_ttl cfg < unix_secs now - ms / 1000 →
  id_text (ms, seq) ∉ c_inactive (cycle cfg o c).

Definition w26_cache : cache := apply_updates empty_cache [Update CmdDeactivate "1700000000000-0" ""].
Definition w26_now : instant := 1800000000 * giga.
Definition w26_orders : cycle_orders := CycleOrders [("1700000000000-0", w26_now)] [] [].
Lemma redis_ids_stay : ¬ RedisIdsExpire.
Proof.
  intros H. apply (H default_config w26_orders w26_cache w_ms 0 w26_now).
  - vm_compute. discriminate.
  - lia.
  - vm_compute. discriminate.
  - unfold SaneNow, w26_now, giga. lia.
  - unfold SaneTTL. simpl. lia.
  - unfold orders_fit. split_and!; vm_compute; reflexivity.
  - intros v ->%elem_of_list_singleton. done.
  - vm_compute. reflexivity.
  - vm_compute. reflexivity.
Qed.

Lemma redis_id_never_old limit now ms seq :
  ms_2001 <= ms <= max_i64 → 0 <= seq → SaneNow now → 0 <= limit → ¬ OlderThan limit now (id_text (ms, seq)).
Proof.
  intros Hms Hseq Hnow Hl. unfold OlderThan.
  destruct (id_text_ok ms seq) as (_ & _ & ->); [unfold ms_2001 in *; lia|done|].
  assert (unix_secs now < 253402300800).
  { unfold unix_secs, SaneNow, giga in *. apply Z.div_lt_upper_bound; lia. }
  unfold ms_2001 in *. lia.
Qed.

(** Expiration never removes an inactive id or an assignment of a Redis id. *)
Lemma redis_never_expires cfg es ms seq :
  ms_2001 <= ms <= max_i64 → 0 <= seq → (∀ v, v ∈ hev_visits es → SaneNow v.2) →
  SaneTTL (cfg_ticket_ttl cfg) → 0 <= cfg_assign_ttl cfg →
  let k := id_text (ms, seq) in
  (k ∈ c_inactive (hev_run cfg empty_cache es) ↔ last (state_cmds_for k (hev_updates es)) = Some false) ∧
  c_assign (hev_run cfg empty_cache es) !! k = unmarshal_assignment <$> last (assigns_for k (hev_updates es)).
Proof.
  intros Hms Hseq Hv [Ht1 Ht2] Ha k. split.
  - split.
    + intros Hk. by apply (run_sound cfg es).
    + apply run_inactive_kept. intros v Hin. apply redis_id_never_old; auto.
  - apply assignments_last_write_wins. intros v Hin. apply redis_id_never_old; auto. lia.
Qed.

(** C27, the full claim. *)
Definition TrimRemovesOld : Prop := ∀ ttl now s os us e,
  SaneNow now → SaneTTL ttl → (∀ x, x ∈ st_entries s → ms_2001 <= (e_id x).1) →
  e ∈ st_entries (redis_send ttl now s (PipeOk os) us).1 → unix_secs now - ttl <= (e_id e).1 / 1000.

Lemma old_entries_stay : ¬ TrimRemovesOld.
Proof.
  intros H.
  assert (unix_secs (1800000000 * giga) - 600 <= w_ms / 1000) as Hc; [|vm_compute in Hc; done].
  apply (H 600 (1800000000 * giga) (Stream [Entry (w_ms, 0) ["ticket"; "A"]] (w_ms, 0)) [] []
           (Entry (w_ms, 0) ["ticket"; "A"])).
  - unfold SaneNow, giga. lia.
  - unfold SaneTTL. lia.
  - intros x ->%elem_of_list_singleton. vm_compute. discriminate.
  - vm_compute. left.
Qed.

(** No batch ever removes anything. *)
Lemma redis_never_trims ttl now s po us :
  SaneNow now → SaneTTL ttl → (∀ x, x ∈ st_entries s → ms_2001 <= (e_id x).1) → ms_2001 <= (st_last s).1 →
  ∃ new, st_entries (redis_send ttl now s po us).1 = (st_entries s ++ new)%list ∧
         Forall2 Holds new (log_batch (st_last s) us (executed po)).
Proof.
  intros Hn [Ht1 Ht2] Hs Hl.
  assert (unix_secs now < 253402300800).
  { unfold unix_secs, SaneNow, giga in *. apply Z.div_lt_upper_bound; lia. }
  destruct po as [os|os].
  - apply redis_send_keeps_all.
    + intros e He. specialize (Hs e He). unfold ms_2001 in *. lia.
    + intros p Hp. assert (ms_2001 <= p.1.1) by by eapply log_batch_ge. unfold ms_2001 in *. lia.
  - destruct (redis_send_stream ttl now s os us) as (new & Hf & _ & He). by exists new.
Qed.
