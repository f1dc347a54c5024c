(** Requests on the wire to a function. *)
From Coq Require Import Ascii String ZArith NArith Lia.
From stdpp Require Import prelude strings gmap.
From Verif.Model Require Import GoStrings Types Wire Proto Filter Chunk Cache.
From Verif.Spec Require Import ChunkSpec.
From Verif.Proofs Require Import ChunkLemmas ChunkMore SampleLemmas.
From Verif.Model Require Import ProtoMsg FnWire.
From Verif.Spec Require Import FnWireSpec.
From Verif.Proofs Require Import ProtoMsgLemmas ProtoMsgMore.
Local Open Scope Z_scope.

Lemma slen_length s : slen s = N.of_nat (String.length s).
Proof. reflexivity. Qed.

Lemma recv_fits c b : Z.of_nat (String.length b) <= grpc_max →
  ((slen b < 2 ^ 64)%N → unmarshal_chunk b = Some (Some (ch_profile c), ch_num c)) → recv_chunk b = Some c.
Proof.
  intros Hl H. unfold recv_chunk. replace (max_receive <? _) with false by (symmetry; apply Z.ltb_ge; exact Hl).
  rewrite H; [by destruct c|]. rewrite slen_length. unfold grpc_max in Hl. lia.
Qed.

Lemma recv_too_long b : ¬ Z.of_nat (String.length b) <= grpc_max → recv_chunk b = None.
Proof.
  intros Hl. unfold recv_chunk. replace (max_receive <? _) with true; [done|]. symmetry. apply Z.ltb_lt.
  change max_receive with grpc_max. lia.
Qed.

(** What is read is the beginning of what was sent, all of it iff all fits. *)
Lemma readable_sent cs msgs : SentAs cs msgs →
  (∀ c b, c ∈ cs → marshals_chunk c b → (slen b < 2 ^ 64)%N → unmarshal_chunk b = Some (Some (ch_profile c), ch_num c)) →
  ∃ k, readable msgs = take k (zip cs msgs.*2) ∧ (if decide (AllFit msgs) then (k = length cs)%nat else (k < length cs)%nat).
Proof.
  intros H. induction H as [|c [b qs] cs msgs [Hm Ho] H IH]; intros Hu.
  - exists 0%nat. split; [done|]. rewrite decide_True; [done|constructor].
  - destruct IH as (k & Hk & Hif). { intros c' b' Hc'. apply Hu. by right. }
    cbn [readable]. cbn in Hm. destruct (decide (Z.of_nat (String.length b) <= grpc_max)) as [Hl|Hl].
    + rewrite (recv_fits c b Hl (Hu c b ltac:(left) Hm)). exists (S k). split; [cbn; by rewrite Hk|].
      destruct (decide (AllFit msgs)) as [Ha|Ha].
      * rewrite decide_True; [cbn; lia|by constructor].
      * rewrite decide_False; [cbn; lia|]. intros Ha'. apply Ha. by inversion Ha'.
    + rewrite (recv_too_long b Hl). exists 0%nat. split; [done|]. rewrite decide_False; [cbn; lia|].
      intros Ha'. apply Hl. by inversion Ha'.
Qed.

Lemma sent_orders cs msgs : SentAs cs msgs → (zip cs msgs.*2).*1 = cs ∧ pool_orders_fit (zip cs msgs.*2).
Proof.
  induction 1 as [|c [b qs] cs msgs [_ Ho] H [IH1 IH2]]; [split; [done|constructor]|]. cbn. split; [by f_equal|].
  constructor; [exact Ho|exact IH2].
Qed.

Lemma served_from_bytes s r p ts :
  unmarshal_request s = Some r → rq_profile r = Some p →
  NamesFit p ts → Forall cached ts.*1 → NoFilterPanic p ts.*1 →
  1 + Z.of_nat (length ts) * Z.of_nat (base.size (pr_pools p)) < 2 ^ 31 →
  ∃ cs, build_requests p ts = Done cs ∧ (∃ msgs, SentAs cs msgs) ∧
  ∀ msgs, SentAs cs msgs →
    if decide (AllFit msgs)
    then ∃ got, request_from_bytes msgs = Done (Received got) ∧ IsServed p ts.*1 got
    else request_from_bytes msgs = Done RecvErr.
Proof.
  intros Hs Hp Hn Hc Hf Hlen.
  destruct (chunks_transfer ticket_size max_pb_size (empty_chunk_size p) p ts Hn Hf Hlen) as (rs & Hrs & Hserve).
  exists (requests_of p rs). assert (build_requests p ts = Done (requests_of p rs)) as Hb by (unfold build_requests; by rewrite Hrs).
  split; [done|]. split.
  - assert (∀ c, c ∈ requests_of p rs → ∃ b, marshals_chunk c b) as Hex.
    { intros c Hin. exact (proj1 (chunks_sent s r p ts _ c Hs Hp Hn Hc Hb Hin)). }
    clear -Hex. induction (requests_of p rs) as [|c l IH]; [exists []; constructor|].
    destruct IH as [msgs Hm]; [intros c' Hc'; apply Hex; by right|]. destruct (Hex c ltac:(left)) as [b Hb].
    exists ((b, map_to_list (pr_pools (ch_profile c))) :: msgs). constructor; [split; [exact Hb|reflexivity]|exact Hm].
  - intros msgs Hm. destruct (sent_orders _ _ Hm) as [Ho1 Ho2]. destruct (Hserve _ Ho1 Ho2) as (pools & Hg & Hpools).
    destruct (readable_sent _ _ Hm) as (k & Hk & Hif).
    { intros c b Hin. exact (proj2 (chunks_sent s r p ts _ c Hs Hp Hn Hc Hb Hin) b). }
    assert (length (zip (requests_of p rs) msgs.*2) = length (requests_of p rs)) as Hzl.
    { rewrite <-Ho1 at 2. by rewrite fmap_length. }
    unfold request_from_bytes. rewrite Hk. destruct (decide (AllFit msgs)) as [Ha|Ha].
    + subst k. rewrite take_ge by lia. eexists. split; [exact Hg|]. split; [done|]. split; [done|]. exact Hpools.
    + destruct (chunk_count_sent p ts _ Hn Hlen Hb) as [_ Hnum].
      destruct (get_chunked_request (take k _)) as [x|] eqn:E.
      * f_equal. eapply (get_chunked_short (Z.of_nat (length (requests_of p rs)))); [| | | |exact E].
        -- unfold requests_of. rewrite map_length. pose proof (chunks_count _ _ _ _ _ _ Hn Hrs). lia.
        -- lia.
        -- rewrite take_length. lia.
        -- apply Forall_forall. intros c Hin. apply Hnum. rewrite <-Ho1. apply elem_of_list_fmap_1.
           apply elem_of_take in Hin as (i & Hin & _). by eapply elem_of_list_lookup_2.
      * unfold get_chunked_request in *. apply get_chunked_prefix in E. by rewrite E in Hg.
Qed.

Lemma larger_tickets_served s r p ts cs msgs :
  unmarshal_request s = Some r → rq_profile r = Some p →
  NamesFit p ts → Forall cached ts.*1 → NoFilterPanic p ts.*1 →
  1 + Z.of_nat (length ts) * Z.of_nat (base.size (pr_pools p)) < 2 ^ 31 →
  empty_chunk_size p < max_pb_size →
  (∀ t, t ∈ ts.*1 → empty_chunk_size p + ticket_size t < max_pb_size ∧ 128 <= ticket_size t) →
  names_cost (pr_pools p) <= 38000 →
  build_requests p ts = Done cs → SentAs cs msgs →
  ∃ got, request_from_bytes msgs = Done (Received got) ∧ IsServed p ts.*1 got.
Proof.
  intros Hs Hp Hn Hc Hf Hlen He Ht Hnc Hb Hm.
  destruct (served_from_bytes s r p ts Hs Hp Hn Hc Hf Hlen) as (cs' & Hb' & _ & Hrun).
  rewrite Hb in Hb'. injection Hb' as <-. specialize (Hrun msgs Hm). rewrite decide_True in Hrun; [exact Hrun|].
  assert (∀ c, c ∈ cs → chunk_size c <= grpc_max) as Hfit.
  { intros c Hin. eapply (chunks_fit_grpc p ts cs c); done. }
  clear -Hm Hfit. induction Hm as [|c [b qs] cs msgs [Hc _] _ IH]; [constructor|]. constructor.
  - cbn in *. rewrite (chunk_bytes_size _ _ Hc). apply Hfit. left.
  - apply IH. intros c' Hc'. apply Hfit. by right.
Qed.
