(** SendUpdates and GetUpdates of the Redis store. *)
From Coq Require Import Ascii String ZArith NArith Lia ZifyBool ZifyN Sorting.
From stdpp Require Import prelude strings.
From Verif.Model Require Import GoStrings Types Filter RedisRepl RedisReader.
From Verif.Spec Require Import StringSpec IdSpec RedisSpec.
From Verif.Proofs Require Import StringLemmas MemLemmas RedisLemmas.
Local Open Scope string_scope.
Local Open Scope Z_scope.

Lemma LexLt_trans a b c : LexLt a b → LexLt b c → LexLt a c.
Proof. unfold LexLt. lia. Qed.
Lemma LexLt_irrefl a : ¬ LexLt a a.
Proof. unfold LexLt. lia. Qed.

Lemma encode_sendable u : Sendable u ↔ ∃ f, redis_encode u = inr f.
Proof.
  unfold Sendable, redis_encode. destruct (u_cmd u); repeat case_bool_decide; simpl; split; try done;
    try (intros _; by eexists); try (intros [f [=]]); try tauto.
Qed.
Lemma encode_not_sendable u : ¬ Sendable u → ∃ e, redis_encode u = inl e.
Proof.
  intros H. destruct (redis_encode u) eqn:E; [by eexists|]. destruct H. apply encode_sendable. by eexists.
Qed.

(** C17 *)
Lemma round_trip u f i : redis_encode u = inr f → redis_decode (Entry i f) = Done (as_read i u).
Proof.
  unfold redis_encode. destruct u as [c k v]. destruct c; simpl; repeat case_bool_decide; intros H';
    try discriminate H'; injection H' as <-; reflexivity.
Qed.

Lemma run_xadds_log us : ∀ s os,
  (∃ new, st_entries (run_xadds s (sent_cmds us) os).1 = (st_entries s ++ new)%list ∧
          Forall2 Holds new (log_batch (st_last s) us os)) ∧
  st_last (run_xadds s (sent_cmds us) os).1 = last_id (st_last s) (log_batch (st_last s) us os).
Proof.
  induction us as [|u us IH]; intros s os.
  - simpl. split; [|by destruct os]. exists []. rewrite app_nil_r. by destruct os.
  - cbn [sent_cmds log_batch]. case_decide as Hs.
    + apply encode_sendable in Hs as [f Hf]. rewrite Hf. cbn [run_xadds]. destruct os as [|[ms|] os].
      * simpl. split; [|done]. exists []. by rewrite app_nil_r.
      * unfold xadd. cbn zeta. cbv beta iota.
        destruct (IH (Stream (st_entries s ++ [Entry (next_sid (st_last s) ms) f]) (next_sid (st_last s) ms)) os)
          as [(new & Hn & Hh) Hl].
        destruct (run_xadds _ _ os) as [s2 rs2] eqn:E. simpl in *. split.
        { exists (Entry (next_sid (st_last s) ms) f :: new). split; [by rewrite Hn, <-app_assoc|].
          constructor; [|done]. split; [done|]. by apply round_trip. }
        { rewrite Hl. unfold last_id. simpl. rewrite last_cons. by destruct (last _). }
      * destruct (IH s os) as [(new & Hn & Hh) Hl]. destruct (run_xadds s _ os) as [s2 rs2]. simpl in *.
        split; [by exists new|done].
    + apply encode_not_sendable in Hs as [e He]. rewrite He. apply IH.
Qed.

Definition kept (thr : Z) (e : entry) : Prop := ¬ (0 <= thr ∧ (e_id e).1 < thr).
Global Instance kept_dec thr e : Decision (kept thr e).
Proof. unfold kept. apply _. Defined.

Lemma filter_all {A} (P : A → Prop) `{∀ x, Decision (P x)} (l : list A) : (∀ x, x ∈ l → P x) → filter P l = l.
Proof.
  induction l as [|x l IH]; intros Hl; [done|]. rewrite filter_cons_True by (apply Hl; left).
  rewrite IH; [done|]. intros y Hy. apply Hl. by right.
Qed.

Lemma trim_spec s t : st_entries (xtrim_minid s t) = filter (kept t) (st_entries s).
Proof.
  unfold xtrim_minid. destruct (t <? 0) eqn:E; simpl.
  - symmetry. apply filter_all. intros e _. unfold kept. lia.
  - apply list_filter_iff. intros e. unfold kept. split; lia.
Qed.

(** What a batch appends, and what is left after the trim. *)
Lemma redis_send_stream ttl now s os us :
  ∃ new, Forall2 Holds new (log_batch (st_last s) us os) ∧
    st_entries (redis_send ttl now s (PipeOk os) us).1 = filter (kept (unix_secs now - ttl)) (st_entries s ++ new)%list ∧
    st_entries (redis_send ttl now s (PipeFail os) us).1 = (st_entries s ++ new)%list.
Proof.
  destruct (run_xadds_log us s os) as [(new & Hn & Hh) Hl]. exists new. split; [done|].
  unfold redis_send. destruct (run_xadds s (sent_cmds us) os) as [s1 rs]. simpl in *. split; [|done].
  by rewrite trim_spec, Hn.
Qed.

Lemma redis_send_last ttl now s po us :
  st_last (redis_send ttl now s po us).1 = last_id (st_last s) (log_batch (st_last s) us (executed po)).
Proof.
  destruct (run_xadds_log us s (executed po)) as [_ Hl]. unfold redis_send. destruct po as [os|os]; simpl in *;
    destruct (run_xadds s (sent_cmds us) os) as [s1 rs]; simpl in *; [|done].
  unfold xtrim_minid. by destruct (_ <? 0).
Qed.

(** ** Answers *)
Lemma sent_cmds_app us us' : sent_cmds (us ++ us')%list = (sent_cmds us ++ sent_cmds us')%list.
Proof. induction us as [|u us IH]; [done|]. simpl. rewrite IH. by destruct (redis_encode u). Qed.

Lemma answers_prefix us : ∀ s cmds us2 os,
  Forall Sendable us → (length us <= length os)%nat →
  take (length us) (merge_replies (us ++ us2) (local_errs (us ++ us2))
                       (run_xadds s (sent_cmds us ++ cmds) os).2)%list = own_answers (st_last s) us os.
Proof.
  induction us as [|u us IH]; intros s cmds us2 os Hs Hlen; [by simpl|].
  apply Forall_cons in Hs as [Hu Hs]. apply encode_sendable in Hu as [f Hf].
  destruct os as [|o os]; [simpl in Hlen; lia|]. cbn [app sent_cmds]. rewrite Hf. cbn [app].
  unfold local_errs. cbn [map]. rewrite Hf. fold (local_errs (us ++ us2)). destruct o as [ms|].
  - cbn [run_xadds]. unfold xadd. cbv zeta beta iota.
    specialize (IH (Stream (st_entries s ++ [Entry (next_sid (st_last s) ms) f]) (next_sid (st_last s) ms))
                   cmds us2 os Hs).
    destruct (run_xadds _ _ os) as [s2 rs2]. cbn [snd] in *. cbn [merge_replies length take own_answers].
    rewrite IH by (simpl in Hlen; lia). done.
  - cbn [run_xadds]. specialize (IH s cmds us2 os Hs). destruct (run_xadds s _ os) as [s2 rs2].
    cbn [snd] in *. cbn [merge_replies length take own_answers].
    rewrite IH by (simpl in Hlen; lia). done.
Qed.

(** C14, partial: the updates before the first invalid one. *)
Lemma redis_answers_prefix ttl now s os us us2 :
  Forall Sendable us → (length us <= length os)%nat →
  take (length us) (redis_send ttl now s (PipeOk os) (us ++ us2)).2 = own_answers (st_last s) us os.
Proof.
  intros Hs Hlen. unfold redis_send. rewrite sent_cmds_app.
  pose proof (answers_prefix us s (sent_cmds us2) us2 os Hs Hlen) as H.
  destruct (run_xadds _ _ os) as [s1 rs]. simpl in *. done.
Qed.

Lemma own_answers_logged us : ∀ l os i u r,
  Forall Sendable us → us !! i = Some u → own_answers l us os !! i = Some (Response r None) →
  ∃ j, r = id_text j ∧ (j, u) ∈ log_batch l us os.
Proof.
  induction us as [|v us IH]; intros l os i u r Hs Hi Ho; [done|].
  apply Forall_cons in Hs as [Hv Hs]. cbn [log_batch]. rewrite decide_True by done.
  destruct os as [|[ms|] os]; cbn [own_answers] in Ho; [by rewrite lookup_nil in Ho| |].
  - destruct i as [|i].
    + simpl in *. simplify_eq. exists (next_sid l ms). split; [done|left].
    + simpl in Hi, Ho. destruct (IH _ _ _ _ _ Hs Hi Ho) as (j & -> & Hj). exists j. split; [done|by right].
  - destruct i as [|i]; [done|]. simpl in Hi, Ho. by apply (IH _ _ i).
Qed.

Lemma log_batch_app us us2 : ∀ l os p, p ∈ log_batch l us os → p ∈ log_batch l (us ++ us2) os.
Proof.
  induction us as [|u us IH]; intros l os p; simpl.
  - intros H. by apply elem_of_nil in H.
  - case_decide; [|apply IH]. destruct os as [|[ms|] os]; [done| |apply IH].
    rewrite !elem_of_cons. intros [->|H']; [by left|]. right. by apply IH.
Qed.

Lemma redis_send_length ttl now s po us : length (redis_send ttl now s po us).2 = length us.
Proof.
  unfold redis_send. assert (∀ rs, length (merge_replies us (local_errs us) rs) = length us) as Hm.
  { induction us as [|u us IH]; intros rs; [done|]. simpl. destruct rs; simpl; by rewrite IH. }
  destruct po; destruct (run_xadds _ _ _) as [s1 rs1]; simpl; apply Hm.
Qed.

(** C14, C15: an answer without an error before the first invalid update. *)
Lemma redis_answer_own ttl now s os us i u r :
  (length us <= length os)%nat →
  us !! i = Some u → Forall Sendable (take (S i) us) →
  (redis_send ttl now s (PipeOk os) us).2 !! i = Some (Response r None) →
  ∃ j, r = id_text j ∧ (j, u) ∈ log_batch (st_last s) us os.
Proof.
  intros Hlen Hi Hs Hr. pose proof (lookup_lt_Some _ _ _ Hi) as Hlt.
  pose proof (redis_answers_prefix ttl now s os (take (S i) us) (drop (S i) us) Hs) as H.
  rewrite take_drop in H. rewrite take_length in H.
  replace (S i `min` length us)%nat with (S i) in H by lia.
  specialize (H ltac:(lia)).
  assert (own_answers (st_last s) (take (S i) us) os !! i = Some (Response r None)) as Ho.
  { rewrite <-H. rewrite lookup_take by lia. done. }
  assert (take (S i) us !! i = Some u) as Hi' by (rewrite lookup_take by lia; done).
  destruct (own_answers_logged _ _ _ _ _ _ Hs Hi' Ho) as (j & -> & Hj).
  exists j. split; [done|]. rewrite <-(take_drop (S i) us). by apply log_batch_app.
Qed.

(** What happens in general: position i gets the reply to the i-th *sent* command. *)
Lemma merge_exact us : ∀ replies i u,
  us !! i = Some u →
  merge_replies us (local_errs us) replies !! i =
    Some (match redis_encode u with
          | inl e => Response (if bool_decide (i < length replies)%nat then u_key u else "") (Some e)
          | inr _ => match replies !! i with
                     | Some (Some j) => Response (id_text j) None
                     | Some None => Response "" (Some EReply)
                     | None => Response "" None
                     end
          end).
Proof.
  induction us as [|v us IH]; intros replies i u Hi; [done|].
  cbn [merge_replies local_errs map]. fold (local_errs us). destruct replies as [|r replies].
  - destruct i as [|i].
    + simpl in *. simplify_eq. by destruct (redis_encode u).
    + simpl in Hi. etrans; [exact (IH [] i u Hi)|]. simpl.
      destruct (redis_encode u); [|done]. do 3 f_equal.
  - destruct i as [|i].
    + simpl in *. simplify_eq. destruct (redis_encode u); by destruct r.
    + simpl in Hi. etrans; [exact (IH replies i u Hi)|]. simpl.
      destruct (redis_encode u); [|done]. do 2 f_equal.
      rewrite (bool_decide_ext (S i < S (length replies))%nat (i < length replies)%nat) by lia. done.
Qed.

(** ** C16 *)
Lemma pool_calls_spec n : ∀ p,
  is_Some (pool_calls n p) ↔ rp_max p = 0%nat ∨ n = 0%nat ∨ (rp_in_use p + n <= rp_max p)%nat.
Proof.
  induction n as [|n IH]; intros p; cbn [pool_calls].
  - split; [intros _; right; by left|by eexists].
  - unfold pool_call, pool_get. destruct ((rp_max p =? 0)%nat || (rp_in_use p <? rp_max p)%nat) eqn:E.
    + rewrite IH. simpl. lia.
    + split; [intros [? [=]]|]. lia.
Qed.

(** ** C26 and C27: ids carry milliseconds, the code compares seconds *)
Lemma redis_send_keeps_all ttl now s os us :
  (∀ e, e ∈ st_entries s → unix_secs now - ttl <= (e_id e).1) →
  (∀ p, p ∈ log_batch (st_last s) us os → unix_secs now - ttl <= p.1.1) →
  ∃ new, st_entries (redis_send ttl now s (PipeOk os) us).1 = (st_entries s ++ new)%list ∧
         Forall2 Holds new (log_batch (st_last s) us os).
Proof.
  intros H1 H2. destruct (redis_send_stream ttl now s os us) as (new & Hf & He & _). exists new.
  split; [|done]. rewrite He. apply filter_all. intros e Hin. unfold kept.
  apply elem_of_app in Hin as [Hin|Hin]; [specialize (H1 e Hin); lia|].
  apply elem_of_list_lookup in Hin as [i Hi]. destruct (Forall2_lookup_l _ _ _ _ _ Hf Hi) as (p & Hp & Hid & _).
  apply elem_of_list_lookup_2 in Hp. specialize (H2 p Hp). rewrite Hid. destruct p as [[a b] w]. simpl in *. lia.
Qed.

Lemma next_sid_ge l ms : l.1 <= (next_sid l ms).1 ∧ ms <= (next_sid l ms).1.
Proof. unfold next_sid. destruct (l.1 <? ms) eqn:E; simpl; lia. Qed.

Lemma log_batch_ge us : ∀ l os b p,
  b <= l.1 → p ∈ log_batch l us os → b <= p.1.1.
Proof.
  induction us as [|u us IH]; intros l os b p Hb; cbn [log_batch].
  - intros H. by apply elem_of_nil in H.
  - case_decide; [|by apply IH]. destruct os as [|[ms|] os]; [intros H'; by apply elem_of_nil in H'| |by apply IH].
    pose proof (next_sid_ge l ms). rewrite elem_of_cons. intros [->|Hp]; simpl; [lia|]. eapply IH; [|done]. lia.
Qed.

Lemma log_batch_ms us : ∀ l os b p,
  (∀ ms, XaddOk ms ∈ os → b <= ms) → p ∈ log_batch l us os → b <= p.1.1.
Proof.
  induction us as [|u us IH]; intros l os b p Hb; cbn [log_batch].
  - intros H. by apply elem_of_nil in H.
  - case_decide; [|by apply IH]. destruct os as [|[ms|] os]; [intros H'; by apply elem_of_nil in H'| |].
    + pose proof (next_sid_ge l ms). specialize (Hb ms ltac:(left)) as Hms.
      rewrite elem_of_cons. intros [->|Hp]; simpl; [lia|]. eapply IH; [|done]. intros ms' Hm. apply Hb. by right.
    + intros Hp. eapply IH; [|done]. intros ms' Hm. apply Hb. by right.
Qed.
