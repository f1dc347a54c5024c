(** C126: in every fair execution an invocation comes to its end, and the tickets of
    its matches are retired. *)
From Coq Require Import Ascii String ZArith NArith Lia.
From stdpp Require Import prelude strings gmap relations.
From Verif.Model Require Import GoStrings Types Filter Wire Proto Cache Replica Handlers MemRepl Queues RedisRepl RedisReader Snapshot Chunk System RedisSystem Invoke InvokeSystem.
From Verif.Spec Require Import HandlerSpec CacheSpec ChunkSpec RedisSpec SystemSpec EndToEndSpec AssignSpec StateSpec InvokeSpec InvokeSystemSpec FairSpec FairInvokeSpec.
From Verif.Proofs Require Import InvokeLemmas InvokeSystemLemmas FairLemmas FairInvoke FairInvokeMore.
From Verif.Props Require Import SystemProps RedisSystemProps EndToEndProps StateProps InvokeSystemProps.
Local Open Scope nat_scope.

(** ** One instance with the in-memory store *)

(** The handler returns, all goroutines end, every match received has been passed to
    stream.Send, and of those at most one after the handler had returned if no
    function failed. *)
Theorem C126_memory_ends : ∀ cfg t0 wait fns s0 f,
  (0 <= t0)%Z → mreach cfg t0 s0 → rtc (im_step cfg wait) (is_init mem_inactive fns s0) (f 0) →
  Execution (im_step cfg wait) f → FairInvocation (im_step cfg wait) f → FairServerMem cfg wait f →
  ∃ m, ∀ k, m <= k → Over (is_inv (f k)) ∧ v_gors (is_inv (f k)) = v_gors (is_inv (f m)) ∧
    (∀ i, i < length (v_gors (is_inv (f k))) → i ∈ v_streamed (is_inv (f k)) ++ v_lost (is_inv (f k))) ∧
    (AllFinished (is_inv (f k)) → length (v_lost (is_inv (f k))) <= 1).
Proof. exact mem_invocation_ends. Qed.
Print Assumptions C126_memory_ends.

(** A ticket that was created and whose activations had all returned by [f a], and
    that is in a match received after that: there comes a time after which no
    snapshot has it. *)
Theorem C126_memory_matched_retires : ∀ cfg t0 wait fns s0 f,
  (0 <= t0)%Z → mreach cfg t0 s0 → rtc (im_step cfg wait) (is_init mem_inactive fns s0) (f 0) →
  Execution (im_step cfg wait) f → FairServerMem cfg wait f →
  ∀ a b i ci v r n k m,
  mem_calls (is_server (f a)) !! i = Some ci → Creates ci v → r ∈ cl_got ci →
  length (v_gors (is_inv (f a))) <= n → a <= b → ReceivedAs (is_inv (f b)) n k m → TicketIn m (r_result r) →
  (∀ q i' c', mem_calls (is_server (f q)) !! i' = Some c' → SetsState c' (r_result r) true →
     ∃ c1, mem_calls (is_server (f a)) !! i' = Some c1 ∧ returned c1) →
  ∃ q, b <= q ∧ ∀ k1 k2 ts, q <= k1 → k1 <= k2 →
    SnapshotBetween cfg (ms_inst (is_server (f k1))) (ms_inst (is_server (f k2))) ts →
    ∀ t, t ∈ ts → tk_id t ≠ r_result r.
Proof. exact mem_matched_retires. Qed.
Print Assumptions C126_memory_matched_retires.

(** A server that is treated fairly does not outlive a match without tickets. *)
Theorem C126_memory_empty_match_fatal : ∀ cfg t0 wait fns s0 f,
  (0 <= t0)%Z → mreach cfg t0 s0 → rtc (im_step cfg wait) (is_init mem_inactive fns s0) (f 0) →
  Execution (im_step cfg wait) f → FairInvocation (im_step cfg wait) f → FairServerMem cfg wait f →
  ∀ n i k m, ReceivedAs (is_inv (f n)) i k m → ∃ id, TicketIn m id.
Proof. exact mem_no_empty_match. Qed.
Print Assumptions C126_memory_empty_match_fatal.

(** Every run that has come to its end without a crash is the beginning of a fair
    execution; so there is one from each of its states. *)
Theorem C126_memory_fair_exists : ∀ cfg t0 wait fns s0 z z',
  (0 <= t0)%Z → mreach cfg t0 s0 → rtc (im_step cfg wait) (is_init mem_inactive fns s0) z →
  rtc (im_step cfg wait) z z' → Over (is_inv z') → v_panic (is_inv z') = false →
  ∃ f, f 0 = z ∧ (∃ k, f k = z') ∧ Execution (im_step cfg wait) f ∧ FairInvocation (im_step cfg wait) f ∧ FairServerMem cfg wait f.
Proof. exact mem_invocation_fair_exists. Qed.
Print Assumptions C126_memory_fair_exists.

(** ** Several instances on one Redis stream; instance [w] gets the invocation *)
Theorem C126_redis_ends : ∀ cfg w wait fns s0 f,
  yreach cfg s0 → rtc (ir_step cfg w wait) (is_init (red_inactive w) fns s0) (f 0) →
  Execution (ir_step cfg w wait) f → FairInvocation (ir_step cfg w wait) f → FairServerRedis cfg w wait f →
  ∃ m, ∀ k, m <= k → Over (is_inv (f k)) ∧ v_gors (is_inv (f k)) = v_gors (is_inv (f m)) ∧
    (∀ i, i < length (v_gors (is_inv (f k))) → i ∈ v_streamed (is_inv (f k)) ++ v_lost (is_inv (f k))) ∧
    (AllFinished (is_inv (f k)) → length (v_lost (is_inv (f k))) <= 1).
Proof. exact red_invocation_ends. Qed.
Print Assumptions C126_redis_ends.

(** The tickets of its matches are retired at every instance [u] that is treated
    fairly and whose polls are answered, if Redis took the deactivations. *)
Theorem C126_redis_matched_retires : ∀ cfg w wait fns s0 f,
  yreach cfg s0 → rtc (ir_step cfg w wait) (is_init (red_inactive w) fns s0) (f 0) →
  Execution (ir_step cfg w wait) f → FairServerRedis cfg w wait f →
  ∀ a b q0 n x i ci v r e k m u xu,
  1 <= cfg_in_max cfg → (∀ q, Untrimmed (is_server (f q))) →
  FairInst cfg u (λ q, is_server (f q)) → FairTo (ystep cfg) (λ q, is_server (f q)) (PollAnswered cfg u) →
  ry_insts (is_server (f a)) !! n = Some x → AllSendable x → in_calls (rx_inst x) !! i = Some ci → Creates ci v → r ∈ cl_got ci → Good r →
  length (v_gors (is_inv (f a))) <= e → a <= b → ReceivedAs (is_inv (f b)) e k m → TicketIn m (r_result r) →
  (∀ q, DeactivationsStored w (f q)) → (∀ q y, ry_insts (is_server (f q)) !! w = Some y → AllSendable y) →
  (∀ q n' x' i' c', ry_insts (is_server (f q)) !! n' = Some x' → in_calls (rx_inst x') !! i' = Some c' → SetsState c' (r_result r) true →
     ∃ x1 c1, ry_insts (is_server (f a)) !! n' = Some x1 ∧ AllSendable x1 ∧ in_calls (rx_inst x1) !! i' = Some c1 ∧ AllGood c1) →
  ry_insts (is_server (f q0)) !! u = Some xu →
  ∃ q, b <= q ∧ ∀ k1 k2 z1 z2 ts, q <= k1 → k1 <= k2 →
    ry_insts (is_server (f k1)) !! u = Some z1 → ry_insts (is_server (f k2)) !! u = Some z2 →
    SnapshotBetween cfg (rx_inst z1) (rx_inst z2) ts →
    ∀ t, t ∈ ts → tk_id t ≠ r_result r.
Proof. exact red_matched_retires. Qed.
Print Assumptions C126_redis_matched_retires.

Theorem C126_redis_empty_match_fatal : ∀ cfg w wait fns s0 f,
  yreach cfg s0 → rtc (ir_step cfg w wait) (is_init (red_inactive w) fns s0) (f 0) →
  Execution (ir_step cfg w wait) f → FairInvocation (ir_step cfg w wait) f → FairServerRedis cfg w wait f →
  ∀ n i k m, ReceivedAs (is_inv (f n)) i k m → ∃ id, TicketIn m id.
Proof. exact red_no_empty_match. Qed.
Print Assumptions C126_redis_empty_match_fatal.

Theorem C126_redis_fair_exists : ∀ cfg w wait fns s0 z z' now x,
  1 <= cfg_in_max cfg → yreach cfg s0 → rtc (ir_step cfg w wait) (is_init (red_inactive w) fns s0) z →
  rtc (ir_step cfg w wait) z z' → Over (is_inv z') → v_panic (is_inv z') = false →
  Untrimmed (is_server z') → (∀ e, e ∈ ry_log (is_server z') → (unix_secs now - cfg_ticket_ttl cfg <= (le_id e).1)%Z) →
  ry_insts (is_server z') !! w = Some x →
  ∃ f, f 0 = z ∧ (∃ k, f k = z') ∧ Execution (ir_step cfg w wait) f ∧ FairInvocation (ir_step cfg w wait) f ∧ FairServerRedis cfg w wait f.
Proof. exact red_invocation_fair_exists. Qed.
Print Assumptions C126_redis_fair_exists.

(** ** Examples *)
Section example.
Local Open Scope string_scope.
Local Open Scope list_scope.

(** The run of [C120_example]: the function runs, then it has sent its match. *)
Definition fi_before : isys msys := ISys ex_final (is_running (mem_inactive ex_final)) [].
Definition fi_received : isys msys := ISys im_call (is_received e2e_stored (mem_inactive im_call)) [2].
Definition fi_over : isys msys :=
  ISys st_off (with_fan (is_done e2e_stored (mem_inactive st_off)) FanClosed) [2].

Lemma fi_run wait : rtc (im_step ex_cfg wait) fi_before fi_over.
Proof.
  eapply rtc_r; [apply (im_run wait st_off im_apply eq_refl)|].
  exact (IS_own (mstep ex_cfg) mem_calls mem_inactive wait st_off (is_done e2e_stored (mem_inactive st_off)) _ [2]
    (V_fan_close wait (is_done e2e_stored (mem_inactive st_off)) eq_refl eq_refl (or_intror (ex_intro _ None eq_refl))) eq_refl eq_refl eq_refl eq_refl).
Qed.
Lemma fi_is_over : Over (is_inv fi_over).
Proof.
  split; [by exists None|]. split; [done|]. split.
  - intros [|k] x Hx; [|discriminate Hx]. injection Hx as <-. by exists true.
  - intros [|n] g Hg; [|discriminate Hg]. by injection Hg as <-.
Qed.

(** There are fair executions in which the function sends the match and the
    invocation ends. In every fair execution that goes on from [fi_before] it ends,
    with all matches handed on, and once a match with the ticket has been received
    there comes a time after which no snapshot has the ticket, as long as it is not
    activated again. *)
Example C126_example : ∀ wait,
  (∃ f, f 0 = fi_before ∧ (∃ k, f k = fi_over) ∧
     Execution (im_step ex_cfg wait) f ∧ FairInvocation (im_step ex_cfg wait) f ∧ FairServerMem ex_cfg wait f) ∧
  ∀ f, f 0 = fi_before → Execution (im_step ex_cfg wait) f → FairInvocation (im_step ex_cfg wait) f → FairServerMem ex_cfg wait f →
    (∃ m, ∀ k, m <= k → Over (is_inv (f k)) ∧
       ∀ i, i < length (v_gors (is_inv (f k))) → i ∈ v_streamed (is_inv (f k)) ++ v_lost (is_inv (f k))) ∧
    (∀ b n k m, ReceivedAs (is_inv (f b)) n k m → TicketIn m e2e_key →
       (∀ q i c, mem_calls (is_server (f q)) !! i = Some c → SetsState c e2e_key true → i < 2) →
       ∃ q, ∀ k1 k2 ts, q <= k1 → k1 <= k2 →
         SnapshotBetween ex_cfg (ms_inst (is_server (f k1))) (ms_inst (is_server (f k2))) ts → ∀ t, t ∈ ts → tk_id t ≠ e2e_key).
Proof.
  intros wait. assert (H0 : (0 <= ex_t0)%Z) by (vm_compute; congruence).
  assert (Hz : rtc (im_step ex_cfg wait) (is_init mem_inactive [FnGrpc] ex_final) fi_before) by (apply is_run_start).
  split.
  - exact (C126_memory_fair_exists ex_cfg ex_t0 wait [FnGrpc] ex_final fi_before fi_over H0 im_reach Hz (fi_run wait) fi_is_over eq_refl).
  - intros f E HE HF HS. assert (Hf0 : rtc (im_step ex_cfg wait) (is_init mem_inactive [FnGrpc] ex_final) (f 0)) by (by rewrite E).
    split.
    + destruct (C126_memory_ends ex_cfg ex_t0 wait [FnGrpc] ex_final f H0 im_reach Hf0 HE HF HS) as (m & Hm).
      exists m. intros k Hk. destruct (Hm k Hk) as (H1 & _ & H2 & _). by split.
    + intros b n k m Hrec Hin Hoth.
      destruct (C126_memory_matched_retires ex_cfg ex_t0 wait [FnGrpc] ex_final f H0 im_reach Hf0 HE HS 0 b 0 ex_create ex_value
        (Response e2e_key None) n k m) as (q & _ & Hq).
      * rewrite E. exact eq_refl.
      * exact eq_refl.
      * exact (elem_of_list_here _ _).
      * rewrite E. cbn. lia.
      * lia.
      * exact Hrec.
      * exact Hin.
      * intros q i c Hc Hset. cbn [r_result] in *. specialize (Hoth q i c Hc Hset). rewrite E.
        destruct i as [|[|i]]; [| |lia].
        -- exists ex_create. split; [exact eq_refl|exact (conj eq_refl eq_refl)].
        -- exists ex_activate. split; [exact eq_refl|exact (conj eq_refl eq_refl)].
      * exists q. exact Hq.
Qed.

(** The match of [fi_over] has the ticket. *)
Example C126_example_match : ReceivedAs (is_inv fi_over) 0 0 (Some (is_match e2e_stored)) ∧ TicketIn (Some (is_match e2e_stored)) e2e_key ∧
  0 ∈ v_streamed (is_inv fi_over).
Proof.
  split; [by exists (is_gor e2e_stored GDone)|]. split; [rewrite <-im_key; apply is_match_in|left].
Qed.

(** Redis: the run of [C120_example_redis]. *)
Definition fr_before : isys rsys := ISys rex_final (is_running (red_inactive 0 rex_final)) [].
Definition fr_over : isys rsys := ISys rst_off (with_fan (is_done e2e_rstored (red_inactive 0 rst_off)) FanClosed) [1].
Lemma fr_run wait : rtc (ir_step rex_cfg 0 wait) fr_before fr_over.
Proof.
  eapply rtc_r; [apply (ir_run wait rst_off rst_call ir_stored eq_refl (conj eq_refl eq_refl))|].
  exact (IS_own (ystep rex_cfg) (red_calls 0) (red_inactive 0) wait rst_off (is_done e2e_rstored (red_inactive 0 rst_off)) _ [1]
    (V_fan_close wait (is_done e2e_rstored (red_inactive 0 rst_off)) eq_refl eq_refl (or_intror (ex_intro _ None eq_refl))) eq_refl eq_refl eq_refl eq_refl).
Qed.
Lemma fr_is_over : Over (is_inv fr_over).
Proof.
  split; [by exists None|]. split; [done|]. split.
  - intros [|k] x Hx; [|discriminate Hx]. injection Hx as <-. by exists true.
  - intros [|n] g Hg; [|discriminate Hg]. by injection Hg as <-.
Qed.
Example C126_example_redis : ∀ wait,
  (∃ f, f 0 = fr_before ∧ (∃ k, f k = fr_over) ∧
     Execution (ir_step rex_cfg 0 wait) f ∧ FairInvocation (ir_step rex_cfg 0 wait) f ∧ FairServerRedis rex_cfg 0 wait f) ∧
  ∀ f, f 0 = fr_before → Execution (ir_step rex_cfg 0 wait) f → FairInvocation (ir_step rex_cfg 0 wait) f → FairServerRedis rex_cfg 0 wait f →
    ∃ m, ∀ k, m <= k → Over (is_inv (f k)) ∧
      ∀ i, i < length (v_gors (is_inv (f k))) → i ∈ v_streamed (is_inv (f k)) ++ v_lost (is_inv (f k)).
Proof.
  intros wait.
  assert (Hz : rtc (ir_step rex_cfg 0 wait) (is_init (red_inactive 0) [FnGrpc] rex_final) fr_before) by (apply is_run_start).
  split.
  - refine (C126_redis_fair_exists rex_cfg 0 wait [FnGrpc] rex_final fr_before fr_over rex_now rst_inst0 _ ir_reach Hz (fr_run wait) fr_is_over eq_refl _ _ eq_refl).
    + vm_compute. lia.
    + assert (Ht : Forall (λ t, Forall (λ e, (t <= (le_id e).1)%Z) (ry_log rst_off)) (ry_trims rst_off)).
      { refine (bool_decide_unpack _ _). vm_compute. exact I. }
      intros t e Htr He. rewrite Forall_forall in Ht. specialize (Ht t Htr). rewrite Forall_forall in Ht. exact (Ht e He).
    + assert (Ht : Forall (λ e, (unix_secs rex_now - cfg_ticket_ttl rex_cfg <= (le_id e).1)%Z) (ry_log rst_off)).
      { refine (bool_decide_unpack _ _). vm_compute. exact I. }
      intros e He. rewrite Forall_forall in Ht. exact (Ht e He).
  - intros f E HE HF HS. assert (Hf0 : rtc (ir_step rex_cfg 0 wait) (is_init (red_inactive 0) [FnGrpc] rex_final) (f 0)) by (by rewrite E).
    destruct (C126_redis_ends rex_cfg 0 wait [FnGrpc] rex_final f ir_reach Hf0 HE HF HS) as (m & Hm).
    exists m. intros k Hk. destruct (Hm k Hk) as (H1 & _ & H2 & _). by split.
Qed.
End example.
