(** C125: in every fair execution every call returns and every update is applied. *)
From Coq Require Import Ascii String ZArith NArith Lia.
From stdpp Require Import prelude strings gmap relations.
From Verif.Model Require Import GoStrings Types Proto Cache Replica Handlers MemRepl Queues RedisRepl System RedisSystem.
From Verif.Spec Require Import IdSpec CacheSpec RedisSpec SystemSpec FairSpec.
From Verif.Proofs Require Import FairLemmas FairMem FairIdle FairRedisMore.
From Verif.Props Require Import SystemProps RedisSystemProps.
Local Open Scope nat_scope.

(** ** One instance with the in-memory store *)

(** Every call of a handler that writes state returns, whatever other calls keep
    coming in. *)
Theorem C125_memory_calls_return : ∀ cfg t0 f,
  (0 <= t0)%Z → mreach cfg t0 (f 0) → Execution (mstep cfg) f → FairMem cfg f →
  ∀ n i c, in_calls (ms_inst (f n)) !! i = Some c →
  ∃ m c', n <= m ∧ in_calls (ms_inst (f m)) !! i = Some c' ∧ cl_ups c' = cl_ups c ∧ returned c'.
Proof. intros cfg t0 f H0 Hr He. exact (mem_every_call_returns cfg t0 f H0 Hr (execution_pausing _ _ He)). Qed.
Print Assumptions C125_memory_calls_return.

(** Everything that has been written to the store is applied to the cache. *)
Theorem C125_memory_updates_applied : ∀ cfg t0 f,
  (0 <= t0)%Z → mreach cfg t0 (f 0) → Execution (mstep cfg) f → FairMem cfg f →
  ∀ n, ∃ m, n <= m ∧ map sn_upd (ms_hist (f n)) `prefix_of` applied (ms_inst (f m)).
Proof. intros cfg t0 f H0 Hr He. exact (mem_everything_applied cfg t0 f H0 Hr (execution_pausing _ _ He)). Qed.
Print Assumptions C125_memory_updates_applied.

(** A ticket whose creation has returned and whose activation has been asked for
    afterwards becomes active, and is active from then on for as long as it has
    neither been deactivated nor expired. *)
Theorem C125_memory_active : ∀ cfg t0 f,
  (0 <= t0)%Z → mreach cfg t0 (f 0) → Execution (mstep cfg) f → FairMem cfg f →
  ∀ n m i ci v r j cj,
  in_calls (ms_inst (f n)) !! i = Some ci → Creates ci v → r ∈ cl_got ci →
  n <= m → length (in_calls (ms_inst (f n))) <= j → in_calls (ms_inst (f m)) !! j = Some cj →
  Update CmdActivate (r_result r) ""%string ∈ cl_ups cj →
  ∃ k, m <= k ∧ ∀ k', k <= k' →
    (∀ w, Update CmdDeactivate (r_result r) w ∉ applied (ms_inst (f k'))) →
    (∀ x, x ∈ hev_visits (in_events (ms_inst (f k'))) →
          ¬ OlderThan (cfg_ticket_ttl cfg) x.2 (r_result r) ∧ ¬ ExpiredAt x.2 (stored_ticket (r_result r) v)) →
    Active (in_cache (ms_inst (f k'))) (r_result r) ∧
    c_tickets (in_cache (ms_inst (f k'))) !! r_result r = Some (stored_ticket (r_result r) v).
Proof. intros cfg t0 f H0 Hr He. exact (mem_eventually_active cfg t0 f H0 Hr (execution_pausing _ _ He)). Qed.
Print Assumptions C125_memory_active.

(** There is a fair execution from every reachable state. *)
Theorem C125_memory_fair_exists : ∀ cfg t0 s,
  (0 <= t0)%Z → mreach cfg t0 s → ∃ f, f 0 = s ∧ Execution (mstep cfg) f ∧ FairMem cfg f.
Proof. exact mem_fair_exists. Qed.
Print Assumptions C125_memory_fair_exists.

(** ** Several instances on one Redis stream *)

(** If instance [n] is treated fairly, every call it gets returns. *)
Theorem C125_redis_calls_return : ∀ cfg n f m x i c,
  yreach cfg (f 0) → Execution (ystep cfg) f → FairInst cfg n f →
  ry_insts (f m) !! n = Some x → in_calls (rx_inst x) !! i = Some c →
  ∃ k y c', m <= k ∧ ry_insts (f k) !! n = Some y ∧ in_calls (rx_inst y) !! i = Some c' ∧ cl_ups c' = cl_ups c ∧ returned c'.
Proof. intros cfg n f m x i c Hr He. exact (red_every_call_returns cfg n f m x i c Hr (execution_pausing _ _ He)). Qed.
Print Assumptions C125_redis_calls_return.

(** If moreover its polls are answered again and again, it applies everything that
    any instance has appended to the stream. *)
Theorem C125_redis_updates_applied : ∀ cfg n f m x,
  1 <= cfg_in_max cfg → yreach cfg (f 0) → Execution (ystep cfg) f → FairInst cfg n f → FairTo (ystep cfg) f (PollAnswered cfg n) →
  (∀ k, Untrimmed (f k)) → ry_insts (f m) !! n = Some x →
  ∃ k y, m <= k ∧ ry_insts (f k) !! n = Some y ∧ history (f m) `prefix_of` applied (rx_inst y).
Proof. intros cfg n f m x Hc Hr He. exact (red_everything_applied cfg n f m x Hc Hr (execution_pausing _ _ He)). Qed.
Print Assumptions C125_redis_updates_applied.

(** A ticket created at instance [n] and afterwards activated at instance [m]
    becomes active at instance [w]. *)
Theorem C125_redis_active : ∀ cfg f a n x i ci v r b m y j cj p r' w z,
  1 <= cfg_in_max cfg → yreach cfg (f 0) → Execution (ystep cfg) f → (∀ k, Untrimmed (f k)) →
  FairInst cfg w f → FairTo (ystep cfg) f (PollAnswered cfg w) →
  ry_insts (f a) !! n = Some x → AllSendable x → in_calls (rx_inst x) !! i = Some ci → Creates ci v → r ∈ cl_got ci → Good r →
  NotYet (f a) m j → a <= b →
  ry_insts (f b) !! m = Some y → AllSendable y → in_calls (rx_inst y) !! j = Some cj →
  cl_ups cj !! p = Some (Update CmdActivate (r_result r) ""%string) → cl_got cj !! p = Some r' → Good r' →
  ry_insts (f b) !! w = Some z →
  ∃ k0, b <= k0 ∧ ∀ k, k0 <= k → ∃ z', ry_insts (f k) !! w = Some z' ∧
    ((∀ v', Update CmdDeactivate (r_result r) v' ∉ applied (rx_inst z')) →
     (∀ e, e ∈ hev_visits (in_events (rx_inst z')) →
           ¬ OlderThan (cfg_ticket_ttl cfg) e.2 (r_result r) ∧ ¬ ExpiredAt e.2 (stored_ticket (r_result r) v)) →
     Active (in_cache (rx_inst z')) (r_result r) ∧
     c_tickets (in_cache (rx_inst z')) !! r_result r = Some (stored_ticket (r_result r) v)).
Proof.
  intros cfg f a n x i ci v r b m y j cj p r' w z Hc Hr He.
  exact (red_eventually_active cfg f a n x i ci v r b m y j cj p r' w z Hc Hr (execution_pausing _ _ He)).
Qed.
Print Assumptions C125_redis_active.

(** There is such an execution from every reachable state whose stream a trim at
    some time would spare. *)
Theorem C125_redis_fair_exists : ∀ cfg now s n x,
  1 <= cfg_in_max cfg → yreach cfg s → Untrimmed s →
  (∀ e, e ∈ ry_log s → (unix_secs now - cfg_ticket_ttl cfg <= (le_id e).1)%Z) →
  ry_insts s !! n = Some x →
  ∃ f, f 0 = s ∧ Execution (ystep cfg) f ∧ FairInst cfg n f ∧ FairTo (ystep cfg) f (PollAnswered cfg n) ∧ ∀ k, Untrimmed (f k).
Proof. exact red_fair_exists. Qed.
Print Assumptions C125_redis_fair_exists.

(** ** Examples *)
Section example.
Local Open Scope string_scope.

(** The run of [C70_example] just after the activation of the ticket has been
    asked for. *)
Definition fx_call : call := Call [Update CmdActivate "1700000000-1" ""] 1 0 [] [].
Definition fx_begun : msys :=
  MSys (Inst [ex_create; fx_call] (OCollect []) (PGet []) [] false (in_cache (ms_inst ex_mid)) (in_events (ms_inst ex_mid)))
       (ms_store ex_mid) (ms_clock ex_mid) (ms_hist ex_mid).

Lemma fx_begins : mstep ex_cfg ex_mid fx_begun.
Proof.
  apply M_local. unfold ex_mid.
  eapply (L_call ex_cfg mem_begin [ex_create] _ _ _ _ _ _ [Update CmdActivate "1700000000-1" ""] 1).
  eapply (Is_activate _ ["1700000000-1"]); vm_compute; reflexivity.
Qed.

(** There are fair executions that go on from there, and in all of them the call
    returns and the ticket becomes active. *)
Example C125_example :
  (∃ f, f 0 = ex_mid ∧ f 1 = fx_begun ∧ Execution (mstep ex_cfg) f ∧ FairMem ex_cfg f) ∧
  ∀ f, f 0 = ex_mid → f 1 = fx_begun → Execution (mstep ex_cfg) f → FairMem ex_cfg f →
    (∃ m c, in_calls (ms_inst (f m)) !! 1 = Some c ∧ returned c) ∧
    ∃ k, ∀ k', k <= k' →
      (∀ w, Update CmdDeactivate "1700000000-1" w ∉ applied (ms_inst (f k'))) →
      (∀ x, x ∈ hev_visits (in_events (ms_inst (f k'))) →
          ¬ OlderThan 600 x.2 "1700000000-1" ∧ ¬ ExpiredAt x.2 (stored_ticket "1700000000-1" ex_value)) →
      Active (in_cache (ms_inst (f k'))) "1700000000-1".
Proof.
  assert (H0 : (0 <= ex_t0)%Z) by (vm_compute; congruence). split.
  - assert (Hr : mreach ex_cfg ex_t0 fx_begun) by (eapply rtc_r; [exact ex_reach_mid|exact fx_begins]).
    destruct (C125_memory_fair_exists ex_cfg ex_t0 fx_begun H0 Hr) as (g & E & He & Hf).
    exists (λ n, match n with 0 => ex_mid | S n => g n end). split; [done|]. split; [done|]. split.
    + intros [|n]; [rewrite E; exact fx_begins|apply He].
    + intros k n. destruct (Hf k n) as [(m & Hm & Ha)|(j & Hj)].
      * left. exists (S m). split; [lia|done].
      * right. exists (S j). intros [|m] s Hm Hs; [lia|]. apply Hj; [lia|done].
  - intros f E0 E1 He Hf. assert (Hr : mreach ex_cfg ex_t0 (f 0)) by (rewrite E0; exact ex_reach_mid). split.
    + destruct (C125_memory_calls_return ex_cfg ex_t0 f H0 Hr He Hf 1 1 fx_call) as (m & c & _ & Hc & _ & Hret); [by rewrite E1|].
      by exists m, c.
    + destruct (C125_memory_active ex_cfg ex_t0 f H0 Hr He Hf 0 1 0 ex_create ex_value (Response "1700000000-1" None) 1 fx_call)
        as (k & _ & Hk).
      * by rewrite E0.
      * done.
      * exact (elem_of_list_here _ _).
      * lia.
      * rewrite E0. cbn. lia.
      * by rewrite E1.
      * exact (elem_of_list_here _ _).
      * exists k. intros k' Hk' H1 H2. exact (proj1 (Hk k' Hk' H1 H2)).
Qed.

(** Without fairness the call need not return: here the queue never takes its
    update. *)
Definition fx_unfair (n : nat) : msys :=
  MSys (Nat.iter n (idle ex_cfg) (ms_inst fx_begun)) (ms_store fx_begun) (ms_clock fx_begun) (ms_hist fx_begun).

Example C125_example_unfair :
  mreach ex_cfg ex_t0 (fx_unfair 0) ∧ Execution (mstep ex_cfg) fx_unfair ∧
  ∀ n, in_calls (ms_inst (fx_unfair n)) !! 1 = Some fx_call ∧ ¬ returned fx_call.
Proof.
  split; [eapply rtc_r; [exact ex_reach_mid|exact fx_begins]|].
  assert (Hcs : ∀ n, in_calls (ms_inst (fx_unfair n)) = [ex_create; fx_call]).
  { unfold fx_unfair. cbn [ms_inst]. induction n as [|n IH]; [done|].
    change (Nat.iter (S n) (idle ex_cfg) (ms_inst fx_begun)) with (idle ex_cfg (Nat.iter n (idle ex_cfg) (ms_inst fx_begun))).
    rewrite <-IH. apply idle_calls. }
  split.
  - intros n. apply idle_turn. unfold fx_unfair. cbn [ms_inst].
    induction n as [|n IH]; [by split; [|left]|].
    change (Nat.iter (S n) (idle ex_cfg) (ms_inst fx_begun)) with (idle ex_cfg (Nat.iter n (idle ex_cfg) (ms_inst fx_begun))).
    by apply idle_calm.
  - intros n. rewrite Hcs. split; [done|]. intros [H _]. cbn in H. lia.
Qed.

(** The final state of [C71_example]: there is a fair execution from it. *)
Example C125_example_redis :
  ∃ f, f 0 = rex_final ∧ Execution (ystep rex_cfg) f ∧ FairInst rex_cfg 0 f ∧ FairTo (ystep rex_cfg) f (PollAnswered rex_cfg 0) ∧
       ∀ k, Untrimmed (f k).
Proof.
  apply (C125_redis_fair_exists rex_cfg rex_now rex_final 0 rex_inst2).
  - cbn. lia.
  - eapply rtc_transitive; [exact rex_reach_mid|exact rex_reach_final].
  - intros t e Ht He. cbn [rex_final ry_trims ry_log] in *. unfold rex_log2 in He.
    rewrite !elem_of_cons in Ht. rewrite !elem_of_cons in He.
    destruct Ht as [->|[->|Ht]]; [| |by apply elem_of_nil in Ht]; (destruct He as [->|[->|He]]; [| |by apply elem_of_nil in He]);
      vm_compute; congruence.
  - intros e He. cbn [rex_final ry_log] in He. unfold rex_log2 in He. rewrite !elem_of_cons in He.
    destruct He as [->|[->|He]]; [| |by apply elem_of_nil in He]; vm_compute; congruence.
  - done.
Qed.
End example.
