(** C131: every watch ends, and an assignment made for a watched ticket reaches the watcher. *)
From Coq Require Import Ascii String ZArith NArith Lia.
From stdpp Require Import prelude strings gmap relations.
From Verif.Model Require Import GoStrings Types Cache Replica Handlers MemRepl Queues RedisRepl RedisReader System RedisSystem Watch WatchSystem.
From Verif.Spec Require Import CacheSpec RedisSpec SystemSpec WatchSpec AssignSpec AgreeSpec FairSpec FairWatchSpec.
From Verif.Proofs Require Import FairWatch FairWatchMore.
From Verif.Props Require Import SystemProps RedisSystemProps AssignProps.
Local Open Scope nat_scope.

(** Whatever the server does, a watch ends when its goroutines are scheduled fairly and
    time goes on. *)
Theorem C131_watch_ends : ∀ (St : Type) (step : St → St → Prop) assignments ttl ids f,
  Execution (along step assignments ttl ids) f → FairWatch (along step assignments ttl ids) f → TimePasses f →
  ∃ m b, w_handler (f m).2 = Returned b.
Proof. exact (λ St, @fw_ends St). Qed.
Print Assumptions C131_watch_ends.

(** In-memory store: somebody calls CreateAssignments with a roster that has the ticket,
    at any time before or during the watch. *)
Theorem C131_memory_watch_served : ∀ cfg t0 ttl ids s0 now asg g f,
  (0 <= t0)%Z → mreach cfg t0 s0 → f 0 = (s0, w_init ids now asg g) →
  Execution (along (mstep cfg) mem_assigns ttl ids) f →
  FairWatch (along (mstep cfg) mem_assigns ttl ids) f → FairBesideMem (along (mstep cfg) mem_assigns ttl ids) f →
  ∀ n i c k a, k ∈ ids → in_calls (ms_inst (f n).1) !! i = Some c → AssignCall c a k →
  ∃ m, w_timed_out (f m).2 ∨ MemForgot cfg k (f m).1 ∨ ∃ b, (k, b) ∈ w_sent (f m).2.
Proof. exact mem_watch_served. Qed.
Print Assumptions C131_memory_watch_served.

Theorem C131_memory_watch_complete : ∀ cfg t0 ttl ids s0 now asg g f,
  (0 <= t0)%Z → mreach cfg t0 s0 → f 0 = (s0, w_init ids now asg g) →
  Execution (along (mstep cfg) mem_assigns ttl ids) f →
  FairWatch (along (mstep cfg) mem_assigns ttl ids) f → FairBesideMem (along (mstep cfg) mem_assigns ttl ids) f →
  (∀ k, k ∈ ids → ∃ n i c a, in_calls (ms_inst (f n).1) !! i = Some c ∧ AssignCall c a k) →
  ∃ m, w_timed_out (f m).2 ∨ (∃ k, k ∈ ids ∧ MemForgot cfg k (f m).1) ∨
       (w_handler (f m).2 = Returned false ∧ (w_sent (f m).2).*1 ≡ₚ ids).
Proof. exact mem_watch_complete. Qed.
Print Assumptions C131_memory_watch_complete.

(** Redis: the assignment was made at any instance, the watch is at instance [w]. *)
Theorem C131_redis_watch_served : ∀ cfg ttl ids s0 now asg g w f,
  1 <= cfg_in_max cfg → yreach cfg s0 → is_Some (ry_insts s0 !! w) → f 0 = (s0, w_init ids now asg g) →
  Execution (along (ystep cfg) (red_assigns w) ttl ids) f →
  FairWatch (along (ystep cfg) (red_assigns w) ttl ids) f → FairBesideInst cfg w (along (ystep cfg) (red_assigns w) ttl ids) f →
  (∀ n, Untrimmed (f n).1) →
  ∀ b n k, k ∈ ids → ToldAssigned (f b).1 n k →
  ∃ m, w_timed_out (f m).2 ∨ RedForgot cfg w k (f m).1 ∨ ∃ a, (k, a) ∈ w_sent (f m).2.
Proof. exact red_watch_served. Qed.
Print Assumptions C131_redis_watch_served.

Theorem C131_redis_watch_complete : ∀ cfg ttl ids s0 now asg g w f,
  1 <= cfg_in_max cfg → yreach cfg s0 → is_Some (ry_insts s0 !! w) → f 0 = (s0, w_init ids now asg g) →
  Execution (along (ystep cfg) (red_assigns w) ttl ids) f →
  FairWatch (along (ystep cfg) (red_assigns w) ttl ids) f → FairBesideInst cfg w (along (ystep cfg) (red_assigns w) ttl ids) f →
  (∀ n, Untrimmed (f n).1) →
  (∀ k, k ∈ ids → ∃ b n, ToldAssigned (f b).1 n k) →
  ∃ m, w_timed_out (f m).2 ∨ (∃ k, k ∈ ids ∧ RedForgot cfg w k (f m).1) ∨
       (w_handler (f m).2 = Returned false ∧ (w_sent (f m).2).*1 ≡ₚ ids).
Proof. exact red_watch_complete. Qed.
Print Assumptions C131_redis_watch_complete.

(** Every finite execution to the normal end of a watch is the beginning of such an execution. *)
Theorem C131_memory_fair_exists : ∀ cfg t0 ttl ids s0 now asg g s w,
  (0 <= t0)%Z → mreach cfg t0 s0 →
  rtc (along (mstep cfg) mem_assigns ttl ids) (s0, w_init ids now asg g) (s, w) → w_handler w = Returned false →
  ∃ f, f 0 = (s0, w_init ids now asg g) ∧ (∃ n, f n = (s, w)) ∧ Execution (along (mstep cfg) mem_assigns ttl ids) f ∧
    FairWatch (along (mstep cfg) mem_assigns ttl ids) f ∧ FairBesideMem (along (mstep cfg) mem_assigns ttl ids) f ∧ TimePasses f.
Proof. exact mem_watch_fair_exists. Qed.
Print Assumptions C131_memory_fair_exists.

Theorem C131_redis_fair_exists : ∀ cfg n ttl ids s0 now asg g s w t x,
  1 <= cfg_in_max cfg → yreach cfg s0 →
  rtc (along (ystep cfg) (red_assigns n) ttl ids) (s0, w_init ids now asg g) (s, w) → w_handler w = Returned false →
  Untrimmed s → (∀ e, e ∈ ry_log s → (unix_secs t - cfg_ticket_ttl cfg <= (le_id e).1)%Z) → ry_insts s !! n = Some x →
  ∃ f, f 0 = (s0, w_init ids now asg g) ∧ (∃ m, f m = (s, w)) ∧ Execution (along (ystep cfg) (red_assigns n) ttl ids) f ∧
    FairWatch (along (ystep cfg) (red_assigns n) ttl ids) f ∧ FairBesideInst cfg n (along (ystep cfg) (red_assigns n) ttl ids) f ∧ TimePasses f ∧
    ∀ m, Untrimmed (f m).1.
Proof. exact red_watch_fair_exists. Qed.
Print Assumptions C131_redis_fair_exists.

(** ** Examples *)

(** The watch of C79: two tickets, assigned while it goes on. *)
Example C131_example :
  ∃ f, f 0 = (asx_s1, asx_w) ∧ Execution (along (mstep ex_cfg) mem_assigns 600 [asx_k1; asx_k2]) f ∧
    FairWatch (along (mstep ex_cfg) mem_assigns 600 [asx_k1; asx_k2]) f ∧
    FairBesideMem (along (mstep ex_cfg) mem_assigns 600 [asx_k1; asx_k2]) f ∧ TimePasses f ∧
    (∀ k, k ∈ [asx_k1; asx_k2] → ∃ n i c a, in_calls (ms_inst (f n).1) !! i = Some c ∧ AssignCall c a k) ∧
    ∃ m, w_handler (f m).2 = Returned false ∧ (w_sent (f m).2).*1 ≡ₚ [asx_k1; asx_k2] ∧
         ∀ k, k ∈ [asx_k1; asx_k2] → ¬ MemForgot ex_cfg k (f m).1.
Proof.
  destruct (proj2 C79_watch_example) as (w' & Hr & Hw & Hs).
  destruct (C131_memory_fair_exists ex_cfg ex_t0 600 _ _ _ _ _ _ _ ltac:(vm_compute; discriminate) asx_reach1 Hr Hw) as (f & E & (n & En) & He & H1 & H2 & H3).
  exists f. split; [done|]. split; [done|]. split; [done|]. split; [done|]. split; [done|]. split.
  - intros k Hk. exists 0, 0, asx_c1, asx_a. rewrite E. split; [done|]. apply asx_call1; [done|].
    apply elem_of_cons in Hk as [->|Hk]; [by left|]. apply elem_of_list_singleton in Hk as ->. by right.
  - exists n. rewrite En. split; [done|]. split; [done|]. intros k _ (v & Hv & _). by apply elem_of_nil in Hv.
Qed.

(** The watch of C80: the assignment is made at instance 0, the watch is at instance 1. *)
Example C131_redis_example :
  ∃ f, f 0 = (asr_start, asr_w) ∧ Execution (along (ystep rex_cfg) (red_assigns 1) 600 [rex_key]) f ∧
    FairWatch (along (ystep rex_cfg) (red_assigns 1) 600 [rex_key]) f ∧
    FairBesideInst rex_cfg 1 (along (ystep rex_cfg) (red_assigns 1) 600 [rex_key]) f ∧ TimePasses f ∧ (∀ m, Untrimmed (f m).1) ∧
    ∃ m, ToldAssigned (f m).1 0 rex_key ∧ w_handler (f m).2 = Returned false ∧ (w_sent (f m).2).*1 ≡ₚ [rex_key] ∧
         ¬ RedForgot rex_cfg 1 rex_key (f m).1.
Proof.
  destruct C80_watch_example as (w' & Hr & Hw & Hs).
  destruct (C131_redis_fair_exists rex_cfg 1 600 _ _ _ _ _ _ _ rex_now asr_inst2 ltac:(vm_compute; lia) asr_reach_start Hr Hw) as (f & E & (n & En) & He & H1 & H2 & H3 & H4).
  - intros tr e Htr He. cbn in Htr, He. apply elem_of_list_singleton in Htr as ->. apply elem_of_list_singleton in He as ->.
    vm_compute. done.
  - intros e He. cbn in He. apply elem_of_list_singleton in He as ->. vm_compute. discriminate.
  - done.
  - exists f. split; [done|]. split; [done|]. split; [done|]. split; [done|]. split; [done|]. split; [done|].
    exists n. rewrite En. cbn [fst snd]. split; [|split; [done|split; [done|]]].
    + exists asr_inst1, 0, asr_call, asx_a. split; [done|].
      destruct C80_example as (_ & _ & _ & _ & Hse & Ha & _). split; [exact Hse|]. split; [done|]. split; [exact Ha|].
      split; [by vm_compute|]. constructor; [|constructor]. vm_compute. done.
    + intros (x & Hx & v & Hv & _). cbn in Hx. injection Hx as <-. by apply elem_of_nil in Hv.
Qed.
