(** C147: when a matchmaking function is reached. *)
From Coq Require Import String ZArith Lia.
From stdpp Require Import prelude.
From Verif.Model Require Import Types Settings NetSettings Connect.
From Verif.Spec Require Import SettingsSpec NetSpec ConnectSpec.
From Verif.Proofs Require Import NetLemmas ConnectLemmas.
Local Open Scope Z_scope.

(** Whatever the addresses of a function do, the call of it is open or has failed within its
    time limit; an open one has the rest of the time. *)
Theorem C147_bounded : ∀ limit start called n, SaneDns start n → start <= called →
  ∃ t, Ends (run_call limit start called n) t ∧ called <= t <= called + Z.max limit 0 ∧
    (run_call limit start called n = Open t → t < called + limit ∧ time_left limit called (run_call limit start called n) = called + limit - t).
Proof. exact run_bounded. Qed.
Print Assumptions C147_bounded.

(** "A function with an address that accepts connections (within a millisecond) is reached, if
    there are three seconds or more": false; "... it is reached soon": false for every bound,
    even with two addresses and a minute or more. *)
Definition C147_reached : Prop := ∀ limit start called n d, SaneDns start n → start <= called → dn_at n <= called →
  Accepts d ∈ dn_first n ++ dn_other n → d <= 1000000 → 3 * 1000000000 <= limit →
  ∃ t, run_call limit start called n = Open t.
Theorem C147_reached_refuted : ¬ C147_reached.
Proof. exact reached_refuted. Qed.
Print Assumptions C147_reached_refuted.
Definition C147_promptly : Prop := ∃ B, ∀ limit start called n d, SaneDns start n → start <= called → dn_at n <= called →
  Accepts d ∈ dn_first n ++ dn_other n → d <= 1000000 → 60 * 1000000000 <= limit → (length (dn_first n ++ dn_other n) <= 2)%nat →
  ∃ t, run_call limit start called n = Open t ∧ t <= called + B.
Theorem C147_promptly_refuted : ¬ C147_promptly.
Proof. exact promptly_refuted. Qed.
Print Assumptions C147_promptly_refuted.

(** What holds: it is reached if there are two seconds for each address of its family, and it
    accepts within an equal share of the time. The other family has 300 ms less. *)
Theorem C147_reached_partial : ∀ limit start called n d q, SaneDns start n → start <= called → d < q →
  (Accepts d ∈ dn_first n ∧ Enough (start + limit) (dn_at n) (dn_first n) q ∨
   Accepts d ∈ dn_other n ∧ Enough (start + limit) (dn_at n + 300 * 1000000) (dn_other n) q) →
  ∃ t, run_call limit start called n = Open t.
Proof.
  intros limit start called n d q Hn Hc Hd [[Hi He]|[Hi He]].
  - exact (reached_first limit start called n d q Hn Hc Hi Hd He).
  - exact (reached_other limit start called n d q Hn Hc Hi Hd He).
Qed.
Print Assumptions C147_reached_partial.
(** It is reached soon if all addresses before it, in its family, refuse at once. *)
Theorem C147_promptly_partial : ∀ limit start called n ds d rest q, SaneDns start n → start <= called → Total ds + d < q →
  (dn_first n = map Refuses ds ++ Accepts d :: rest → Enough (start + limit) (dn_at n) (dn_first n) q →
   ∃ t, run_call limit start called n = Open t ∧ t <= Z.max called (dn_at n + Total ds + d)) ∧
  (dn_other n = map Refuses ds ++ Accepts d :: rest → Enough (start + limit) (dn_at n + 300 * 1000000) (dn_other n) q →
   ∃ t, run_call limit start called n = Open t ∧ t <= Z.max called (dn_at n + 300 * 1000000 + Total ds + d)).
Proof.
  intros limit start called n ds d rest q Hn Hc Ht. split; intros E He.
  - exact (soon_first limit start called n ds d rest q Hn Hc E Ht He).
  - exact (soon_other limit start called n ds d rest q Hn Hc E Ht He).
Qed.
Print Assumptions C147_promptly_partial.

(** The other family is tried when the first has refused, after 300 ms at the latest. *)
Theorem C147_other_at_once : ∀ limit start called n ds es d rest q, SaneDns start n → start <= called →
  dn_first n = map Refuses ds → Total ds < 2 * 1000000000 → Enough (start + limit) (dn_at n) (dn_first n) (2 * 1000000000) →
  dn_other n = map Refuses es ++ Accepts d :: rest → Total es + d < q → Enough (start + limit) (dn_at n + 300 * 1000000) (dn_other n) q →
  run_call limit start called n = Open (Z.max called (dn_at n + Z.min (Total ds) (300 * 1000000) + Total es + d)).
Proof. exact other_at_once. Qed.
Print Assumptions C147_other_at_once.

(** An address before it that says nothing costs an equal share of the whole time limit. *)
Theorem C147_silence_costs : ∀ limit start called n l t, SaneDns start n → start <= called → dn_first n = Silent :: l → dn_other n = [] →
  run_call limit start called n = Open t → dn_at n + (start + limit - dn_at n) / Z.of_nat (length (dn_first n)) <= t.
Proof. exact silent_first. Qed.
Print Assumptions C147_silence_costs.

(** Functions that refuse are given up at once; silent ones hold the call for all of the time
    limit; no address, or no time limit, no connection. *)
Theorem C147_refused : ∀ limit start called n ds q, SaneDns start n → start <= called → dn_first n = map Refuses ds → ds ≠ [] → dn_other n = [] →
  Total ds < q → Enough (start + limit) (dn_at n) (dn_first n) q →
  run_call limit start called n = NotOpen (Z.max called (dn_at n + Total ds)).
Proof. exact refused_soon. Qed.
Print Assumptions C147_refused.
Theorem C147_refused_both : ∀ limit start called n ds es q, SaneDns start n → start <= called →
  dn_first n = map Refuses ds → dn_other n = map Refuses es → es ≠ [] → Total ds < q → Total es < q →
  Enough (start + limit) (dn_at n) (dn_first n) q → Enough (start + limit) (dn_at n + 300 * 1000000) (dn_other n) q →
  run_call limit start called n = NotOpen (Z.max called (dn_at n + Z.max (Total ds) (Z.min (Total ds) (300 * 1000000) + Total es))).
Proof. exact refused_both. Qed.
Print Assumptions C147_refused_both.
Theorem C147_silent : ∀ limit start called n k j, SaneDns start n → start <= called → dn_first n = replicate (S k) Silent → dn_other n = replicate j Silent →
  dn_at n < start + limit → run_call limit start called n = NotOpen (Z.max called (start + limit)).
Proof. exact silent_both. Qed.
Print Assumptions C147_silent.
Theorem C147_never : ∀ limit start called n, SaneDns start n → start <= called →
  limit <= 0 ∨ (∀ d, Accepts d ∉ dn_first n ++ dn_other n) → ∃ t, run_call limit start called n = NotOpen t.
Proof. exact never_open. Qed.
Print Assumptions C147_never.

(** The limit is that of the setting OM_MMF_TIMEOUT_SECS (C104), so a call that is never open
    is given up after that many seconds, 500 if it is not given (the comments say ten
    minutes). *)
Theorem C147_configured : ∀ env start called n, SaneDns start n → start <= called →
  (∀ z, IsSetTo env "OM_MMF_TIMEOUT_SECS" z → 0 <= z <= 9223372036 →
    ∃ t, Ends (run_call (mmf_time env) start called n) t ∧ called <= t <= called + z * 1000000000) ∧
  (NotGiven env "OM_MMF_TIMEOUT_SECS" →
    ∃ t, Ends (run_call (mmf_time env) start called n) t ∧ called <= t <= called + 500 * 1000000000).
Proof.
  intros env start called n Hn Hc. destruct (run_bounded (mmf_time env) start called n Hn Hc) as (t & He & Hb & _). split.
  - intros z Hz Hr. rewrite (mmf_time_range env z Hz) in * by lia. exists t. split; [done|lia].
  - intros Hg. rewrite (proj1 (default_waits env) Hg) in *. exists t. split; [done|lia].
Qed.
Print Assumptions C147_configured.

(** Examples, with the default of 500 seconds: two addresses, of which the first is dead, cost
    half of it; the same in two families, 300 ms. *)
Example C147_example : let limit := mmf_time (λ _, None) in limit = 500000000000 ∧
  run_call limit 0 0 (Dns 2000000 [Silent; Accepts 1000000] []) = Open 250002000000 ∧
  time_left limit 0 (run_call limit 0 0 (Dns 2000000 [Silent; Accepts 1000000] [])) = 249998000000 ∧
  run_call limit 0 0 (Dns 2000000 [Silent] [Accepts 1000000]) = Open 303000000 ∧
  run_call limit 0 0 (Dns 2000000 [Refuses 1000000; Accepts 1000000] []) = Open 4000000 ∧
  run_call limit 0 5 (Dns 2000000 [Silent; Silent] []) = NotOpen limit ∧
  run_call limit 0 5 (Dns 2000000 [Silent; Silent] [Silent]) = NotOpen limit ∧
  run_call limit 0 0 (Dns 2000000 [Refuses 1000000] [Accepts 1000000]) = Open 4000000 ∧
  run_call limit 0 0 (Dns 2000000 [Refuses 1000000] [Refuses 1000000]) = NotOpen 4000000 ∧
  run_call (3 * 1000000000) 0 0 (Dns 0 [Silent; Silent; Accepts 0] []) = NotOpen (3 * 1000000000) ∧
  Enough limit 2000000 [Silent; Accepts 1000000] (2 * 1000000000).
Proof. repeat split; vm_compute; congruence. Qed.
