(** Property theorems about the agreement of instances on one Redis stream: C86. *)
From Coq Require Import Ascii String ZArith NArith Lia.
From stdpp Require Import prelude strings gmap relations.
From Verif.Model Require Import GoStrings Types Proto Cache Replica Queues RedisRepl System RedisSystem.
From Verif.Spec Require Import CacheSpec SystemSpec AgreeSpec.
From Verif.Proofs Require Import AgreeLemmas.
From Verif.Props Require Import RedisSystemProps.
Local Open Scope nat_scope.

(** A ticket that one instance has, the other has too, unless its own expiration
    has removed it. *)
Theorem C86_ticket : ∀ cfg s n m x y k t,
  yreach cfg s → ry_insts s !! n = Some x → ry_insts s !! m = Some y → SameFor k (rx_inst x) (rx_inst y) →
  c_tickets (in_cache (rx_inst x)) !! k = Some t →
  c_tickets (in_cache (rx_inst y)) !! k = Some t ∨ MetOld (cfg_ticket_ttl cfg) k (rx_inst y) ∨ MetExpired t (rx_inst y).
Proof. exact red_agree_ticket. Qed.
Print Assumptions C86_ticket.

(** A ticket that one instance would offer to functions, the other would offer too. *)
Theorem C86_active : ∀ cfg s n m x y k t,
  yreach cfg s → ry_insts s !! n = Some x → ry_insts s !! m = Some y → SameFor k (rx_inst x) (rx_inst y) →
  Active (in_cache (rx_inst x)) k → c_tickets (in_cache (rx_inst x)) !! k = Some t →
  (Active (in_cache (rx_inst y)) k ∧ c_tickets (in_cache (rx_inst y)) !! k = Some t) ∨
  MetOld (cfg_ticket_ttl cfg) k (rx_inst y) ∨ MetExpired t (rx_inst y).
Proof. exact red_agree_active. Qed.
Print Assumptions C86_active.

(** When both have the ticket, they agree about its content and its state, whatever
    has expired when. *)
Theorem C86_same_state : ∀ cfg s n m x y k t t',
  yreach cfg s → ry_insts s !! n = Some x → ry_insts s !! m = Some y → SameFor k (rx_inst x) (rx_inst y) →
  c_tickets (in_cache (rx_inst x)) !! k = Some t → c_tickets (in_cache (rx_inst y)) !! k = Some t' →
  t = t' ∧ (Active (in_cache (rx_inst x)) k ↔ Active (in_cache (rx_inst y)) k).
Proof. exact red_agree_state. Qed.
Print Assumptions C86_same_state.

Theorem C86_assignment : ∀ cfg s n m x y k a,
  yreach cfg s → ry_insts s !! n = Some x → ry_insts s !! m = Some y → SameFor k (rx_inst x) (rx_inst y) →
  c_assign (in_cache (rx_inst x)) !! k = Some a →
  c_assign (in_cache (rx_inst y)) !! k = Some a ∨ MetOld (cfg_ticket_ttl cfg + cfg_assign_ttl cfg) k (rx_inst y).
Proof. exact red_agree_assign. Qed.
Print Assumptions C86_assignment.

(** Two instances have applied the same updates for an id when both have caught
    up, when both have applied equally many updates, or when nothing that either
    still has to apply concerns the id. *)
Theorem C86_when_caught_up : ∀ s x y k,
  CaughtUp s x → CaughtUp s y → SameFor k (rx_inst x) (rx_inst y).
Proof. exact caught_up_same. Qed.
Print Assumptions C86_when_caught_up.

Theorem C86_when_equally_far : ∀ cfg s n m x y k,
  yreach cfg s → Untrimmed s → ry_insts s !! n = Some x → ry_insts s !! m = Some y →
  length (applied (rx_inst x)) = length (applied (rx_inst y)) → SameFor k (rx_inst x) (rx_inst y).
Proof. exact red_same_count. Qed.
Print Assumptions C86_when_equally_far.

Theorem C86_when_nothing_is_coming : ∀ cfg s n m x y k,
  yreach cfg s → Untrimmed s → ry_insts s !! n = Some x → ry_insts s !! m = Some y →
  (∀ u, u ∈ drop (length (applied (rx_inst x))) (history s) → u_key u ≠ k) →
  (∀ u, u ∈ drop (length (applied (rx_inst y))) (history s) → u_key u ≠ k) →
  SameFor k (rx_inst x) (rx_inst y).
Proof. exact red_nothing_ahead. Qed.
Print Assumptions C86_when_nothing_is_coming.

(** Two instances that have both applied a ticket and its activation. *)
Example C86_example :
  yreach rex_cfg rex_final ∧ ry_insts rex_final !! 0 = Some rex_inst2 ∧ ry_insts rex_final !! 1 = Some rex_inst3 ∧
  SameFor rex_key (rx_inst rex_inst2) (rx_inst rex_inst3) ∧ length (applied (rx_inst rex_inst2)) = 2 ∧
  Active (in_cache (rx_inst rex_inst2)) rex_key ∧ Active (in_cache (rx_inst rex_inst3)) rex_key.
Proof.
  destruct C61_example as (A1 & A2 & A3 & A4 & A5 & A6 & A7 & A8 & A9 & A10).
  split; [exact A1|]. split; [reflexivity|]. split; [reflexivity|].
  split; [exact (C86_when_caught_up _ _ _ rex_key A8 A9)|]. split; [reflexivity|].
  split; [exact A10|exact A10].
Qed.
