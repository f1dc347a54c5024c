(** The last state change of a ticket. *)
From Coq Require Import Ascii String ZArith NArith Lia.
From stdpp Require Import prelude strings gmap.
From Verif.Model Require Import GoStrings Types Cache Replica System.
From Verif.Spec Require Import CacheSpec SystemSpec StateSpec.
From Verif.Proofs Require Import HistoryLemmas MemSystemMore.
Local Open Scope nat_scope.

(** All state changes are the same, and there is one. *)
Lemma last_state_same k b us :
  tickets_for k us = [] → (∃ w, Update (StateCmd b) k w ∈ us) → (∀ w, Update (StateCmd (negb b)) k w ∉ us) →
  last (state_cmds_for k us) = Some b.
Proof.
  intros Ht [w Hw] Hn.
  assert (Hall : ∀ x, x ∈ state_cmds_for k us → x = b).
  { intros x Hx. unfold state_cmds_for in Hx. apply elem_of_list_omap in Hx as ([cm key w'] & Hu & Eb). simpl in Eb.
    destruct (decide (key = k)) as [->|]; [|done]. destruct cm; simplify_eq; try done; try (destruct b; done).
    - exfalso. assert (Hin : w' ∈ tickets_for k us); [|rewrite Ht in Hin; by apply elem_of_nil in Hin].
      unfold tickets_for. apply elem_of_list_omap. eexists. split; [exact Hu|]. simpl. by rewrite decide_True.
    - destruct b; [done|]. exfalso. by apply (Hn w').
    - destruct b; [|done]. exfalso. by apply (Hn w'). }
  assert (Hin : b ∈ state_cmds_for k us).
  { unfold state_cmds_for. apply elem_of_list_omap. eexists. split; [exact Hw|]. simpl. rewrite decide_True by done. by destruct b. }
  destruct (last (state_cmds_for k us)) as [x|] eqn:E.
  - apply last_Some_elem_of in E. by rewrite (Hall x E).
  - apply last_None in E. rewrite E in Hin. by apply elem_of_nil in Hin.
Qed.

Lemma last_state_later k b us1 us2 :
  tickets_for k us2 = [] → (∃ w, Update (StateCmd b) k w ∈ us2) → (∀ w, Update (StateCmd (negb b)) k w ∉ us2) →
  last (state_cmds_for k (us1 ++ us2)) = Some b.
Proof. intros H1 H2 H3. by rewrite state_cmds_for_app, last_app, (last_state_same k b us2). Qed.

Lemma state_at_the_end cfg es k v b :
  tickets_for k (hev_updates es) = [v] → last (state_cmds_for k (hev_updates es)) = Some b →
  (∀ x, x ∈ hev_visits es → ¬ OlderThan (cfg_ticket_ttl cfg) x.2 k ∧ ¬ ExpiredAt x.2 (stored_ticket k v)) →
  c_tickets (hev_run cfg empty_cache es) !! k = Some (stored_ticket k v) ∧
  (k ∈ c_inactive (hev_run cfg empty_cache es) ↔ b = false).
Proof.
  intros Ht Hl Hv. split.
  - apply run_ticket_kept; [naive_solver|naive_solver|]. by rewrite Ht.
  - split.
    + intros Hin. destruct (run_sound cfg es) as (_ & Hs & _). apply Hs in Hin. rewrite Hl in Hin. by injection Hin.
    + intros ->. apply run_inactive_kept; [naive_solver|done].
Qed.

Lemma second_none {A} (l1 l2 : list A) v : l1 ++ l2 = [v] → v ∈ l1 → l2 = [].
Proof.
  intros E Hin. destruct l1 as [|x l1]; [by apply elem_of_nil in Hin|]. simpl in E. injection E as _ E. by apply app_eq_nil in E as [_ ?].
Qed.
