(** Concrete histories refuting C07, C24 and C58. *)
From Coq Require Import Ascii String ZArith NArith Lia ZifyBool ZifyN.
From stdpp Require Import prelude strings gmap.
From Verif.Model Require Import GoStrings Types Wire Proto Cache Replica Handlers.
From Verif.Spec Require Import FilterSpec HandlerSpec CacheSpec.
From Verif.Proofs Require Import MemLemmas HandlerLemmas CacheLemmas HistoryLemmas HistoryMore.
Local Open Scope string_scope.
Local Open Scope Z_scope.

(** A client ticket that claims to be created at second 100000, sent at second 1000. *)
Definition future_ticket : ticket :=
  Ticket "" None (Some (Filterable [] ∅ ∅ (Some (Timestamp 100000 0)))) ∅.
Definition w_now : instant := 1000 * giga.
Definition future_value : string :=
  match create_ticket 600 w_now (canon_orders (prepare_ticket 600 w_now future_ticket)) (Some future_ticket) with
  | Send [u] => u_value u
  | _ => ""
  end.
Definition w_id : string := "1000-1".
Definition w_create : update := Update CmdTicket w_id future_value.
Definition w_activate : update := Update CmdActivate w_id "".
Definition w_late : instant := 1700 * giga.
Definition w_cfg : config := default_config.

Lemma future_created : CreatedFrom 600 w_now future_ticket w_create.
Proof.
  unfold CreatedFrom.
  split; [unfold SaneTTL; lia|].
  split; [unfold SaneNow, w_now, giga; lia|].
  split.
  { unfold ClientTicketOk. split; [|split; [|split]]; intros *; intros H; vm_compute in H; try discriminate H.
    by apply elem_of_nil in H. }
  split.
  { exists (canon_orders (prepare_ticket 600 w_now future_ticket)). split; [by unfold orders_ok|].
    vm_compute. reflexivity. }
  split; [vm_compute; reflexivity|]. vm_compute. discriminate.
Qed.

(** The same for an honest ticket. *)
Definition honest_ticket : ticket := Ticket "" None None ∅.
Definition honest_value : string :=
  match create_ticket 600 w_now (canon_orders (prepare_ticket 600 w_now honest_ticket)) (Some honest_ticket) with
  | Send [u] => u_value u
  | _ => ""
  end.
Definition h_create : update := Update CmdTicket w_id honest_value.
Lemma honest_created : CreatedFrom 600 w_now honest_ticket h_create.
Proof.
  unfold CreatedFrom.
  split; [unfold SaneTTL; lia|].
  split; [unfold SaneNow, w_now, giga; lia|].
  split.
  { unfold ClientTicketOk. split; [|split; [|split]]; intros *; intros H; vm_compute in H; try discriminate H.
    by apply elem_of_nil in H. }
  split.
  { exists (canon_orders (prepare_ticket 600 w_now honest_ticket)). split; [by unfold orders_ok|].
    vm_compute. reflexivity. }
  split; [vm_compute; reflexivity|]. vm_compute. discriminate.
Qed.
Lemma honest_not_future : NotFromTheFuture w_now honest_ticket.
Proof. intros c Hc. done. Qed.

Definition GoneAfterTTL : Prop := ∀ cfg es o k now t v,
  CreatedFrom (cfg_ticket_ttl cfg) now t (Update CmdTicket k v) →
  hev_fits cfg empty_cache es →
  (∀ w, Update CmdTicket k w ∈ hev_updates es → w = v) →
  orders_fit cfg o (hev_run cfg empty_cache es) →
  (∀ x, x ∈ cycle_visits o → OlderThan (cfg_ticket_ttl cfg) x.2 k) →
  c_tickets (cycle cfg o (hev_run cfg empty_cache es)) !! k = None.

Definition o_seen : cycle_orders := CycleOrders [] [(w_id, w_late)] [].
Definition o_inactive : cycle_orders := CycleOrders [(w_id, w_late)] [] [].
Definition o_none : cycle_orders := CycleOrders [] [] [].
Definition es_early : list hev := [HUpd w_create; HUpd w_activate].
Definition es_late : list hev := [HUpd w_create; HCycle o_inactive; HUpd w_activate].

Lemma fit_early : orders_fit w_cfg o_seen (hev_run w_cfg empty_cache es_early).
Proof. unfold orders_fit. split_and!; vm_compute; reflexivity. Qed.
Lemma fit_late1 : hev_fits w_cfg empty_cache es_late.
Proof. cbn [hev_fits es_late]. unfold orders_fit. split_and!; try done; vm_compute; reflexivity. Qed.
Lemma fit_late2 : orders_fit w_cfg o_none (hev_run w_cfg empty_cache es_late).
Proof. unfold orders_fit. split_and!; vm_compute; reflexivity. Qed.

Lemma outlives_ttl : ¬ GoneAfterTTL.
Proof.
  intros H.
  assert (Hc : c_tickets (cycle w_cfg o_seen (hev_run w_cfg empty_cache es_early)) !! w_id = None).
  { apply (H w_cfg es_early o_seen w_id w_now future_ticket future_value future_created).
    - cbn. done.
    - intros w Hw. change (hev_updates es_early) with [w_create; w_activate] in Hw.
      apply elem_of_cons in Hw as [Hw|Hw]; [by injection Hw|].
      apply elem_of_list_singleton in Hw. discriminate Hw.
    - apply fit_early.
    - intros x ->%elem_of_list_singleton. vm_compute. reflexivity. }
  vm_compute in Hc. discriminate Hc.
Qed.

Definition AgreeEvenForFuture : Prop := ∀ cfg es1 es2 o1 o2 T,
  hev_updates es1 = hev_updates es2 →
  (∀ x, x ∈ hev_visits es1 → x.2 <= T) → (∀ x, x ∈ hev_visits es2 → x.2 <= T) →
  hev_fits cfg empty_cache es1 → hev_fits cfg empty_cache es2 →
  orders_fit cfg o1 (hev_run cfg empty_cache es1) → orders_fit cfg o2 (hev_run cfg empty_cache es2) →
  (∀ v, v ∈ cycle_visits o1 → v.2 = T) → (∀ v, v ∈ cycle_visits o2 → v.2 = T) →
  (∀ u, u ∈ hev_updates es1 → u_cmd u = CmdTicket →
        ∃ now t, CreatedFrom (cfg_ticket_ttl cfg) now t u) →
  cycle cfg o1 (hev_run cfg empty_cache es1) = cycle cfg o2 (hev_run cfg empty_cache es2).

Lemma replicas_disagree : ¬ AgreeEvenForFuture.
Proof.
  intros H.
  assert (Hc : cycle w_cfg o_seen (hev_run w_cfg empty_cache es_early) =
               cycle w_cfg o_none (hev_run w_cfg empty_cache es_late)).
  { apply (H w_cfg es_early es_late o_seen o_none w_late).
    - reflexivity.
    - intros x Hx. by apply elem_of_nil in Hx.
    - intros x ->%elem_of_list_singleton. done.
    - cbn. done.
    - apply fit_late1.
    - apply fit_early.
    - apply fit_late2.
    - intros x ->%elem_of_list_singleton. done.
    - intros x Hx. by apply elem_of_nil in Hx.
    - intros u Hu Hcmd. change (hev_updates es_early) with [w_create; w_activate] in Hu.
      apply elem_of_cons in Hu as [->|Hu]; [|apply elem_of_list_singleton in Hu as ->; discriminate Hcmd]. exists w_now, future_ticket. exact future_created. }
  assert (Hl : c_tickets (cycle w_cfg o_seen (hev_run w_cfg empty_cache es_early)) !! w_id =
               c_tickets (cycle w_cfg o_none (hev_run w_cfg empty_cache es_late)) !! w_id).
  { by rewrite Hc. }
  vm_compute in Hl. discriminate Hl.
Qed.

Definition ActiveGaugeCorrect : Prop := ∀ cfg es o,
  hev_fits cfg empty_cache es → orders_fit cfg o (hev_run cfg empty_cache es) →
  ∃ X : gset string, (∀ k, k ∈ X ↔ Active (hev_run cfg empty_cache es) k) ∧
    active_gauge (cycle_gauges cfg o (hev_run cfg empty_cache es)) = Z.of_nat (size X).

Lemma active_gauge_wrong : ¬ ActiveGaugeCorrect.
Proof.
  intros H.
  destruct (H w_cfg [HUpd (Update CmdDeactivate w_id "")] o_inactive) as (X & _ & HX).
  - cbn. done.
  - unfold orders_fit. split_and!; vm_compute; reflexivity.
  - assert (active_gauge (cycle_gauges w_cfg o_inactive
             (hev_run w_cfg empty_cache [HUpd (Update CmdDeactivate w_id "")])) = -1) as Hm
      by (vm_compute; reflexivity).
    rewrite Hm in HX. lia.
Qed.
