(** Property theorems about a whole instance with the in-memory store: C60, C70. *)
From Coq Require Import Ascii String ZArith NArith Lia.
From stdpp Require Import prelude strings gmap relations.
From Verif.Model Require Import GoStrings Types Proto Cache Replica Handlers MemRepl Queues System.
From Verif.Spec Require Import CacheSpec SystemSpec.
From Verif.Proofs Require Import MemSystemLemmas MemSystemMore MemSystemOrder MemSystemLive.
Local Open Scope nat_scope.

(** ** C60 *)

(** Every answer a call receives belongs to the update at the same position among
    those it sent, carries no error, and that update was written to the store (a
    new ticket under the id in the answer, anything else unchanged). *)
Theorem C60_answers : ∀ cfg t0 s i cl n r,
  (0 <= t0)%Z → mreach cfg t0 s → in_calls (ms_inst s) !! i = Some cl → cl_got cl !! n = Some r →
  r_err r = None ∧ ∃ u, cl_ups cl !! n = Some u ∧ Sent (Request u i) r (AsStored u (r_result r)) ∈ ms_hist s.
Proof. exact mem_answers. Qed.
Print Assumptions C60_answers.

(** A call that has returned had each of its updates written exactly once, in
    order, with the answers it received. *)
Theorem C60_call_done : ∀ cfg t0 s i cl,
  (0 <= t0)%Z → mreach cfg t0 s → in_calls (ms_inst s) !! i = Some cl → returned cl →
  map (λ e, (rq_update (sn_req e), sn_resp e)) (filter (λ e, rq_chan (sn_req e) = i) (ms_hist s)) =
    zip (cl_ups cl) (cl_got cl).
Proof. exact mem_call_done. Qed.
Print Assumptions C60_call_done.

(** A ticket is replicated exactly once under the id that CreateTicket returned,
    and nothing else is replicated under that id. *)
Theorem C60_created_under_its_id : ∀ cfg t0 s i cl v r,
  (0 <= t0)%Z → mreach cfg t0 s → in_calls (ms_inst s) !! i = Some cl → Creates cl v → r ∈ cl_got cl →
  cl_got cl = [r] ∧ r_err r = None ∧ tickets_for (r_result r) (map sn_upd (ms_hist s)) = [v].
Proof. exact mem_created. Qed.
Print Assumptions C60_created_under_its_id.

(** No two answers anywhere carry the same id. *)
Theorem C60_ids_distinct : ∀ cfg t0 s i j ci cj m n r r',
  (0 <= t0)%Z → mreach cfg t0 s → in_calls (ms_inst s) !! i = Some ci → in_calls (ms_inst s) !! j = Some cj →
  cl_got ci !! m = Some r → cl_got cj !! n = Some r' → r_result r = r_result r' → i = j ∧ m = n.
Proof. exact mem_ids_distinct. Qed.
Print Assumptions C60_ids_distinct.

(** The cache is what applying the replicated updates, in the order they were
    written and interleaved with expiration cycles, gives; what has been applied
    is a prefix of what was written, the rest is still on its way. *)
Theorem C60_cache_from_history : ∀ cfg t0 s,
  (0 <= t0)%Z → mreach cfg t0 s →
  map sn_upd (ms_hist s) = applied (ms_inst s) ++ on_the_way (ms_inst s) ∧
  in_cache (ms_inst s) = hev_run cfg empty_cache (in_events (ms_inst s)) ∧
  hev_fits cfg empty_cache (in_events (ms_inst s)).
Proof. exact mem_cache. Qed.
Print Assumptions C60_cache_from_history.

(** Every ticket in the cache was created by a call to CreateTicket, which has
    returned that id or has not returned yet. *)
Theorem C60_only_created : ∀ cfg t0 s k t,
  (0 <= t0)%Z → mreach cfg t0 s → c_tickets (in_cache (ms_inst s)) !! k = Some t →
  ∃ i cl v, in_calls (ms_inst s) !! i = Some cl ∧ Creates cl v ∧ t = stored_ticket k v ∧
    (∀ r, r ∈ cl_got cl → r = Response k None).
Proof. exact mem_only_created. Qed.
Print Assumptions C60_only_created.

(** A ticket can be in a pool only if a client asked for its activation, that
    activation was applied after the ticket, and nothing applied since then
    changed it back. *)
Theorem C60_active_only_after_activation : ∀ cfg t0 s k,
  (0 <= t0)%Z → mreach cfg t0 s → Active (in_cache (ms_inst s)) k →
  ∃ us1 us2 v, applied (ms_inst s) = us1 ++ Update CmdActivate k ""%string :: us2 ∧
    Update CmdTicket k v ∈ us1 ∧ state_cmds_for k us2 = [] ∧
    ∃ j cj, in_calls (ms_inst s) !! j = Some cj ∧ Activates cfg cj k.
Proof. exact mem_active. Qed.
Print Assumptions C60_active_only_after_activation.

(** ** C70 *)

(** A call that begins after CreateTicket has returned an id has its updates
    replicated after that ticket. *)
Theorem C70_order : ∀ cfg t0 s1 s2 i ci v r j cj u,
  (0 <= t0)%Z → mreach cfg t0 s1 → rtc (mstep cfg) s1 s2 →
  in_calls (ms_inst s1) !! i = Some ci → Creates ci v → r ∈ cl_got ci →
  length (in_calls (ms_inst s1)) <= j → in_calls (ms_inst s2) !! j = Some cj → returned cj → u ∈ cl_ups cj →
  u_cmd u ≠ CmdTicket →
  ∃ h1 h2 h3, map sn_upd (ms_hist s2) = h1 ++ Update CmdTicket (r_result r) v :: h2 ++ u :: h3.
Proof. exact mem_order. Qed.
Print Assumptions C70_order.

(** A ticket created and then (by a call begun after CreateTicket returned)
    activated is active in the cache once everything written has been applied,
    unless it was deactivated or an expiration cycle found it expired. *)
Theorem C70_created_then_activated : ∀ cfg t0 s1 s2 i ci v r j cj,
  (0 <= t0)%Z → mreach cfg t0 s1 → rtc (mstep cfg) s1 s2 →
  in_calls (ms_inst s1) !! i = Some ci → Creates ci v → r ∈ cl_got ci →
  length (in_calls (ms_inst s1)) <= j → in_calls (ms_inst s2) !! j = Some cj → returned cj →
  Update CmdActivate (r_result r) ""%string ∈ cl_ups cj →
  on_the_way (ms_inst s2) = [] →
  (∀ w, Update CmdDeactivate (r_result r) w ∉ applied (ms_inst s2)) →
  (∀ x, x ∈ hev_visits (in_events (ms_inst s2)) →
        ¬ OlderThan (cfg_ticket_ttl cfg) x.2 (r_result r) ∧ ¬ ExpiredAt x.2 (stored_ticket (r_result r) v)) →
  Active (in_cache (ms_inst s2)) (r_result r) ∧
  c_tickets (in_cache (ms_inst s2)) !! r_result r = Some (stored_ticket (r_result r) v).
Proof. exact mem_end_to_end. Qed.
Print Assumptions C70_created_then_activated.

(** No goroutine of the instance panics: in particular no result is sent on a
    results channel that its handler has closed. *)
Theorem C70_no_panic : ∀ cfg t0 s,
  (0 <= t0)%Z → mreach cfg t0 s → in_out (ms_inst s) ≠ OCrash ∧ in_poll (ms_inst s) ≠ PCrash.
Proof. exact mem_no_crash. Qed.
Print Assumptions C70_no_panic.

(** No deadlock, ever: from every reachable state the instance can, without any
    further call, reach a state where all calls have returned and everything
    written has been applied. *)
Theorem C70_can_finish : ∀ cfg t0 s,
  (0 <= t0)%Z → mreach cfg t0 s →
  ∃ s', rtc (mstep cfg) s s' ∧ Quiescent (ms_inst s') ∧
        map cl_ups (in_calls (ms_inst s')) = map cl_ups (in_calls (ms_inst s)).
Proof. exact mem_can_finish. Qed.
Print Assumptions C70_can_finish.

(** ** Example: one client creates a ticket and activates it. *)
Section example.
Local Open Scope string_scope.
Definition ex_cfg : config := Config 600 600 500 2 10 false.
Definition ex_t0 : instant := (1700000000 * giga)%Z.
Definition ex_now : instant := (ex_t0 + 5)%Z.
Definition ex_ticket : ticket := Ticket "" None (Some (Filterable ["mode.duel"] ∅ ∅ None)) ∅.
Definition ex_value : string :=
  match create_ticket 600 ex_now (TicketOrders [] [] []) (Some ex_ticket) with
  | Send (u :: _) => u_value u | _ => "" end.
Definition ex_create : call := Call [Update CmdTicket "" ex_value] 0 1 [] [Response "1700000000-1" None].
Definition ex_activate : call :=
  Call [Update CmdActivate "1700000000-1" ""] 1 1 [] [Response "1700000001-0" None].

Local Ltac go t := eapply rtc_l; [t|cbn -[ex_value ex_t0 ex_now giga apply_update Z.mul Z.add mem_new]].
Local Ltac loc t := go ltac:(apply M_local; t).

Definition ex_final : msys :=
  MSys (Inst [ex_create; ex_activate] (OCollect []) (PGet []) [] false
          (apply_update (apply_update empty_cache (Update CmdTicket "1700000000-1" ex_value))
                        (Update CmdActivate "1700000000-1" ""))
          [HUpd (Update CmdTicket "1700000000-1" ex_value); HUpd (Update CmdActivate "1700000000-1" "")])
       (MemState (ex_t0 + giga)%Z 0) (ex_t0 + giga)%Z
       [Sent (Request (Update CmdTicket "" ex_value) 0) (Response "1700000000-1" None) (Update CmdTicket "1700000000-1" ex_value);
        Sent (Request (Update CmdActivate "1700000000-1" "") 1) (Response "1700000001-0" None) (Update CmdActivate "1700000000-1" "")].

(** After CreateTicket has returned and the ticket is in the cache. *)
Definition ex_mid : msys :=
  MSys (Inst [ex_create] (OCollect []) (PGet []) [] false
          (apply_update empty_cache (Update CmdTicket "1700000000-1" ex_value))
          [HUpd (Update CmdTicket "1700000000-1" ex_value)])
       (MemState ex_t0 1) (ex_t0 + 7)%Z
       [Sent (Request (Update CmdTicket "" ex_value) 0) (Response "1700000000-1" None) (Update CmdTicket "1700000000-1" ex_value)].

Lemma ex_reach_mid : mreach ex_cfg ex_t0 ex_mid.
Proof.
  unfold mreach, msys0, inst0.
  loc ltac:(eapply (L_call _ _ _ _ _ _ _ _ _ [Update CmdTicket "" ex_value]);
            eapply (Is_create _ ex_now (TicketOrders [] [] []) (Some ex_ticket)); vm_compute; reflexivity).
  loc ltac:(eapply (L_accept _ _ _ _ _ _ _ _ _ 0); reflexivity).
  loc ltac:(eapply L_out_timeout).
  go ltac:(eapply (M_id _ _ _ _ _ _ _ _ _ _ _ _ _ _ (ex_t0 + 7)%Z (ex_t0 + 7)%Z (Update CmdTicket "1700000000-1" ex_value)
                     (Response "1700000000-1" None) (MemState ex_t0 1));
           [unfold ex_t0; lia|unfold ex_t0; lia|vm_compute; reflexivity]).
  go ltac:(eapply M_give).
  go ltac:(eapply M_sent).
  go ltac:(eapply M_poll_timeout).
  loc ltac:(eapply L_push; simpl; lia).
  loc ltac:(eapply L_deliver_direct; [reflexivity|reflexivity|split; simpl; lia]).
  loc ltac:(eapply L_delivered).
  loc ltac:(eapply L_apply).
  loc ltac:(eapply L_pushed).
  constructor.
Qed.

Lemma ex_reach_final : rtc (mstep ex_cfg) ex_mid ex_final.
Proof.
  unfold ex_mid.
  loc ltac:(eapply (L_call _ _ _ _ _ _ _ _ _ [Update CmdActivate "1700000000-1" ""]);
            eapply (Is_activate _ ["1700000000-1"]); vm_compute; reflexivity).
  loc ltac:(eapply (L_accept _ _ _ _ _ _ _ _ _ 1); reflexivity).
  loc ltac:(eapply L_out_timeout).
  go ltac:(eapply (M_id _ _ _ _ _ _ _ _ _ _ _ _ _ _ (ex_t0 + giga)%Z (ex_t0 + giga)%Z (Update CmdActivate "1700000000-1" "")
                     (Response "1700000001-0" None) (MemState (ex_t0 + giga)%Z 0));
           [unfold ex_t0, giga; lia|unfold ex_t0, giga; lia|vm_compute; reflexivity]).
  go ltac:(eapply M_give).
  go ltac:(eapply M_sent).
  loc ltac:(eapply L_deliver_buffered; [reflexivity|intros [_ ?]; simpl in *; lia|simpl; lia]).
  loc ltac:(eapply (L_receive _ _ _ _ _ _ _ _ _ 1); [reflexivity|split; simpl; lia|reflexivity]).
  loc ltac:(eapply L_delivered).
  go ltac:(eapply M_poll_timeout).
  loc ltac:(eapply L_push; simpl; lia).
  loc ltac:(eapply L_apply).
  loc ltac:(eapply L_pushed).
  constructor.
Qed.

Example C60_example :
  mreach ex_cfg ex_t0 ex_final ∧ Creates ex_create ex_value ∧ ex_value ≠ "" ∧ Quiescent (ms_inst ex_final) ∧
  Active (in_cache (ms_inst ex_final)) "1700000000-1".
Proof.
  split; [eapply rtc_transitive; [exact ex_reach_mid|exact ex_reach_final]|].
  split; [reflexivity|]. split; [by vm_compute|]. split.
  - split; [|done]. repeat constructor.
  - split.
    + vm_compute. by eexists.
    + apply (bool_decide_unpack _). vm_compute. exact I.
Qed.

(** The hypotheses of [C70_order] and [C70_created_then_activated] are met. *)
Example C70_example :
  mreach ex_cfg ex_t0 ex_mid ∧ rtc (mstep ex_cfg) ex_mid ex_final ∧
  in_calls (ms_inst ex_mid) !! 0 = Some ex_create ∧ length (in_calls (ms_inst ex_mid)) = 1 ∧
  in_calls (ms_inst ex_final) !! 1 = Some ex_activate ∧ returned ex_activate ∧
  on_the_way (ms_inst ex_final) = [] ∧ hev_visits (in_events (ms_inst ex_final)) = [].
Proof. split_and!; try done; [exact ex_reach_mid|exact ex_reach_final]. Qed.
End example.
