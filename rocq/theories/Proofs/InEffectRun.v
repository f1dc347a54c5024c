(** A run for C156: a ticket is created and activated, with Redis. *)
From Coq Require Import String ZArith Lia.
From stdpp Require Import prelude strings gmap relations.
From Verif.Proofs Require Import CacheWitness.
From Verif.Model Require Import GoStrings Types Filter Wire Proto Cache Replica MemRepl RedisRepl Queues Timing Visible RedisVisible Arrival RedisArrival.
Local Open Scope string_scope.
Local Open Scope Z_scope.

(** Waiting times of a second, two requests to a batch, no time for work. *)
Definition run_out : oparams := OParams giga 2 0.
Definition run_in : iparams := IParams giga 0 0.
Definition run_start : instant := 1000 * giga.
Definition run_id : string := "1000000-0".
Definition run_ticket : update := Update CmdTicket run_id honest_value.
Definition run_activate : update := Update CmdActivate run_id "".
Definition run_o1 : offered := Offered (Request (Update CmdTicket "" honest_value) 0) run_start 0.
Definition run_o2 : offered := Offered (Request run_activate 0) run_start 1.
Definition run_x1 : vitem := VItem run_ticket run_start 0.
Definition run_x2 : vitem := VItem run_activate run_start 1.
Definition run_cache : cache := apply_update (apply_update empty_cache run_ticket) run_activate.
Notation stp := (astep default_config run_out run_in 0 100).

(** Nothing is waiting, and both loops are at the beginning of their waiting times. *)
Definition calm (n : instant) (c : list update) (vch : list vitem) (ca : cache) to dn al wd wa se : astate :=
  AState (OState n [] (OCollect n []) dn al) [] (WState (IState n c ca (ISleep n) to) (QAsk n) [] vch wd wa) se.

Lemma second_passes n c vch ca to dn al wd wa se :
  rtc stp (calm n c vch ca to dn al wd wa se)
    (AState (OState (n + giga) [] (OCollect (n + giga) []) dn al) []
       (WState (IState (n + giga) c ca (IApply (n + giga) (n + giga) (length c) 0 0) to) (QAsk (n + giga)) [] vch wd wa) se).
Proof.
  unfold calm. eapply rtc_l.
  { eapply AWait; [apply (OSIdle run_out n giga n); simpl; unfold giga; lia| | |].
    - eapply WLoop; [apply (ISleeping _ _ giga); simpl; unfold giga; lia|done|simpl; unfold giga; lia].
    - unfold w_now; simpl. unfold giga. lia.
    - done. }
  eapply rtc_l. { eapply (ACollect _ run_out _ _ _ n []); [done|apply (OSFire run_out); simpl; lia|done]. }
  cbn [o_batch os_phase].
  eapply rtc_l. { eapply AIn; [apply (WNone _ run_in _ _ _ n); simpl; lia|done]. }
  eapply rtc_l. { eapply AIn; [apply WReturn|done]. }
  eapply rtc_l. { eapply AIn; [apply WNext|done]. }
  cbn [is_now]. eapply rtc_l; [|apply rtc_refl].
  eapply AIn; [eapply WLoop; [apply (IWake default_config run_in); simpl; lia|done|simpl; lia]|done].
Qed.

Lemma run_cycle n to a dn al wd wa se h : n <= 1100 * giga →
  rtc stp (AState (OState n [] (OCollect n []) dn al) [] (WState (IState n [] run_cache (IApply n n h 0 a) to) (QAsk n) [] [] wd wa) se)
    (calm n [] [] run_cache to dn al wd wa se).
Proof.
  intros Hn. eapply rtc_l. { eapply AIn; [eapply WLoop; [apply IEmpty|done|simpl; lia]|done]. }
  eapply rtc_l; [|apply rtc_refl]. unfold calm.
  assert (cycle default_config (CycleOrders [] [(run_id, n)] []) run_cache = run_cache) as E.
  { unfold cycle, cycle_ops. cbn [pass1_ops pass2_ops pass3_ops v_inactive v_tickets v_assign mbind list_bind app apply_ops foldl].
    unfold pass2_ops, pass1_ops, pass3_ops. cbn [v_inactive v_tickets v_assign mbind list_bind app apply_ops foldl].
    unfold ticket_visit_ops. cbn [fst snd].
    assert (c_tickets run_cache !! run_id = Some (stored_ticket run_id honest_value)) as -> by (vm_compute; reflexivity).
    assert (ticket_due n (stored_ticket run_id honest_value) = false) as ->; [|done].
    unfold ticket_due. assert (as_time (tk_exp (stored_ticket run_id honest_value)) = 1600 * giga) as -> by (vm_compute; reflexivity).
    unfold giga in *. lia. }
  eapply AIn; [eapply (WLoop _ _ _ _ _ (IState n [] run_cache (ISleep n) to)); [|done|simpl; lia]|done].
  rewrite <-E at 2. apply ICycled.
  - unfold orders_fit. split_and!; vm_compute; reflexivity.
  - simpl. intros v ->%elem_of_list_singleton. simpl. lia.
Qed.

Lemma created_and_activated : ∃ s to, rtc stp (a_init run_start) s ∧
  s = calm (run_start + giga + giga + giga) [] [] run_cache to [(run_o1, run_start); (run_o2, run_start)] [run_o1; run_o2]
    [(run_x1, run_start + giga); (run_x2, run_start + giga)] [run_x1; run_x2] [(run_o1, Some run_x1); (run_o2, Some run_x2)].
Proof.
  eexists _, _. split; [|reflexivity]. unfold a_init, o_init, w_init, i_init.
  eapply rtc_l. { eapply AOffer; [apply (OSOffer _ (of_req run_o1))|done|done]. }
  cbn [length app]. change (Offered (of_req run_o1) run_start 0) with run_o1.
  eapply rtc_l. { eapply AOffer; [apply (OSOffer _ (of_req run_o2))|done|done]. }
  cbn [length app]. change (Offered (of_req run_o2) run_start 1) with run_o2.
  eapply rtc_l. { eapply ACollect; [done|apply OSAccept|done]. }
  change (o_full run_out ([] ++ [run_o1])) with false. cbn [app o_batch os_phase].
  eapply rtc_l. { eapply ACollect; [done|apply OSAccept|done]. }
  change (o_full run_out ([run_o1] ++ [run_o2])) with true. cbn [app o_batch os_phase].
  eapply rtc_l.
  { eapply (AAdd _ _ _ _ _ _ _ _ _ _ (1000000, 0) _ run_ticket); [done|vm_compute; reflexivity|vm_compute; reflexivity|apply (WAdd _ _ _ _ run_ticket)|done|done]. }
  cbn [app length Nat.add q_items is_now]. change (VItem run_ticket run_start 0) with run_x1.
  eapply rtc_l.
  { eapply (AAdd _ _ _ _ _ _ _ _ _ _ (1000000, 1) _ run_activate); [done|vm_compute; reflexivity|vm_compute; reflexivity|apply (WAdd _ _ _ _ run_activate)|done|done]. }
  cbn [app length Nat.add q_items is_now]. change (VItem run_activate run_start 1) with run_x2.
  eapply rtc_l. { eapply AReturn; [done|apply OSReturn|done]. }
  cbn [map app].
  eapply rtc_l. { eapply AIn; [apply WAnswer; done|done]. }
  cbn [take drop is_now].
  eapply rtc_l. { eapply AIn; [apply WReturn|done]. }
  eapply rtc_l. { eapply AIn; [eapply WPut; [simpl; lia|apply (IArrive _ _ run_ticket)|done|done]|done]. }
  eapply rtc_l. { eapply AIn; [eapply WPut; [simpl; lia|apply (IArrive _ _ run_activate)|done|done]|done]. }
  cbn [app i_came].
  eapply rtc_l. { eapply AIn; [apply WNext|done]. }
  cbn [is_now].
  etrans; [apply (second_passes run_start [run_ticket; run_activate])|].
  eapply rtc_l. { eapply AIn; [eapply (WApply _ _ _ _ _ _ _ _ run_x1); [apply IUpdate|done]|done]. }
  eapply rtc_l. { eapply AIn; [eapply (WApply _ _ _ _ _ _ _ _ run_x2); [apply IUpdate|done]|done]. }
  cbn [is_now app]. change (apply_update (apply_update empty_cache run_ticket) run_activate) with run_cache.
  etrans; [apply run_cycle; unfold run_start, giga; lia|].
  etrans; [apply second_passes|]. etrans; [apply run_cycle; unfold run_start, giga; lia|].
  etrans; [apply second_passes|]. etrans; [apply run_cycle; unfold run_start, giga; lia|]. apply rtc_refl.
Qed.
