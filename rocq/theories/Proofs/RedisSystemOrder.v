(** Several instances and one Redis stream: the order of calls. *)
From Coq Require Import Ascii String ZArith NArith Lia ZifyBool ZifyN Sorting.
From stdpp Require Import prelude strings gmap relations.
From Verif.Model Require Import GoStrings Types Filter Proto Cache Replica Handlers MemRepl Queues RedisRepl RedisReader System RedisSystem.
From Verif.Spec Require Import IdSpec RedisSpec CacheSpec SystemSpec.
From Verif.Proofs Require Import StringLemmas MemLemmas RedisLemmas RedisSendLemmas RedisReadLemmas HistoryLemmas HistoryMore InstLemmas
  MemSystemLemmas MemSystemMore RedisSystemLemmas RedisSystemRead RedisSystemMore.
Local Open Scope nat_scope.

Lemma ystep_grows cfg s s' : ystep cfg s s' → ∃ l, ry_log s' = ry_log s ++ l.
Proof. destruct 1; cbn [ry_log]; try (by exists []; rewrite app_nil_r); by eexists. Qed.

Lemma yrtc_grows cfg s s' : rtc (ystep cfg) s s' → ∃ l, ry_log s' = ry_log s ++ l.
Proof.
  induction 1 as [s|s s1 s' Hs _ [l IH]]; [by exists []; rewrite app_nil_r|].
  destruct (ystep_grows _ _ _ Hs) as [l' E]. exists (l' ++ l). by rewrite IH, E, app_assoc.
Qed.

(** In [s1], no instance has the call [j] of instance [m] yet. *)
Lemma red_order cfg s1 s2 n x i ci v r m y j cj p r' u :
  yreach cfg s1 → rtc (ystep cfg) s1 s2 →
  ry_insts s1 !! n = Some x → AllSendable x → in_calls (rx_inst x) !! i = Some ci → Creates ci v → r ∈ cl_got ci → Good r →
  NotYet s1 m j →
  ry_insts s2 !! m = Some y → AllSendable y → in_calls (rx_inst y) !! j = Some cj →
  cl_ups cj !! p = Some u → cl_got cj !! p = Some r' → Good r' →
  ∃ h1 h2 h3, history s2 = h1 ++ Update CmdTicket (r_result r) v :: h2 ++ AsStored u (r_result r') :: h3.
Proof.
  intros Hr1 Hr12 Hx Ha Hi Hc Hin Hg Hny Hy Ha' Hj Hu Hp Hg'.
  assert (Hr2 : yreach cfg s2) by (by eapply rtc_transitive).
  pose proof (red_created _ _ _ _ _ _ _ _ Hr1 Hx Ha Hi Hc Hin Hg) as Ht.
  assert (Hin1 : Update CmdTicket (r_result r) v ∈ history s1).
  { apply tickets_for_elem. rewrite Ht. apply elem_of_list_here. }
  apply elem_of_list_split in Hin1 as (h1 & h2 & E1).
  destruct (yrtc_grows _ _ _ Hr12) as [l El].
  destruct (red_answers _ _ _ _ _ _ _ _ Hr2 Hy Ha' Hj Hp Hg') as (u' & e & Hu' & He & Hs & Hq & Er).
  rewrite Hu in Hu'. injection Hu' as <-.
  assert (Hl : e ∈ l).
  { rewrite El in He. apply elem_of_app in He as [He|He]; [|done]. exfalso.
    destruct (log_call _ _ _ Hr1 He) as (y1 & cl & Hy1 & Hcl & _). rewrite Hs in Hy1. rewrite Hq in Hcl. cbn in Hcl.
    apply lookup_lt_Some in Hcl. specialize (Hny y1 Hy1). lia. }
  assert (Ee : as_read (le_id e) (rq_update (le_req e)) = AsStored u (r_result r')).
  { destruct (log_call _ _ _ Hr2 He) as (y2 & cl & Hy2 & Hcl & Hcu & Hiss).
    rewrite Hq in *. cbn [rq_update] in *. rewrite Er. unfold as_read, AsStored.
    destruct u as [cm k w]. cbn [u_cmd u_key u_value]. destruct cm; try done.
    - by destruct (issues_activate _ _ _ _ _ Hiss Hcu) as (-> & _).
    - clear -Hiss Hcu. destruct Hiss as [now o req us Hc|ids us Hc|ids us Hc|ids|oe r us Hc].
      + destruct req as [t|]; [|done]. unfold create_ticket in Hc.
        destruct (marshal_ticket o (prepare_ticket (cfg_ticket_ttl cfg) now t)) as [w'|]; [|done].
        injection Hc as Hc. rewrite <-Hc in Hcu. by apply elem_of_list_singleton in Hcu.
      + unfold activate_start, set_active_start in Hc. cbv zeta in Hc. destruct (_ =? 0)%Z; [done|].
        destruct (_ <? _)%Z; [done|]. injection Hc as Hc. rewrite <-Hc in Hcu. by apply elem_of_list_fmap in Hcu as (? & [=] & _).
      + unfold deactivate_start, set_active_start in Hc. cbv zeta in Hc. destruct (_ =? 0)%Z; [done|].
        destruct (_ <? _)%Z; [done|]. injection Hc as Hc. rewrite <-Hc in Hcu. by apply elem_of_list_fmap in Hcu as (? & [= -> ->] & _).
      + by apply elem_of_list_fmap in Hcu as (? & [= -> ->] & _).
      + unfold create_assignments_start in Hc. destruct (ro_assignment r); [|done].
        destruct (marshal_assignment oe a) as [w'|]; [|done]. injection Hc as Hc. rewrite <-Hc in Hcu.
        by apply elem_of_list_fmap in Hcu as (? & [=] & _). }
  apply elem_of_list_split in Hl as (l1 & l2 & ->).
  set (f := λ e, as_read (le_id e) (rq_update (le_req e))) in *.
  exists h1, (h2 ++ map f l1), (map f l2). unfold history in *. fold f in E1 |- *.
  rewrite El, map_app, E1, map_app. cbn [map]. change (f e) with (as_read (le_id e) (rq_update (le_req e))). rewrite Ee.
  rewrite <-!app_assoc. simpl. by rewrite <-?app_assoc.
Qed.

(** Applied a ticket and, after it, its activation. *)
Lemma active_at_the_end cfg es h1 h2 h3 k v :
  hev_updates es = h1 ++ Update CmdTicket k v :: h2 ++ Update CmdActivate k ""%string :: h3 →
  tickets_for k (hev_updates es) = [v] →
  (∀ w, Update CmdDeactivate k w ∉ hev_updates es) →
  (∀ x, x ∈ hev_visits es → ¬ OlderThan (cfg_ticket_ttl cfg) x.2 k ∧ ¬ ExpiredAt x.2 (stored_ticket k v)) →
  Active (hev_run cfg empty_cache es) k ∧ c_tickets (hev_run cfg empty_cache es) !! k = Some (stored_ticket k v).
Proof.
  intros Hm Hut Hnd Hvis.
  assert (Htk : c_tickets (hev_run cfg empty_cache es) !! k = Some (stored_ticket k v)).
  { apply run_ticket_kept; [naive_solver|naive_solver|]. by rewrite Hut. }
  split; [|done]. split; [by eexists|]. intros Hin.
  destruct (run_sound cfg es) as (_ & Hs & _). apply Hs in Hin.
  rewrite Hm in Hin, Hut, Hnd.
  change (h1 ++ Update CmdTicket k v :: h2 ++ Update CmdActivate k "" :: h3)
    with (h1 ++ [Update CmdTicket k v] ++ h2 ++ [Update CmdActivate k ""%string] ++ h3) in *.
  rewrite !state_cmds_for_app, !tickets_for_app in *.
  assert (Hk1 : tickets_for k [Update CmdTicket k v] = [v]).
  { unfold tickets_for. simpl. by rewrite decide_True. }
  assert (Hk3 : tickets_for k h3 = []).
  { rewrite Hk1 in Hut. change (tickets_for k [Update CmdActivate k ""%string]) with (@nil string) in Hut.
    apply (f_equal length) in Hut. rewrite !app_length in Hut. simpl in Hut. apply nil_length_inv. lia. }
  assert (Hall : Forall (λ b, b = true) (state_cmds_for k h3)).
  { apply Forall_forall. intros b ([cm key w] & Hu3 & Eb)%elem_of_list_omap. simpl in Eb.
    destruct (decide (key = k)) as [->|]; [|done]. destruct cm; simpl in Eb; simplify_eq; try done; exfalso.
    - assert (w ∈ tickets_for k h3) as Hw; [|rewrite Hk3 in Hw; by apply elem_of_nil in Hw].
      unfold tickets_for. apply elem_of_list_omap. eexists. split; [exact Hu3|]. simpl. by rewrite decide_True.
    - apply (Hnd w). rewrite !elem_of_app. tauto. }
  assert (Hl3 : last ([true] ++ state_cmds_for k h3) = Some true).
  { rewrite last_app. destruct (last (state_cmds_for k h3)) as [b|] eqn:El; [|done].
    apply last_Some_elem_of in El. rewrite Forall_forall in Hall. by rewrite (Hall b El). }
  assert (Hact : state_cmds_for k [Update CmdActivate k ""%string] = [true]).
  { unfold state_cmds_for. simpl. by rewrite decide_True. }
  rewrite Hact in Hin. rewrite 3!last_app, Hl3 in Hin. done.
Qed.

(** A ticket created at one instance, then activated at any instance, is active in
    every instance that has caught up. *)
Lemma red_end_to_end cfg s1 s2 n x i ci v r m y j cj p r' w z :
  yreach cfg s1 → rtc (ystep cfg) s1 s2 →
  ry_insts s1 !! n = Some x → AllSendable x → in_calls (rx_inst x) !! i = Some ci → Creates ci v → r ∈ cl_got ci → Good r →
  NotYet s1 m j →
  ry_insts s2 !! m = Some y → AllSendable y → in_calls (rx_inst y) !! j = Some cj →
  cl_ups cj !! p = Some (Update CmdActivate (r_result r) ""%string) → cl_got cj !! p = Some r' → Good r' →
  ry_insts s2 !! w = Some z → CaughtUp s2 z →
  (∀ v', Update CmdDeactivate (r_result r) v' ∉ history s2) →
  (∀ e, e ∈ hev_visits (in_events (rx_inst z)) →
        ¬ OlderThan (cfg_ticket_ttl cfg) e.2 (r_result r) ∧ ¬ ExpiredAt e.2 (stored_ticket (r_result r) v)) →
  Active (in_cache (rx_inst z)) (r_result r) ∧
  c_tickets (in_cache (rx_inst z)) !! r_result r = Some (stored_ticket (r_result r) v).
Proof.
  intros Hr1 Hr12 Hx Ha Hi Hc Hin Hg Hny Hy Ha' Hj Hu Hp Hg' Hz Hcu Hnd Hvis.
  destruct (red_order _ _ _ _ _ _ _ _ _ _ _ _ _ _ _ _ Hr1 Hr12 Hx Ha Hi Hc Hin Hg Hny Hy Ha' Hj Hu Hp Hg') as (h1 & h2 & h3 & E).
  assert (Hr2 : yreach cfg s2) by (by eapply rtc_transitive).
  destruct (red_cache _ _ _ _ Hr2 Hz) as [Hca _]. rewrite Hca. unfold CaughtUp, applied in Hcu.
  eapply active_at_the_end; rewrite ?Hcu; [exact E| |exact Hnd|exact Hvis].
  assert (Hh : Update CmdTicket (r_result r) v ∈ history s2).
  { rewrite E. apply elem_of_app. right. apply elem_of_list_here. }
  destruct (history_ticket _ _ _ _ Hr2 Hh) as (e & y' & cl & He & Ek & Ev & _). rewrite Ek. by eapply history_ticket_unique.
Qed.

