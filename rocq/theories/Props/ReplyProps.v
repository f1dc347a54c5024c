(** Property theorems about what the client of CreateTicket is told: C83 (one
    instance) and C84 (any number of instances over one Redis stream). *)
From Coq Require Import Ascii String ZArith NArith Lia.
From stdpp Require Import prelude strings gmap relations.
From Verif.Model Require Import GoStrings Types Proto Cache Replica Handlers MemRepl Queues RedisRepl System RedisSystem.
From Verif.Spec Require Import StringSpec IdSpec RedisSpec CacheSpec SystemSpec ReplySpec.
From Verif.Proofs Require Import ReplyLemmas.
From Verif.Props Require Import SystemProps RedisSystemProps.
Local Open Scope nat_scope.

(** ** C83 *)

(** When CreateTicket returns, the client has been told an id that has the form of
    an id, that ActivateTickets accepts, and under which nothing but its ticket
    was written. *)
Theorem C83_client_is_told_the_id : ∀ cfg t0 s i cl v,
  (0 <= t0)%Z → mreach cfg t0 s → in_calls (ms_inst s) !! i = Some cl → Creates cl v → returned cl →
  ∃ k, Told cl k ∧ WellFormedId k ∧ valid_ticket_id k = true ∧ tickets_for k (map sn_upd (ms_hist s)) = [v].
Proof. exact mem_told. Qed.
Print Assumptions C83_client_is_told_the_id.

(** It is never told an error. *)
Theorem C83_no_error : ∀ cfg t0 s i cl,
  (0 <= t0)%Z → mreach cfg t0 s → in_calls (ms_inst s) !! i = Some cl → ¬ ToldError cl.
Proof. exact mem_no_error. Qed.
Print Assumptions C83_no_error.

(** ** C84 *)

(** The full claims: an answer without an error names the client's ticket; and a
    client that is told no id has no ticket. *)
Definition C84_TellsTheId : Prop := ∀ cfg s n x i cl v k,
  yreach cfg s → ry_insts s !! n = Some x → AllSendable x → in_calls (rx_inst x) !! i = Some cl → Creates cl v →
  Told cl k → WellFormedId k ∧ valid_ticket_id k = true ∧ tickets_for k (history s) = [v].
Definition C84_NoIdNoTicket : Prop := ∀ cfg s n x i cl v,
  yreach cfg s → ry_insts s !! n = Some x → AllSendable x → in_calls (rx_inst x) !! i = Some cl → Creates cl v →
  Told cl ""%string → updates_logged s n i = [].

(** True of every id that is not empty. *)
Theorem C84_client_is_told_the_id_partial : ∀ cfg s n x i cl v k,
  yreach cfg s → ry_insts s !! n = Some x → AllSendable x → in_calls (rx_inst x) !! i = Some cl → Creates cl v →
  Told cl k → k ≠ ""%string →
  WellFormedId k ∧ valid_ticket_id k = true ∧ tickets_for k (history s) = [v].
Proof. exact red_told_id. Qed.
Print Assumptions C84_client_is_told_the_id_partial.

(** A client that is told an error has no ticket in the stream, and never gets one. *)
Theorem C84_error_means_not_created : ∀ cfg s n x i cl v,
  yreach cfg s → ry_insts s !! n = Some x → AllSendable x → in_calls (rx_inst x) !! i = Some cl → Creates cl v →
  ToldError cl → updates_logged s n i = [].
Proof. exact red_told_error. Qed.
Print Assumptions C84_error_means_not_created.

(** ** Examples *)
Section example.
Local Open Scope string_scope.

Example C83_example :
  mreach ex_cfg ex_t0 ex_mid ∧ in_calls (ms_inst ex_mid) !! 0 = Some ex_create ∧ Creates ex_create ex_value ∧ returned ex_create ∧
  Told ex_create "1700000000-1" ∧ tickets_for "1700000000-1" (map sn_upd (ms_hist ex_mid)) = [ex_value].
Proof.
  split; [exact ex_reach_mid|]. split; [reflexivity|]. split; [reflexivity|]. split; [by split|].
  split; [by eexists|]. vm_compute. reflexivity.
Qed.

Local Ltac tidy1 := cbn -[rex_create rex_activate rex_value rex_now rex_id rex_key giga apply_update Z.mul Z.add Z.sub cmds_of xtrim_minid
                         redis_results redis_get unix_secs xadd].
Local Ltac tidy :=
  tidy1; repeat (match goal with |- context [(?a <=? Z.of_nat ?b)%Z] =>
    let r := eval vm_compute in (a <=? Z.of_nat b)%Z in change (a <=? Z.of_nat b)%Z with r end; tidy1).
Local Ltac go t := eapply rtc_l; [t|tidy].
Local Ltac loc n t := go ltac:(eapply (Y_local _ _ _ _ _ _ n); [reflexivity|t]).

Definition rpl_inst (r : response) : rinst :=
  RInst (Inst [rex_call [r]] (OCollect []) (PGet []) [] false empty_cache []) (0, 0)%Z [(Request rex_create 0, r)].

Lemma rpl_sendable r : AllSendable (rpl_inst r).
Proof.
  intros cl Hcl. cbn [rpl_inst rx_inst in_calls] in Hcl. apply elem_of_list_singleton in Hcl as ->.
  assert (Sendable rex_create) by (vm_compute; done). repeat constructor; done.
Qed.

(** The connection breaks after the command has been sent; the server executes it. *)
Definition rpl_late : rsys :=
  RSys [rpl_inst (Response "" None)] rex_stream1 [(0, [])] rex_log1 [].

Lemma rpl_reach_late : yreach rex_cfg rpl_late.
Proof.
  unfold yreach, rsys0.
  go ltac:(eapply Y_join).
  loc 0 ltac:(eapply L_call, rex_issues).
  loc 0 ltac:(eapply (L_accept _ _ _ _ _ _ _ _ _ 0); reflexivity).
  loc 0 ltac:(eapply L_out_timeout).
  unfold redis_begin. rewrite rex_cmds.
  go ltac:(eapply (Y_break _ _ _ _ _ _ 0); reflexivity).
  change (redis_results [Request rex_create 0] []) with [Response "" None].
  tidy.
  loc 0 ltac:(eapply L_deliver_direct; [reflexivity|reflexivity|split; simpl; lia]).
  loc 0 ltac:(eapply L_delivered).
  go ltac:(eapply (Y_late_xadd _ _ _ _ _ _ 0 _ _ _ _ 1700000000123%Z); reflexivity).
  constructor.
Qed.

Theorem C84_tells_the_id_refuted : ¬ C84_TellsTheId.
Proof.
  intros H. destruct (H rex_cfg rpl_late 0 _ 0 (rex_call [Response "" None]) rex_value "" rpl_reach_late eq_refl (rpl_sendable _)
    eq_refl eq_refl ltac:(by eexists)) as (_ & E & _). vm_compute in E. done.
Qed.
Print Assumptions C84_tells_the_id_refuted.

(** The client is told no id and no error, yet its ticket has been created: when it
    tries again, there are two. *)
Theorem C84_no_id_no_ticket_refuted : ¬ C84_NoIdNoTicket.
Proof.
  intros H. pose proof (H rex_cfg rpl_late 0 _ 0 (rex_call [Response "" None]) rex_value rpl_reach_late eq_refl (rpl_sendable _)
    eq_refl eq_refl ltac:(by eexists)) as E. apply (f_equal length) in E. vm_compute in E. done.
Qed.
Print Assumptions C84_no_id_no_ticket_refuted.

(** Redis refuses the command: the client is told so. *)
Definition rpl_refused : rsys := RSys [rpl_inst (Response "" (Some EReply))] empty_stream [] [] [rex_thr].

Lemma rpl_reach_refused : yreach rex_cfg rpl_refused.
Proof.
  unfold yreach, rsys0.
  go ltac:(eapply Y_join).
  loc 0 ltac:(eapply L_call, rex_issues).
  loc 0 ltac:(eapply (L_accept _ _ _ _ _ _ _ _ _ 0); reflexivity).
  loc 0 ltac:(eapply L_out_timeout).
  unfold redis_begin. rewrite rex_cmds.
  go ltac:(eapply (Y_refuse _ _ _ _ _ _ 0); reflexivity).
  go ltac:(eapply (Y_sent _ _ _ _ _ _ 0 _ _ _ rex_now); reflexivity).
  change (redis_results [Request rex_create 0] [None]) with [Response "" (Some EReply)].
  tidy.
  loc 0 ltac:(eapply L_deliver_direct; [reflexivity|reflexivity|split; simpl; lia]).
  loc 0 ltac:(eapply L_delivered).
  change (xtrim_minid empty_stream (unix_secs rex_now - 600)%Z) with empty_stream.
  constructor.
Qed.

Example C84_example_refused :
  yreach rex_cfg rpl_refused ∧ AllSendable (rpl_inst (Response "" (Some EReply))) ∧
  Creates (rex_call [Response "" (Some EReply)]) rex_value ∧ ToldError (rex_call [Response "" (Some EReply)]).
Proof.
  split; [exact rpl_reach_refused|]. split; [apply rpl_sendable|]. split; [reflexivity|].
  exists (Response "" (Some EReply)), "", EReply. split; reflexivity.
Qed.

Example C84_example :
  yreach rex_cfg rex_mid ∧ ry_insts rex_mid !! 0 = Some rex_inst1 ∧ in_calls (rx_inst rex_inst1) !! 0 = Some rex_done1 ∧
  Creates rex_done1 rex_value ∧ Told rex_done1 rex_key ∧ tickets_for rex_key (history rex_mid) = [rex_value].
Proof.
  split; [exact rex_reach_mid|]. split; [reflexivity|]. split; [reflexivity|]. split; [reflexivity|].
  split; [by eexists|]. vm_compute. reflexivity.
Qed.
End example.
