(** Several instances and one Redis stream: progress. *)
From Coq Require Import Ascii String ZArith NArith Lia ZifyBool ZifyN Sorting.
From stdpp Require Import prelude strings gmap relations.
From Verif.Model Require Import GoStrings Types Filter Proto Cache Replica Handlers MemRepl Queues RedisRepl RedisReader System RedisSystem.
From Verif.Spec Require Import IdSpec RedisSpec CacheSpec SystemSpec.
From Verif.Proofs Require Import StringLemmas MemLemmas RedisLemmas RedisSendLemmas RedisReadLemmas HistoryLemmas HistoryMore InstLemmas
  MemSystemLemmas MemSystemMore MemSystemLive RedisSystemLemmas RedisSystemRead RedisSystemMore RedisSystemOrder.
Local Open Scope nat_scope.

(** ** A measure of outstanding work; [A] is the cost of one XADD *)
Definition rcall_w (A : nat) (c : call) : nat := (A + 7) * (length (cl_ups c) - cl_sent c) + length (cl_buf c).
Definition rout_w (A : nat) (o : out_pc redis_call) : nat :=
  match o with
  | OCollect b => (A + 6) * length b
  | OStore c => 2 + A * length (rc_cmds c) + 3 * length (rc_batch c)
  | ODeliver l => 1 + 2 * length l
  | OCrash => 0
  end.
Definition rpoll_w (p : poll_pc) : nat := match p with PPush l => 1 + 2 * length l | _ => 0 end.
Definition rinst_w (A : nat) (x : inst redis_call) : nat :=
  sum_list (map (rcall_w A) (in_calls x)) + rout_w A (in_out x) + rpoll_w (in_poll x) + length (in_stream x) +
  (if in_expiring x then 1 else 0).

Lemma rsum_insert {B} (f : B → nat) (cs : list B) i cl cl' :
  cs !! i = Some cl → sum_list (map f (<[i := cl']> cs)) + f cl = sum_list (map f cs) + f cl'.
Proof.
  revert i. induction cs as [|c cs IH]; intros [|i] H; simpl in *; try done.
  - injection H as ->. lia.
  - specialize (IH i H). lia.
Qed.

Lemma cmds_of_length b : length (cmds_of b) <= length b.
Proof. induction b as [|q b IH]; simpl; [lia|]. destruct (redis_encode (rq_update q)); simpl; lia. Qed.

Lemma rafter_select_w A thr b e :
  b ++ match e with QReq r => [r] | QTimeout => [] end ≠ [] →
  rout_w A (after_select redis_begin (q_step thr (QState b []) e)) <=
    (A + 6) * length (b ++ match e with QReq r => [r] | QTimeout => [] end).
Proof.
  intros Hne. destruct (after_select_cases redis_begin thr b e) as [[-> _]|[_ ->]]; [done|].
  cbn [rout_w redis_begin rc_cmds rc_batch].
  set (l := b ++ _) in *. clearbody l. pose proof (cmds_of_length l) as H.
  destruct l as [|q l]; [done|]. cbn [length] in *. set (k := length (cmds_of _)) in *. nia.
Qed.

(** A step inside an instance. *)
Definition inst_down (cfg : config) (A : nat) (x : inst redis_call) : Prop :=
  ∃ x', lstep cfg redis_begin x x' ∧ rinst_w A x' < rinst_w A x ∧ map cl_ups (in_calls x') = map cl_ups (in_calls x).

Lemma rdown_incoming cfg A x :
  poll_fine (in_poll x) → in_expiring x = true ∨ in_stream x ≠ [] ∨ in_poll x ≠ PGet [] → inst_down cfg A x.
Proof.
  intros Hpf H. destruct x as [cs o p st ex c ev]. cbn [in_expiring in_stream in_poll] in *. destruct ex.
  { destruct (some_orders cfg c 0%Z) as [ords Ho]. eexists. split; [eapply L_expire; exact Ho|].
    split; [|done]. unfold rinst_w. cbn. lia. }
  destruct st as [|u st].
  - destruct Hpf as [->|[l ->]]; [naive_solver|]. destruct l as [|u l].
    + eexists. split; [eapply L_pushed|]. split; [|done]. unfold rinst_w. cbn. lia.
    + eexists. split; [eapply L_apply_direct|]. split; [|done]. unfold rinst_w. cbn. lia.
  - eexists. split; [eapply L_apply|]. split; [|done]. unfold rinst_w. cbn. lia.
Qed.

Lemma rdown_out cfg A h x :
  inst_ok rc_batch no_undel cfg h x → in_out x ≠ OCollect [] → (∀ c, in_out x ≠ OStore c) → inst_down cfg A x.
Proof.
  intros Hin Ho Hns. destruct x as [cs o p st ex c ev]. cbn [in_out] in *.
  destruct o as [b|rc|l|]; [| |..].
  - destruct b as [|q b]; [done|]. eexists. split; [eapply L_out_timeout|]. split; [|done].
    unfold rinst_w. cbn [in_calls in_out in_poll in_stream in_expiring].
    change (after_select redis_begin (q_step (cfg_out_threshold cfg) (QState (q :: b) []) QTimeout))
      with (OStore (redis_begin (q :: b))).
    unfold rout_w. cbn [redis_begin rc_cmds rc_batch]. pose proof (cmds_of_length (q :: b)) as Hl.
    cbn [length] in *. set (k := length (cmds_of _)) in *. nia.
  - by destruct (Hns rc).
  - destruct l as [|[i r] l].
    { eexists. split; [eapply L_delivered|]. split; [|done]. unfold rinst_w. cbn. lia. }
    pose proof (ok_results _ _ _ _ _ Hin) as Hre. cbn [in_out out_results in_calls] in Hre.
    apply Forall_cons in Hre as [Hlt _]. cbn [fst] in Hlt.
    destruct (lookup_lt_is_Some_2 _ _ Hlt) as [cl Hcl].
    pose proof (ok_calls _ _ _ _ _ Hin i cl Hcl) as Hok.
    pose proof (call_ok_counts _ _ _ _ _ _ _ Hok) as Hn. cbn [in_out out_results] in Hn.
    rewrite results_hd in Hn by done. cbn [length] in Hn.
    pose proof (ok_sent _ _ _ _ _ _ _ Hok) as Hs. pose proof (ok_issues _ _ _ _ _ _ _ Hok) as His.
    destruct (issues_room _ _ _ His) as [[Hcap Hle]|Hle].
    + eexists. split; [eapply L_deliver_direct; [exact Hcl|exact Hcap|split; lia]|].
      split; [|by eapply ups_insert]. unfold rinst_w. cbn [in_calls in_out in_poll in_stream in_expiring rout_w length].
      pose proof (rsum_insert (rcall_w A) cs i cl (receive r [] cl) Hcl) as Hsum.
      unfold rcall_w in Hsum at 2 4. cbn [receive cl_ups cl_sent cl_buf length] in Hsum. lia.
    + eexists. split; [eapply L_deliver_buffered; [exact Hcl|unfold returned; lia|lia]|].
      split; [|by eapply ups_insert]. unfold rinst_w. cbn [in_calls in_out in_poll in_stream in_expiring rout_w length].
      pose proof (rsum_insert (rcall_w A) cs i cl (buffer r cl) Hcl) as Hsum.
      unfold rcall_w in Hsum at 2 4. cbn [buffer cl_ups cl_sent cl_buf length] in Hsum. rewrite app_length in Hsum. cbn [length] in Hsum. lia.
  - by destruct (ok_alive _ _ _ _ _ Hin).
Qed.

Lemma rdown_handlers cfg A h x :
  inst_ok rc_batch no_undel cfg h x → in_out x = OCollect [] → ¬ Forall returned (in_calls x) → inst_down cfg A x.
Proof.
  intros Hin Ho Hnr. destruct x as [cs o p st ex c ev]. cbn [in_out in_calls] in *. subst o.
  assert (Hdec : ∀ c, Decision (returned c)) by (intros; unfold returned; apply _).
  apply not_Forall_Exists in Hnr; [|done]. apply Exists_exists in Hnr as (cl & Hel & Hret).
  apply elem_of_list_lookup in Hel as [i Hcl].
  pose proof (ok_calls _ _ _ _ _ Hin i cl Hcl) as Hok.
  pose proof (call_ok_counts _ _ _ _ _ _ _ Hok) as Hn. pose proof (ok_sent _ _ _ _ _ _ _ Hok) as Hs.
  cbn [in_out out_results out_reqs] in Hn. unfold reqs_of, results_of in Hn. rewrite !filter_nil in Hn. cbn [length] in Hn.
  destruct (decide (cl_sent cl = length (cl_ups cl))) as [Heq|Hne].
  - destruct (cl_buf cl) as [|r buf] eqn:Eb.
    { exfalso. apply Hret. split; [done|]. cbn [length] in Hn. lia. }
    eexists. split; [eapply L_receive; [exact Hcl|split; [done|cbn [length] in Hn; lia]|exact Eb]|].
    split; [|by eapply ups_insert]. unfold rinst_w. cbn [in_calls in_out in_poll in_stream in_expiring rout_w length].
    pose proof (rsum_insert (rcall_w A) cs i cl (receive r buf cl) Hcl) as Hsum.
    unfold rcall_w in Hsum at 2 4. cbn [receive cl_ups cl_sent cl_buf length] in Hsum. rewrite Eb in Hsum. cbn [length] in Hsum. lia.
  - destruct (lookup_lt_is_Some_2 (cl_ups cl) (cl_sent cl)) as [u Hu]; [lia|].
    eexists. split; [eapply L_accept; [exact Hcl|exact Hu]|].
    split; [|by eapply ups_insert].
    pose proof (rafter_select_w A (cfg_out_threshold cfg) [] (QReq (Request u i)) ltac:(done)) as Hw. cbn [app length] in Hw.
    unfold rinst_w. cbn [in_calls in_out in_poll in_stream in_expiring].
    pose proof (rsum_insert (rcall_w A) cs i cl (sent_one cl) Hcl) as Hsum.
    unfold rcall_w in Hsum at 2 4. cbn [sent_one cl_ups cl_sent cl_buf length] in Hsum. cbn [rout_w length].
    set (d := length (cl_ups cl) - cl_sent cl) in *.
    assert (length (cl_ups cl) - S (cl_sent cl) = d - 1) as E by lia. rewrite E in Hsum.
    assert (1 <= d) by lia. nia.
Qed.

(** ** The whole system *)
Definition unread (lg : list logent) (x : rinst) : nat := length (filter (After (rx_cursor x)) (lg2 lg)).
Definition rx_w (A : nat) (lg : list logent) (x : rinst) : nat := rinst_w A (rx_inst x) + 4 * unread lg x.
Definition sys_w (s : rsys) : nat :=
  sum_list (map (rx_w (1 + 4 * length (ry_insts s)) (ry_log s)) (ry_insts s)).
Definition all_ups (s : rsys) : list (list (list update)) := map (λ x, map cl_ups (in_calls (rx_inst x))) (ry_insts s).

(** The trims so far, and one more at [now], are below all ids. *)
Definition Roomy (cfg : config) (now : instant) (s : rsys) : Prop :=
  Untrimmed s ∧ ∀ e, e ∈ ry_log s → (unix_secs now - cfg_ticket_ttl cfg <= (le_id e).1)%Z.

Definition sys_down (cfg : config) (now : instant) (s : rsys) : Prop :=
  ∃ s', ystep cfg s s' ∧ sys_w s' < sys_w s ∧ all_ups s' = all_ups s ∧ Roomy cfg now s'.

Definition rx_done (s : rsys) (x : rinst) : Prop := Quiescent (rx_inst x) ∧ unread (ry_log s) x = 0.

Lemma all_ups_insert (xs : list rinst) n x x' :
  xs !! n = Some x → map cl_ups (in_calls (rx_inst x')) = map cl_ups (in_calls (rx_inst x)) →
  map (λ x, map cl_ups (in_calls (rx_inst x))) (<[n:=x']> xs) = map (λ x, map cl_ups (in_calls (rx_inst x))) xs.
Proof.
  revert n. induction xs as [|y xs IH]; intros [|n] H E; simpl in *; try done.
  - injection H as ->. by rewrite E.
  - f_equal. by apply (IH n).
Qed.

(** A step of one instance that leaves the log alone. *)
Lemma down_one xs s os lg ts n x x' cfg now s' os' ts' :
  ystep cfg (RSys xs s os lg ts) (RSys (<[n:=x']> xs) s' os' lg ts') →
  xs !! n = Some x → (∀ A, 1 <= A → rx_w A lg x' < rx_w A lg x) →
  map cl_ups (in_calls (rx_inst x')) = map cl_ups (in_calls (rx_inst x)) →
  Roomy cfg now (RSys (<[n:=x']> xs) s' os' lg ts') →
  sys_down cfg now (RSys xs s os lg ts).
Proof.
  intros Hs Hx Hw Hu Hr. eexists. split; [exact Hs|]. split; [|split; [|exact Hr]].
  - unfold sys_w. cbn [ry_insts ry_log]. rewrite insert_length. set (A := 1 + 4 * length xs).
    pose proof (rsum_insert (rx_w A lg) xs n x x' Hx) as Hsum. specialize (Hw A ltac:(unfold A; lia)). lia.
  - unfold all_ups. cbn [ry_insts]. by eapply all_ups_insert.
Qed.

Definition top (l : list Z) (t : Z) : Z := foldr Z.max t l.
Lemma top_ge l t : (t <= top l t)%Z ∧ ∀ x, x ∈ l → (x <= top l t)%Z.
Proof.
  induction l as [|y l [IH1 IH2]]; simpl; [split; [lia|by intros x ?%elem_of_nil]|].
  split; [lia|]. intros x [->|Hx]%elem_of_cons; [lia|]. specialize (IH2 x Hx). lia.
Qed.

Lemma xadd_ms s ms c : (ms <= (xadd s ms c).2.1)%Z.
Proof. unfold xadd, next_sid. cbn [snd]. destruct (Z.ltb_spec (st_last s).1 ms); simpl; lia. Qed.

Lemma unread_app lg e x : unread (lg ++ [e]) x <= 1 + unread lg x.
Proof.
  unfold unread. rewrite lg2_app, filter_app, app_length. unfold lg2 at 2. cbn [map]. rewrite filter_cons.
  destruct (decide _); rewrite filter_nil; cbn [length]; lia.
Qed.

Lemma sum_unread A lg e xs :
  sum_list (map (rx_w A (lg ++ [e])) xs) <= sum_list (map (rx_w A lg) xs) + 4 * length xs.
Proof.
  induction xs as [|x xs IH]; simpl; [lia|]. unfold rx_w at 1 3. pose proof (unread_app lg e x). lia.
Qed.

Lemma down_xadd cfg now xs s os lg ts n x b q c cmds rs :
  xs !! n = Some x → in_out (rx_inst x) = OStore (RedisCall b ((q, c) :: cmds) rs) →
  Roomy cfg now (RSys xs s os lg ts) → sys_down cfg now (RSys xs s os lg ts).
Proof.
  intros Hx Eo [Hu Hn]. set (ms := top ts (unix_secs now - cfg_ticket_ttl cfg)).
  eexists. split; [eapply (Y_xadd _ _ _ _ _ _ _ _ _ _ _ _ _ ms); [exact Hx|exact Eo]|].
  split; [|split].
  - unfold sys_w. cbn [ry_insts ry_log]. rewrite insert_length. set (A := 1 + 4 * length xs).
    set (e := LogEnt _ _ _). set (x' := RInst _ _ _).
    pose proof (sum_unread A lg e (<[n:=x']> xs)) as H1. rewrite insert_length in H1.
    pose proof (rsum_insert (rx_w A lg) xs n x x' Hx) as Hsum.
    assert (Hw : rx_w A lg x' + A = rx_w A lg x).
    { unfold rx_w, unread, x', rinst_w. cbn [rx_inst rx_cursor set_out in_calls in_out in_poll in_stream in_expiring]. rewrite Eo.
      cbn [rout_w rc_cmds rc_batch length]. lia. }
    unfold A in *. lia.
  - unfold all_ups. cbn [ry_insts]. by eapply all_ups_insert.
  - destruct (top_ge ts (unix_secs now - cfg_ticket_ttl cfg)) as [Ht1 Ht2]. fold ms in Ht1, Ht2.
    pose proof (xadd_ms s ms c) as Hms. split.
    + intros t e Ht He. cbn [ry_trims ry_log] in *. apply elem_of_app in He as [He|He].
      * by apply Hu.
      * apply elem_of_list_singleton in He as ->. cbn [le_id]. specialize (Ht2 t Ht). lia.
    + intros e He. cbn [ry_log] in *. apply elem_of_app in He as [He|He]; [by apply Hn|].
      apply elem_of_list_singleton in He as ->. cbn [le_id]. lia.
Qed.

Lemma done_or_down cfg now s n x :
  1 <= cfg_in_max cfg → yreach cfg s → Roomy cfg now s → ry_insts s !! n = Some x → rx_done s x ∨ sys_down cfg now s.
Proof.
  intros Hmax Hr [Hu Hn] Hx. pose proof (yi_inst _ _ (yreach_inv _ _ Hr) n x Hx) as [Hin Hfl _ _].
  destruct (yreach_read _ _ Hr) as [slog HR]. destruct (yr_inst _ _ _ HR n x Hx) as (Hpf & dlog & HV & Hd).
  pose proof (yr_all _ _ _ HR Hu) as ->.
  destruct s as [xs s os lg ts]. cbn [ry_insts ry_log ry_stream] in *.
  assert (Hdown : inst_down cfg (1 + 4 * length xs) (rx_inst x) → sys_down cfg now (RSys xs s os lg ts)).
  { intros (x' & Hl & Hw & Hups). eexists. split; [eapply Y_local; [exact Hx|exact Hl]|]. split; [|split; [|by split]].
    - unfold sys_w. cbn [ry_insts ry_log]. rewrite insert_length. set (A := 1 + 4 * length xs) in *.
      pose proof (rsum_insert (rx_w A lg) xs n x (RInst x' (rx_cursor x) (rx_hist x)) Hx) as Hsum.
      unfold rx_w in Hsum at 2 4. unfold unread in Hsum. cbn [rx_inst rx_cursor] in Hsum. lia.
    - unfold all_ups. cbn [ry_insts]. by eapply all_ups_insert. }
  destruct (decide (in_expiring (rx_inst x) = true ∨ in_stream (rx_inst x) ≠ [])) as [H|H].
  { right. apply Hdown, rdown_incoming; [done|]. tauto. }
  assert (Hp : in_poll (rx_inst x) = PGet [] ∨ in_poll (rx_inst x) ≠ PGet []).
  { destruct (in_poll (rx_inst x)) as [[|]| |]; auto. }
  destruct Hp as [Hp|Hp]; [|right; apply Hdown, rdown_incoming; auto].
  assert (Ho : in_out (rx_inst x) = OCollect [] ∨ (∃ c, in_out (rx_inst x) = OStore c) ∨
               (in_out (rx_inst x) ≠ OCollect [] ∧ ∀ c, in_out (rx_inst x) ≠ OStore c)).
  { destruct (in_out (rx_inst x)) as [[|]| | |]; eauto; right; right; split; done. }
  destruct Ho as [Ho|[[c Ho]|[Ho1 Ho2]]]; [| |right; by eapply Hdown, rdown_out].
  - destruct (decide (Forall returned (in_calls (rx_inst x)))) as [Hret|Hret]; [|right; by eapply Hdown, rdown_handlers].
    destruct (decide (unread lg x = 0)) as [Hun|Hun].
    { left. split; [|done]. split_and!; [done|done|]. unfold on_the_way. rewrite Hp, app_nil_r.
      destruct (in_stream (rx_inst x)) eqn:E; [done|]. exfalso. apply H. by right. }
    right. eapply down_one; [eapply (Y_poll _ _ _ _ _ _ _ _ true); [exact Hx|exact Hp]|exact Hx| | |by split].
    + intros A HA. pose proof (poll_spec 0 (cfg_in_max cfg) (view s x) _ _ _ HV) as EP. cbv zeta in EP.
      cbn [rstep view rs_panicked rs_stream rs_cursor rs_out] in EP. unfold poll_redis.
      set (d := take (cfg_in_max cfg) (filter (After (rx_cursor x)) (lg2 lg))) in *.
      destruct (redis_get (cfg_in_max cfg) s (rx_cursor x) true) as [[us|] c] eqn:E; [|by injection EP].
      injection EP as -> EP.
      assert (Hlen : length us = length d).
      { pose proof (ri_out _ _ _ _ HV) as Eout. cbn [view rs_out] in Eout. rewrite Eout, map_app in EP.
        apply app_inv_head in EP. by rewrite EP, map_length. }
      destruct (ri_log _ _ _ _ HV) as (Hs & _).
      destruct (advance_split (rx_cursor x) (lg2 lg) d _ Hs (eq_sym (take_drop (cfg_in_max cfg) (filter (After (rx_cursor x)) (lg2 lg))))) as [Hrest _].
      unfold rx_w, unread. cbn [rx_inst rx_cursor]. 
      apply (f_equal length) in Hrest. rewrite drop_length in Hrest.
      assert (Hlt : length (filter (After (last_id (rx_cursor x) d)) (lg2 lg)) =
                    length (filter (After (rx_cursor x)) (lg2 lg)) - cfg_in_max cfg) by exact Hrest.
      rewrite Hlt.
      unfold rinst_w. cbn [set_poll in_calls in_out in_poll in_stream in_expiring]. rewrite Hp. cbn [rpoll_w].
      unfold unread in Hun.
      assert (Hd2 : length us = cfg_in_max cfg `min` length (filter (After (rx_cursor x)) (lg2 lg))).
      { rewrite Hlen. unfold d. exact (take_length _ _). }
      set (k := length (filter (After (rx_cursor x)) (lg2 lg))) in *. lia.
    + unfold poll_redis. by destruct (redis_get _ _ _ _) as [[]].
  - right. destruct c as [b cmds rs]. destruct cmds as [|[q c] cmds].
    + eapply down_one; [eapply (Y_sent _ _ _ _ _ _ _ _ _ _ now); [exact Hx|exact Ho]|exact Hx| |done|].
      * intros A HA. unfold rx_w, unread, finish_send, to_deliver. cbn [rx_inst rx_cursor].
        pose proof (redis_results_length b rs) as Hl. rewrite distribute_zip by lia.
        unfold rinst_w. cbn [set_out in_calls in_out in_poll in_stream in_expiring]. rewrite Ho.
        cbn [rout_w rc_cmds rc_batch length]. rewrite zip_with_length, map_length. lia.
      * split; [|done]. intros t e Ht He. cbn [ry_trims ry_log] in *. apply elem_of_app in Ht as [Ht|Ht]; [by apply Hu|].
        apply elem_of_list_singleton in Ht as ->. by apply Hn.
    + eapply down_xadd; [exact Hx|exact Ho|by split].
Qed.

Lemma all_done_or_down cfg now s :
  1 <= cfg_in_max cfg → yreach cfg s → Roomy cfg now s →
  (∀ n x, ry_insts s !! n = Some x → rx_done s x) ∨ sys_down cfg now s.
Proof.
  intros Hmax Hr Hro.
  assert (Hk : ∀ k, k <= length (ry_insts s) → (∀ n x, n < k → ry_insts s !! n = Some x → rx_done s x) ∨ sys_down cfg now s).
  { induction k as [|k IH]; intros Hk; [left; lia|]. destruct IH as [IH|IH]; [lia| |by right].
    destruct (lookup_lt_is_Some_2 (ry_insts s) k) as [x Hx]; [lia|].
    destruct (done_or_down cfg now s k x Hmax Hr Hro Hx) as [Hd|Hd]; [|by right]. left. intros n y Hn Hy.
    destruct (decide (n = k)) as [->|Hne]; [by simplify_eq|]. apply (IH n); [lia|done]. }
  destruct (Hk (length (ry_insts s)) ltac:(done)) as [H|H]; [|by right]. left. intros n x Hx.
  apply (H n); [|done]. by eapply lookup_lt_Some.
Qed.

Lemma done_caught_up cfg s n x :
  yreach cfg s → Untrimmed s → ry_insts s !! n = Some x → rx_done s x → CaughtUp s x.
Proof.
  intros Hr Hu Hx [(_ & _ & Hway) Hun].
  destruct (yreach_read _ _ Hr) as [slog HR]. destruct (yr_inst _ _ _ HR n x Hx) as (_ & dlog & HI & Hd).
  specialize (Hd Hu). pose proof (ri_out _ _ _ _ HI) as E. cbn in E. rewrite read_split, Hway, app_nil_r in E.
  unfold CaughtUp. rewrite E, history_lg2. f_equal. rewrite Hd.
  destruct (ri_log _ _ _ _ HI) as (Hs & _).
  assert (E2 : filter (λ p, Until (rx_cursor x) p) (lg2 (ry_log s)) ++ filter (After (rx_cursor x)) (lg2 (ry_log s)) = lg2 (ry_log s)).
  { exact (split_sorted (rx_cursor x) (lg2 (ry_log s)) Hs). }
  unfold unread in Hun. apply nil_length_inv in Hun. rewrite Hun, app_nil_r in E2. exact E2.
Qed.

Lemma red_can_finish cfg now s :
  1 <= cfg_in_max cfg → yreach cfg s → Untrimmed s →
  (∀ e, e ∈ ry_log s → (unix_secs now - cfg_ticket_ttl cfg <= (le_id e).1)%Z) →
  ∃ s', rtc (ystep cfg) s s' ∧
    (∀ n x, ry_insts s' !! n = Some x → Quiescent (rx_inst x) ∧ CaughtUp s' x) ∧
    map (λ x, map cl_ups (in_calls (rx_inst x))) (ry_insts s') = map (λ x, map cl_ups (in_calls (rx_inst x))) (ry_insts s).
Proof.
  intros Hmax Hr Hu Hn. assert (Hro : Roomy cfg now s) by done. clear Hu Hn.
  fold (all_ups s). remember (sys_w s) as w eqn:Ew. revert s Ew Hr Hro.
  induction (lt_wf w) as [w _ IH]. intros s -> Hr Hro.
  destruct (all_done_or_down cfg now s Hmax Hr Hro) as [Hq|(s1 & Hs & Hlt & Hu & Hro1)].
  - exists s. split; [constructor|]. split; [|done]. intros n x Hx. split; [by apply (Hq n)|].
    eapply done_caught_up; [done|apply Hro|done|by apply (Hq n)].
  - destruct (IH _ Hlt s1 eq_refl) as (s' & Hs' & Hq & Hu'); [by eapply rtc_r|done|].
    exists s'. split; [by eapply rtc_l|]. split; [done|]. fold (all_ups s') in *. congruence.
Qed.
