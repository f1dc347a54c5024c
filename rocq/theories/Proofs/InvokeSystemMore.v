(** A ticket of a match that was sent on is not offered again. *)
From Coq Require Import Ascii String ZArith NArith Lia.
From stdpp Require Import prelude strings gmap relations.
From Verif.Model Require Import GoStrings Types Cache Handlers Queues Snapshot System RedisSystem Invoke InvokeSystem.
From Verif.Spec Require Import CacheSpec SystemSpec EndToEndSpec AssignSpec StateSpec InvokeSpec InvokeSystemSpec.
From Verif.Proofs Require Import InvokeLemmas InvokeSystemLemmas StateMem StateRedis.
Local Open Scope nat_scope.

Lemma mem_matched_not_offered cfg t0 wait fns s0 z1 z2 s3 i ci v r ts :
  (0 <= t0)%Z → mreach cfg t0 s0 →
  rtc (im_step cfg wait) (is_init mem_inactive fns s0) z1 → rtc (im_step cfg wait) z1 z2 →
  rtc (mstep cfg) (is_server z2) s3 →
  in_calls (ms_inst (is_server z1)) !! i = Some ci → Creates ci v → r ∈ cl_got ci →
  HandedOut z1 z2 (r_result r) →
  (∀ i' c', in_calls (ms_inst s3) !! i' = Some c' → SetsState c' (r_result r) true →
     ∃ c1, in_calls (ms_inst (is_server z1)) !! i' = Some c1 ∧ returned c1) →
  on_the_way (ms_inst (is_server z2)) = [] →
  SnapshotBetween cfg (ms_inst (is_server z2)) (ms_inst s3) ts →
  ∀ t, t ∈ ts → tk_id t ≠ r_result r.
Proof.
  intros H0 Hr0 H01 H12 H23 Hi Hc Hin (n & k & m & Hn & Hrec & Hst & Htk) Hoth Hway Hs.
  destruct (streamed_call _ _ _ _ (mstep_keeps cfg) _ z1 z2 fns s0 n k m (r_result r) eq_refl H01 H12 Hn Hst Hrec Htk)
    as (j & c & _ & Hj & Hcj & Hset & Hret).
  apply is_server_runs in H01. apply is_server_runs in H12. cbn in H01.
  eapply (mem_deactivated_not_offered cfg t0 (is_server z1) (is_server z2) s3 i ci v r j c ts); try done.
  by eapply rtc_transitive.
Qed.

Lemma red_matched_not_offered cfg wait fns m s0 z1 z2 s3 n x y i ci v r w x2 x3 ts :
  yreach cfg s0 →
  rtc (ir_step cfg m wait) (is_init (red_inactive m) fns s0) z1 → rtc (ir_step cfg m wait) z1 z2 →
  rtc (ystep cfg) (is_server z2) s3 →
  ry_insts (is_server z1) !! n = Some x → AllSendable x →
  in_calls (rx_inst x) !! i = Some ci → Creates ci v → r ∈ cl_got ci → Good r →
  HandedOut z1 z2 (r_result r) → DeactivationsStored m z2 →
  ry_insts (is_server z2) !! m = Some y → AllSendable y →
  (∀ n' x' i' c', ry_insts s3 !! n' = Some x' → in_calls (rx_inst x') !! i' = Some c' → SetsState c' (r_result r) true →
     ∃ x1 c1, ry_insts (is_server z1) !! n' = Some x1 ∧ AllSendable x1 ∧ in_calls (rx_inst x1) !! i' = Some c1 ∧ AllGood c1) →
  ry_insts (is_server z2) !! w = Some x2 → CaughtUp (is_server z2) x2 → ry_insts s3 !! w = Some x3 →
  SnapshotBetween cfg (rx_inst x2) (rx_inst x3) ts →
  ∀ t, t ∈ ts → tk_id t ≠ r_result r.
Proof.
  intros Hr0 H01 H12 H23 Hx Ha Hi Hc Hin Hg (q & k & ma & Hn & Hrec & Hst & Htk) Hds Hy Hay Hoth Hx2 Hcu Hx3 Hs.
  destruct (streamed_call _ _ _ _ (ystep_keeps cfg m) _ z1 z2 fns s0 q k ma (r_result r) eq_refl H01 H12 Hn Hst Hrec Htk)
    as (j & c & Hq & Hj & Hcj & [u Hu] & Hret).
  apply is_server_runs in H01. apply is_server_runs in H12. cbn in H01.
  apply elem_of_list_lookup in Hu as [p Hp].
  assert (is_Some (cl_got c !! p)) as [r' Hr'].
  { apply lookup_lt_is_Some. destruct Hret as [_ ->]. by eapply lookup_lt_Some. }
  assert (Hcj' : in_calls (rx_inst y) !! j = Some c) by (unfold red_calls in Hcj; by rewrite Hy in Hcj).
  eapply (red_deactivated_not_offered cfg (is_server z1) (is_server z2) s3 n x i ci v r m y j c p u r' w x2 x3 ts); try done.
  - by eapply rtc_transitive.
  - intros y1 Hy1. unfold red_calls in Hj. by rewrite Hy1 in Hj.
  - eapply Hds; [exact Hq|exact Hcj|]. by eapply elem_of_list_lookup_2.
Qed.

Lemma mem_alongside cfg wait fns s0 z :
  rtc (im_step cfg wait) (is_init mem_inactive fns s0) z →
  rtc (mstep cfg) s0 (is_server z) ∧ v_later wait (v_init fns (mem_inactive s0)) (is_inv z).
Proof.
  intros H. split; [exact (is_server_runs _ _ _ _ _ _ H)|].
  exact (is_inv_runs _ _ _ _ (mstep_keeps cfg) _ _ H (is_init_ok _ _ fns s0)).
Qed.
Lemma red_alongside cfg m wait fns s0 z :
  rtc (ir_step cfg m wait) (is_init (red_inactive m) fns s0) z →
  rtc (ystep cfg) s0 (is_server z) ∧ v_later wait (v_init fns (red_inactive m s0)) (is_inv z).
Proof.
  intros H. split; [exact (is_server_runs _ _ _ _ _ _ H)|].
  exact (is_inv_runs _ _ _ _ (ystep_keeps cfg m) _ _ H (is_init_ok _ _ fns s0)).
Qed.

(** Runs, for examples. *)
Lemma is_lift {St} (step : St → St → Prop) calls (inactive : St → gset string) wait s s' v cs :
  rtc step s s' → v_panic v = false → v_inactive v = inactive s →
  rtc (is_step step calls inactive wait) (ISys s v cs) (ISys s' (with_inactive v (inactive s')) cs).
Proof.
  intros H Hp. revert v Hp. induction H as [s|s s1 s2 Hs _ IH]; intros v Hp E.
  - rewrite <-E. destruct v. apply rtc_refl.
  - eapply rtc_l; [by eapply IS_server|].
    refine (eq_rect _ (λ x, rtc _ _ (ISys s2 x cs)) (IH (with_inactive v (inactive s1)) Hp eq_refl) _ _). done.
Qed.
