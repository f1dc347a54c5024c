(** Lemmas about Model/MemRepl.v and Model/Queues.v. *)
From Coq Require Import Ascii String ZArith NArith Lia ZifyBool ZifyN Sorting.
From stdpp Require Import prelude strings.
From Verif.Model Require Import GoStrings Types MemRepl Queues.
From Verif.Spec Require Import StringSpec IdSpec.
From Verif.Proofs Require Import StringLemmas.
Local Open Scope Z_scope.

Lemma id_text_inj p q :
  0 <= p.1 → 0 <= p.2 → 0 <= q.1 → 0 <= q.2 → id_text p = id_text q → p = q.
Proof.
  destruct p, q. simpl. intros. destruct (format_id_inj z z0 z1 z2) as [-> ->]; auto.
Qed.

Lemma LexLt_trans a b c : LexLt a b → LexLt b c → LexLt a c.
Proof. unfold LexLt. lia. Qed.

Lemma increasing_nodup ids : IncreasingIds ids → NoDup ids.
Proof.
  intros (ps & -> & Hs & Hp). induction Hs as [|p ps Hs IH Hall]; simpl; [constructor|].
  apply Forall_cons in Hp as [Hp Hps]. constructor; [|auto].
  intros (q & Heq & Hq)%elem_of_list_fmap.
  rewrite Forall_forall in Hall, Hps. specialize (Hall q Hq). specialize (Hps q Hq).
  apply id_text_inj in Heq; try tauto. subst q. unfold LexLt in Hall. lia.
Qed.

(** The pair a store state would issue. *)
Definition st_pair (st : mem_state) : Z * Z := (unix_secs (mr_ts st), mr_count st).

Lemma get_repl_id_pair st clk rid st' :
  get_repl_id st clk = (rid, st') → rid = id_text (st_pair st').
Proof.
  unfold get_repl_id. cbv zeta. by intros [= <- <-].
Qed.

Lemma get_repl_id_step st clk rid st' :
  get_repl_id st clk = (rid, st') → unix_secs (mr_ts st) <= unix_secs clk.1 →
  unix_secs clk.1 <= unix_secs clk.2 → 0 <= unix_secs (mr_ts st) → 0 <= mr_count st →
  LexLt (st_pair st) (st_pair st') ∧ 0 <= unix_secs (mr_ts st') ∧ 0 <= mr_count st' ∧
  unix_secs (mr_ts st') <= unix_secs clk.2.
Proof.
  unfold get_repl_id. cbv zeta. intros [= _ <-] H1 H2 H3 H4. unfold st_pair, LexLt.
  destruct (unix_secs clk.1 =? unix_secs (mr_ts st)) eqn:E; simpl; split_and!; lia.
Qed.

Lemma mem_send1_eq st u clk u' r st' :
  mem_send1 st u clk = (u', r, st') →
  get_repl_id st clk = (r_result r, st') ∧ r_err r = None ∧
  u' = match u_cmd u with CmdTicket => Update CmdTicket (r_result r) (u_value u) | _ => u end.
Proof.
  unfold mem_send1. destruct (get_repl_id st clk) as [rid st1]. intros [= <- <- <-]. simpl.
  split_and!; try done. by destruct u as [[] ? ?].
Qed.

Lemma monotone_cons t0 c cs :
  MonotoneSecs t0 (c :: cs) →
  unix_secs t0 <= unix_secs c.1 ∧ unix_secs c.1 <= unix_secs c.2 ∧ MonotoneSecs c.2 cs.
Proof.
  unfold MonotoneSecs. simpl. intros H.
  apply Sorted_inv in H as [H H1]. apply HdRel_inv in H1.
  pose proof (Sorted_inv H) as [H2 H3]. apply HdRel_inv in H3. done.
Qed.

Lemma monotone_weaken t t' cs :
  MonotoneSecs t' cs → unix_secs t <= unix_secs t' → MonotoneSecs t cs.
Proof.
  unfold MonotoneSecs. simpl. intros H Hle. apply Sorted_inv in H as [H1 H2].
  constructor; [done|]. destruct (map unix_secs _); constructor.
  apply HdRel_inv in H2. lia.
Qed.

Lemma unix_secs_mono a b : a <= b → unix_secs a <= unix_secs b.
Proof. unfold unix_secs, giga. intros. apply Z.div_le_mono; lia. Qed.

Lemma monotone_secs t0 cs : Monotone t0 cs → MonotoneSecs t0 cs.
Proof.
  unfold Monotone, MonotoneSecs. generalize (t0 :: mbind (λ c : instant * instant, [c.1; c.2]) cs).
  induction 1 as [|x l H1 IH H2]; simpl; constructor; [done|].
  destruct l; simpl; constructor. apply unix_secs_mono. by apply HdRel_inv in H2.
Qed.

(** C08, with the bookkeeping needed for several batches in a row. *)
Lemma mem_send_increasing us : ∀ st uo rs st',
  mem_send st us = (uo, rs, st') → MonotoneSecs (mr_ts st) us.*2 → 0 <= unix_secs (mr_ts st) → 0 <= mr_count st →
  (∃ ps, map r_result rs = map id_text ps ∧ StronglySorted LexLt ps ∧
         Forall (λ p, 0 <= p.1 ∧ 0 <= p.2) ps ∧ Forall (LexLt (st_pair st)) ps) ∧
  Forall (λ r, r_err r = None) rs.
Proof.
  induction us as [|[u clk] us IH]; intros st uo rs st' Hs Hm H0 H1.
  - injection Hs as <- <- <-. split; [|constructor]. exists []. split_and!; try done; constructor.
  - cbn [mem_send] in Hs. destruct (mem_send1 st u clk) as [[u1 r1] st1] eqn:E1.
    destruct (mem_send st1 us) as [[uo1 rs1] st2] eqn:E2. injection Hs as <- <- <-.
    apply mem_send1_eq in E1 as (Eg & Hr & _).
    apply monotone_cons in Hm as (Hm1 & Hm2 & Hm3).
    destruct (get_repl_id_step _ _ _ _ Eg Hm1 Hm2 H0 H1) as (Hlt & H0' & H1' & Hle).
    apply get_repl_id_pair in Eg.
    destruct (IH st1 uo1 rs1 st2 E2) as ((ps & Hps & Hsort & Hpos & Hgt) & Herr); try done.
    { by eapply monotone_weaken. }
    split; [|by constructor].
    exists (st_pair st1 :: ps). simpl. rewrite Hps, Eg. split_and!; try done.
    + by constructor.
    + by constructor.
    + constructor; [done|]. eapply Forall_impl; [exact Hgt|]. intros p. by apply LexLt_trans.
Qed.

Lemma mem_send_results_increasing t0 us uo rs st' :
  mem_send (mem_new t0) us = (uo, rs, st') → 0 <= unix_secs t0 → MonotoneSecs t0 us.*2 →
  IncreasingIds (map r_result rs).
Proof.
  intros Hs H0 Hm. destruct (mem_send_increasing us _ _ _ _ Hs Hm H0) as ((ps & H1 & H2 & H3 & _) & _).
  - done.
  - by exists ps.
Qed.

Lemma mem_send_length us : ∀ st uo rs st',
  mem_send st us = (uo, rs, st') → length uo = length us ∧ length rs = length us.
Proof.
  induction us as [|[u clk] us IH]; intros st uo rs st' Hs; cbn [mem_send] in Hs.
  - injection Hs as <- <- <-. done.
  - destruct (mem_send1 st u clk) as [[u1 r1] st1]. destruct (mem_send st1 us) as [[uo1 rs1] st2] eqn:E2.
    injection Hs as <- <- <-. destruct (IH _ _ _ _ E2). simpl. lia.
Qed.

Lemma mem_send_app us1 us2 st :
  mem_send st (us1 ++ us2) =
    let '(a1, r1, st1) := mem_send st us1 in
    let '(a2, r2, st2) := mem_send st1 us2 in (a1 ++ a2, r1 ++ r2, st2).
Proof.
  revert st. induction us1 as [|[u clk] us1 IH]; intros st; cbn [mem_send app].
  - by destruct (mem_send st us2) as [[? ?] ?].
  - destruct (mem_send1 st u clk) as [[u1 r1] st1]. rewrite IH.
    destruct (mem_send st1 us1) as [[a1 r1'] st1']. by destruct (mem_send st1' us2) as [[? ?] ?].
Qed.

(** What one request gets from the in-memory store. *)
Definition answered (rq : request) (d : nat * response) (u : update) : Prop :=
  d.1 = rq_chan rq ∧ r_err d.2 = None ∧
  u = match u_cmd (rq_update rq) with
      | CmdTicket => Update CmdTicket (r_result d.2) (u_value (rq_update rq))
      | _ => rq_update rq
      end.

Lemma mem_batch_answers b : ∀ clks st us ds st',
  length clks = length b → mem_batch st b clks = (us, ds, st') →
  ∃ l, ds = Some l ∧ Forall3 answered b l us.
Proof.
  induction b as [|rq b IH]; intros clks st us ds st' Hl Hb; unfold mem_batch in Hb.
  - injection Hb as <- <- <-. exists []. split; [done|constructor].
  - destruct clks as [|clk clks]; [done|]. cbn [zip zip_with map mem_send] in Hb.
    destruct (mem_send1 st (rq_update rq) clk) as [[u1 r1] st1] eqn:E1.
    destruct (mem_send st1 (zip (map rq_update b) clks)) as [[uo1 rs1] st2] eqn:E2.
    injection Hb as <- <- <-. injection Hl as Hl.
    destruct (IH clks st1 uo1 (distribute b rs1) st2 Hl) as (l & Hd & HF).
    { unfold mem_batch. by rewrite E2. }
    rewrite Hd. eexists. split; [done|]. constructor; [|done].
    apply mem_send1_eq in E1 as (_ & Hr & Hu). unfold answered. by simpl.
Qed.

Lemma Forall3_app' {A B C} (P : A → B → C → Prop) l1 k1 m1 l2 k2 m2 :
  Forall3 P l1 k1 m1 → Forall3 P l2 k2 m2 → Forall3 P (l1 ++ l2) (k1 ++ k2) (m1 ++ m2).
Proof. induction 1; simpl; [done|]. constructor; auto. Qed.

Lemma mem_exec_answers bs : ∀ st us ds st',
  mem_exec st bs = (us, ds, st') →
  ∃ l, ds = Some l ∧ Forall3 answered (concat (map (map fst) bs)) l us.
Proof.
  induction bs as [|b bs IH]; intros st us ds st' Hb; simpl in Hb.
  - injection Hb as <- <- <-. exists []. split; [done|constructor].
  - destruct (mem_batch st b.*1 b.*2) as [[us1 ds1] st1] eqn:E1.
    destruct (mem_exec st1 bs) as [[us2 ds2] st2] eqn:E2. injection Hb as <- <- <-.
    assert (Hlen : length b.*2 = length b.*1) by (by rewrite !fmap_length).
    destruct (mem_batch_answers _ _ _ _ _ _ Hlen E1) as (l1 & -> & H1).
    destruct (IH _ _ _ _ E2) as (l2 & -> & H2).
    eexists. split; [done|]. simpl. by apply Forall3_app'.
Qed.

(** mem_exec is one long mem_send. *)
Lemma mem_exec_send bs : ∀ st us ds st',
  mem_exec st bs = (us, ds, st') →
  ∃ rs, mem_send st (map (λ rc, (rq_update rc.1, rc.2)) (concat bs)) = (us, rs, st') ∧
        ∀ l, ds = Some l → l.*2 = rs.
Proof.
  induction bs as [|b bs IH]; intros st us ds st' Hb; simpl in Hb.
  - injection Hb as <- <- <-. exists []. split; [done|]. by intros l [= <-].
  - destruct (mem_batch st b.*1 b.*2) as [[us1 ds1] st1] eqn:E1.
    destruct (mem_exec st1 bs) as [[us2 ds2] st2] eqn:E2. injection Hb as <- <- <-.
    destruct (IH _ _ _ _ E2) as (rs2 & Hs2 & Hl2).
    unfold mem_batch in E1.
    assert (zip (map rq_update b.*1) b.*2 = map (λ rc, (rq_update rc.1, rc.2)) b) as Hz.
    { clear. induction b as [|[] b IH]; simpl; [done|]. by rewrite <-IH. }
    rewrite Hz in E1. clear Hz.
    destruct (mem_send st (map (λ rc, (rq_update rc.1, rc.2)) b)) as [[a1 r1] st1'] eqn:Es1.
    injection E1 as -> Hd ->.
    exists (r1 ++ rs2). split.
    + simpl. rewrite map_app, mem_send_app, Es1, Hs2. done.
    + destruct ds1 as [l1|], ds2 as [l2|]; try done. intros l [= <-].
      rewrite fmap_app. f_equal; [|by apply Hl2].
      assert (Hdist : ∀ rqs rs l, distribute rqs rs = Some l → l.*2 = rs).
      { clear. induction rqs as [|q rqs IH]; intros [|r rs] l; simpl; intros H; simplify_eq; try done.
        destruct (distribute rqs rs) eqn:E; simplify_eq. simpl. f_equal. auto. }
      by eapply Hdist.
Qed.

(** ** Batching *)

Lemma q_flush_concat s : concat (q_batches (q_flush s)) ++ q_pending (q_flush s) =
                         concat (q_batches s) ++ q_pending s.
Proof.
  unfold q_flush. destruct s as [[|r p] bs]; simpl; [done|].
  rewrite concat_app. simpl. by rewrite !app_nil_r.
Qed.

Lemma q_step_concat thr s e :
  concat (q_batches (q_step thr s e)) ++ q_pending (q_step thr s e) =
  concat (q_batches s) ++ q_pending s ++ match e with QReq r => [r] | QTimeout => [] end.
Proof.
  destruct e as [r|]; simpl.
  - destruct (thr <=? _); [rewrite q_flush_concat|]; simpl; by rewrite ?app_assoc.
  - rewrite q_flush_concat. by rewrite app_nil_r.
Qed.

Lemma q_run_concat thr es : ∀ s,
  concat (q_batches (q_run thr s es)) ++ q_pending (q_run thr s es) =
  concat (q_batches s) ++ q_pending s ++ q_accepted es.
Proof.
  induction es as [|e es IH]; intros s; simpl.
  - by rewrite app_nil_r.
  - unfold q_run in *. simpl. rewrite IH. rewrite app_assoc, q_step_concat.
    rewrite <-!app_assoc. do 2 f_equal. by destruct e.
Qed.

Definition batch_ok (thr : Z) (b : list request) : Prop :=
  b ≠ [] ∧ Z.of_nat (length b) <= Z.max 1 thr.

Definition q_inv (thr : Z) (s : qstate) : Prop :=
  Forall (batch_ok thr) (q_batches s) ∧
  (q_pending s = [] ∨ Z.of_nat (length (q_pending s)) < Z.max 1 thr).

Lemma q_flush_inv thr s :
  Forall (batch_ok thr) (q_batches s) → Z.of_nat (length (q_pending s)) <= Z.max 1 thr →
  q_inv thr (q_flush s).
Proof.
  unfold q_flush, q_inv. destruct s as [[|r p] bs]; simpl; intros HF Hl; [auto|].
  split; [|by left]. apply Forall_app. split; [done|]. apply Forall_singleton. split; [done|].
  simpl. lia.
Qed.

Lemma q_step_inv thr s e : q_inv thr s → q_inv thr (q_step thr s e).
Proof.
  intros [HF Hp]. destruct e as [r|]; simpl.
  - assert (Hlen : Z.of_nat (length (q_pending s ++ [r])) <= Z.max 1 thr).
    { rewrite app_length. simpl. destruct Hp as [->|Hp]; simpl; lia. }
    destruct (thr <=? Z.of_nat (length (q_pending s ++ [r]))) eqn:E.
    + by apply q_flush_inv.
    + split; [done|]. right. simpl. lia.
  - apply q_flush_inv; [done|]. destruct Hp as [->|Hp]; simpl; lia.
Qed.

Lemma q_run_inv thr es : ∀ s, q_inv thr s → q_inv thr (q_run thr s es).
Proof.
  induction es as [|e es IH]; intros s Hs; simpl; [done|].
  apply IH. by apply q_step_inv.
Qed.

Lemma q_init_inv thr : q_inv thr q_init.
Proof. split; [constructor|by left]. Qed.

(** ** Ids *)
Lemma id_text_ok t k :
  0 <= t <= max_i64 → 0 <= k →
  valid_ticket_id (id_text (t, k)) = true ∧ WellFormedId (id_text (t, k)) ∧ id_time (id_text (t, k)) = t.
Proof.
  intros Ht Hk. assert (WellFormedId (id_text (t, k))) as Hw by (apply formatted_id_wf; simpl; lia).
  split_and!; [|done|].
  - by apply valid_ticket_id_spec, wf_has_dash.
  - unfold id_text. simpl. by apply id_time_format.
Qed.

Lemma get_repl_id_ok st clk rid st' :
  get_repl_id st clk = (rid, st') → 0 <= unix_secs (mr_ts st) <= max_i64 →
  0 <= unix_secs clk.2 <= max_i64 → 0 <= mr_count st →
  valid_ticket_id rid = true ∧ WellFormedId rid ∧
  ((unix_secs clk.1 = unix_secs (mr_ts st) ∧ id_time rid = unix_secs clk.1) ∨
   (unix_secs clk.1 ≠ unix_secs (mr_ts st) ∧ id_time rid = unix_secs clk.2)).
Proof.
  intros Hg H1 H2 H3. apply get_repl_id_pair in Hg as Hp. subst rid.
  unfold get_repl_id in Hg. cbv zeta in Hg. injection Hg as _ Hst.
  unfold st_pair. rewrite <-Hst.
  destruct (unix_secs clk.1 =? unix_secs (mr_ts st)) eqn:E; cbn [mr_ts mr_count].
  - destruct (id_text_ok (unix_secs (mr_ts st)) (mr_count st + 1)) as (Ha & Hb & Hc); [done|lia|].
    split_and!; [done|done|]. left. lia.
  - destruct (id_text_ok (unix_secs clk.2) 0) as (Ha & Hb & Hc); [done|done|].
    split_and!; [done|done|]. right. lia.
Qed.

Lemma monotone_start t0 cs : Monotone t0 cs → MonotoneSecs t0 cs.
Proof. apply monotone_secs. Qed.

Lemma mem_ids_increasing t0 us uo rs st' :
  mem_send (mem_new t0) us = (uo, rs, st') → 0 <= t0 → Monotone t0 us.*2 →
  IncreasingIds (map r_result rs) ∧ NoDup (map r_result rs).
Proof.
  intros H1 H2 H3. assert (IncreasingIds (map r_result rs)) as Hi.
  { eapply mem_send_results_increasing; [done| |by apply monotone_secs].
    unfold unix_secs, giga. apply Z.div_pos; lia. }
  split; [done|by apply increasing_nodup].
Qed.

Lemma mem_ids_unique_secs t0 us uo rs st' :
  mem_send (mem_new t0) us = (uo, rs, st') → 0 <= unix_secs t0 → MonotoneSecs t0 us.*2 →
  NoDup (map r_result rs).
Proof. intros. by eapply increasing_nodup, mem_send_results_increasing. Qed.

Lemma clock_step_back :
  ¬ (∀ t0 us uo rs st',
       mem_send (mem_new t0) us = (uo, rs, st') → 0 <= t0 → NoDup (map r_result rs)).
Proof.
  intros H.
  set (us := map (λ s, (Update CmdTicket ""%string ""%string, (s * giga, s * giga))) [10; 11; 10; 10]).
  destruct (mem_send (mem_new (10 * giga)) us) as [[uo rs] st'] eqn:E.
  specialize (H _ _ _ _ _ E ltac:(done)).
  vm_compute in E. injection E as <- <- <-.
  vm_compute in H. apply NoDup_cons in H as [H _]. apply H.
  do 2 apply elem_of_list_further. apply elem_of_list_here.
Qed.

Lemma unanchored : ¬ (∀ id, valid_ticket_id id = true → WellFormedId id).
Proof.
  intros H. destruct (H "x-"%string) as (a & b & Heq & Ha & _).
  - by vm_compute.
  - destruct a as [|c a]; simpl in Heq; [done|]. injection Heq as <- _.
    apply Forall_inv in Ha. vm_compute in Ha.
    repeat (apply elem_of_cons in Ha as [Ha|Ha]; [discriminate Ha|]). by apply elem_of_nil in Ha.
Qed.

Lemma batching_exact thr es :
  concat (q_batches (q_run thr q_init es)) ++ q_pending (q_run thr q_init es) = q_accepted es ∧
  Forall (λ b, b ≠ [] ∧ Z.of_nat (length b) <= Z.max 1 thr) (q_batches (q_run thr q_init es)) ∧
  (q_pending (q_run thr q_init es) = [] ∨
   Z.of_nat (length (q_pending (q_run thr q_init es))) < Z.max 1 thr).
Proof.
  split; [exact (q_run_concat thr es q_init)|]. exact (q_run_inv thr es q_init (q_init_inv thr)).
Qed.

Lemma q_accepted_app es1 es2 : q_accepted (es1 ++ es2) = q_accepted es1 ++ q_accepted es2.
Proof. induction es1 as [|[] es1 IH]; simpl; rewrite ?IH; done. Qed.

Lemma q_flush_pending s : q_pending (q_flush s) = [].
Proof. unfold q_flush. by destruct s as [[|] ?]. Qed.

Lemma timeout_flushes thr es :
  concat (q_batches (q_run thr q_init (es ++ [QTimeout]))) = q_accepted es.
Proof.
  pose proof (q_run_concat thr (es ++ [QTimeout]) q_init) as H. simpl in H.
  rewrite q_accepted_app in H. simpl in H. rewrite app_nil_r in H. rewrite <-H.
  assert (q_pending (q_run thr q_init (es ++ [QTimeout])) = []) as ->; [|by rewrite app_nil_r].
  unfold q_run. rewrite foldl_app. simpl. apply q_flush_pending.
Qed.

Lemma own_answer thr es bs t0 us ds st' :
  map (map fst) bs = q_batches (q_run thr q_init es) →
  mem_exec (mem_new t0) bs = (us, ds, st') →
  ∃ l, ds = Some l ∧
    Forall3 (λ r d u,
      d.1 = rq_chan r ∧ r_err d.2 = None ∧
      u = match u_cmd (rq_update r) with
          | CmdTicket => Update CmdTicket (r_result d.2) (u_value (rq_update r))
          | _ => rq_update r
          end) (concat (q_batches (q_run thr q_init es))) l us.
Proof. intros <-. apply mem_exec_answers. Qed.
