(** Invariants of one instance that do not depend on the store (Model/System.v). *)
From Coq Require Import Ascii String ZArith NArith Lia ZifyBool ZifyN.
From stdpp Require Import prelude strings gmap relations.
From Verif.Model Require Import GoStrings Types Proto Cache Replica Handlers MemRepl Queues System.
From Verif.Proofs Require Import MemLemmas HistoryLemmas.
Local Open Scope nat_scope.

(** The batch after one round of the select. *)
Lemma after_select_cases {S} (begin : list request → S) thr b e :
  let l := b ++ match e with QReq r => [r] | QTimeout => [] end in
  (after_select begin (q_step thr (QState b []) e) = OCollect l ∧ (l = [] ∨ Z.of_nat (length l) < thr)%Z) ∨
  (l ≠ [] ∧ after_select begin (q_step thr (QState b []) e) = OStore (begin l)).
Proof.
  destruct e as [r|]; cbn [q_step q_pending q_batches].
  - destruct (Z.leb_spec thr (Z.of_nat (length (b ++ [r])))) as [Hl|Hl].
    + right. unfold q_flush. cbn [q_pending q_batches]. destruct (b ++ [r]) eqn:E; [by destruct b|]. done.
    + left. split; [done|]. by right.
  - rewrite app_nil_r. unfold q_flush. cbn [q_pending q_batches]. destruct b as [|q b]; [left|right].
    + split; [done|by left].
    + done.
Qed.

Local Arguments q_step : simpl never.
Local Arguments after_select : simpl never.

Section inst.
Context {S : Type} (begin : list request → S) (infl : S → list request) (undel : S → list (nat * response)).

(** Requests accepted from the handlers but not yet written. *)
Definition out_reqs (o : out_pc S) : list request :=
  match o with OCollect b => b | OStore s => infl s | _ => [] end.

(** Results not yet handed out. *)
Definition out_results (o : out_pc S) : list (nat * response) :=
  match o with OStore s => undel s | ODeliver l => l | _ => [] end.

Definition of_call (i : nat) (h : list (request * response)) : list (request * response) :=
  filter (λ e, rq_chan e.1 = i) h.
Definition reqs_of (i : nat) (l : list request) : list request := filter (λ q, rq_chan q = i) l.
Definition results_of (i : nat) (l : list (nat * response)) : list (nat * response) := filter (λ d, d.1 = i) l.

Lemma reqs_of_app i l1 l2 : reqs_of i (l1 ++ l2) = reqs_of i l1 ++ reqs_of i l2.
Proof. apply filter_app. Qed.
Lemma results_of_app i l1 l2 : results_of i (l1 ++ l2) = results_of i l1 ++ results_of i l2.
Proof. apply filter_app. Qed.
Lemma of_call_app i l1 l2 : of_call i (l1 ++ l2) = of_call i l1 ++ of_call i l2.
Proof. apply filter_app. Qed.
Lemma of_call_reqs i h : (of_call i h).*1 = reqs_of i h.*1.
Proof.
  unfold of_call, reqs_of. induction h as [|[q r] h IH]; [done|]. rewrite fmap_cons, !filter_cons. cbn [fst].
  destruct (decide (rq_chan q = i)); cbn [fmap list_fmap fst]; by rewrite ?IH.
Qed.

(** One call: what it has sent is what has been written or is on its way, and the
    answers to what has been written are those it has received, those in its
    channel and those about to be handed out. *)
Record call_ok (cfg : config) (h : list (request * response)) (o : out_pc S) (i : nat) (cl : call) : Prop := {
  ok_issues : issues cfg (cl_ups cl) (cl_cap cl);
  ok_sent : cl_sent cl <= length (cl_ups cl);
  ok_reqs : map rq_update (reqs_of i (h.*1 ++ out_reqs o)) = take (cl_sent cl) (cl_ups cl);
  ok_resps : (of_call i h).*2 = cl_got cl ++ cl_buf cl ++ (results_of i (out_results o)).*2;
  ok_cap0 : cl_cap cl = 0 → cl_buf cl = []
}.

Record inst_ok (cfg : config) (h : list (request * response)) (x : inst S) : Prop := {
  ok_calls : ∀ i cl, in_calls x !! i = Some cl → call_ok cfg h (in_out x) i cl;
  ok_chans : Forall (λ q, rq_chan q < length (in_calls x)) (h.*1 ++ out_reqs (in_out x));
  ok_results : Forall (λ d, d.1 < length (in_calls x)) (out_results (in_out x));
  ok_alive : in_out x ≠ OCrash;
  ok_cache : in_cache x = hev_run cfg empty_cache (in_events x);
  ok_fits : hev_fits cfg empty_cache (in_events x)
}.

(** Updates read from the store. *)
Definition poll_list (p : poll_pc) : list update := match p with PGet l | PPush l => l | PCrash => [] end.
Definition read_so_far (x : inst S) : list update :=
  hev_updates (in_events x) ++ in_stream x ++ poll_list (in_poll x).

Lemma call_ok_counts cfg h o i cl :
  call_ok cfg h o i cl →
  length (cl_got cl) + length (cl_buf cl) + length (results_of i (out_results o)) + length (reqs_of i (out_reqs o)) = cl_sent cl.
Proof.
  intros [_ Hs Hq Hr _].
  apply (f_equal length) in Hq. rewrite map_length, reqs_of_app, app_length, take_length, <-of_call_reqs, fmap_length in Hq.
  apply (f_equal length) in Hr. rewrite !app_length, !fmap_length in Hr. lia.
Qed.

Hypothesis begin_infl : ∀ b, infl (begin b) = b.
Hypothesis begin_undel : ∀ b, undel (begin b) = [].

Lemma after_select_reqs thr b e :
  out_reqs (after_select begin (q_step thr (QState b []) e)) = b ++ match e with QReq r => [r] | QTimeout => [] end.
Proof.
  destruct (after_select_cases begin thr b e) as [[-> _]|[_ ->]]; cbn; by rewrite ?begin_infl.
Qed.
Lemma after_select_results thr b e : out_results (after_select begin (q_step thr (QState b []) e)) = [].
Proof.
  destruct (after_select_cases begin thr b e) as [[-> _]|[_ ->]]; cbn; by rewrite ?begin_undel.
Qed.
Lemma after_select_alive thr b e : after_select begin (q_step thr (QState b []) e) ≠ OCrash.
Proof. by destruct (after_select_cases begin thr b e) as [[-> _]|[_ ->]]. Qed.

(** A call only depends on what concerns it. *)
Lemma call_ok_ext cfg h o h' o' i cl :
  call_ok cfg h o i cl →
  reqs_of i (h'.*1 ++ out_reqs o') = reqs_of i (h.*1 ++ out_reqs o) →
  of_call i h' = of_call i h → results_of i (out_results o') = results_of i (out_results o) →
  call_ok cfg h' o' i cl.
Proof. intros [H1 H2 H3 H4 H5] E1 E2 E3. split; rewrite ?E1, ?E2, ?E3; done. Qed.

Lemma results_hd i d l : d.1 = i → results_of i (d :: l) = d :: results_of i l.
Proof. intros H. unfold results_of. rewrite filter_cons. by rewrite decide_True. Qed.
Lemma results_other i d l : d.1 ≠ i → results_of i (d :: l) = results_of i l.
Proof. intros H. unfold results_of. rewrite filter_cons. by rewrite decide_False. Qed.

Lemma reqs_of_none i l n : Forall (λ q, rq_chan q < n) l → n <= i → reqs_of i l = [].
Proof.
  intros H Hi. unfold reqs_of. induction H as [|q l Hq H IH]; [done|]. rewrite filter_cons.
  rewrite decide_False by lia. done.
Qed.
Lemma results_of_none i l n : Forall (λ d : nat * response, d.1 < n) l → n <= i → results_of i l = [].
Proof.
  intros H Hi. unfold results_of. induction H as [|q l Hq H IH]; [done|]. rewrite filter_cons.
  rewrite decide_False by lia. done.
Qed.

Lemma take_S_lookup {A} (l : list A) n x : l !! n = Some x → take (Datatypes.S n) l = take n l ++ [x].
Proof. apply take_S_r. Qed.

(** The step lemma. *)
Lemma lstep_ok cfg h x x' : lstep cfg begin x x' → inst_ok cfg h x → inst_ok cfg h x'.
Proof.
  destruct 1 as [cs o p st x c ev us cap Hiss|cs b p st x c ev i cl u Hi Hu|cs b p st x c ev
    |cs i r l p st x c ev cl Hi Hcap Hw|cs i r l p st x c ev cl Hi Hnr Hb|cs i r l p st x c ev cl Hi Hr|cs p st x c ev
    |cs o p st x c ev i cl r buf Hi Hw Hbuf|cs o u l st x c ev Hl|cs o st x c ev|cs o p u st c ev|cs o u l c ev
    |cs o p st c ev|cs o p st c ev orders Hfit]; intros [Hc Hch Hre Hal Hca Hfi]; simpl in *.
  - (* call *)
    split; simpl; try done.
    + intros i cl Hi. apply lookup_app_Some in Hi as [Hi|[Hle Hi]]; [auto|].
      apply list_lookup_singleton_Some in Hi as [Hi0 <-]. assert (i = length cs) as -> by lia.
      split; simpl; [done|lia| | |done].
      * by rewrite (reqs_of_none _ _ (length cs)).
      * rewrite (results_of_none _ _ (length cs)) by done. simpl.
        assert (of_call (length cs) h = []) as ->; [|done].
        apply Forall_app in Hch as [Hch _]. apply (fmap_nil_inv fst). rewrite of_call_reqs.
        by apply (reqs_of_none _ _ (length cs)).
    + rewrite app_length. eapply Forall_impl; [exact Hch|]. simpl. lia.
    + rewrite app_length. eapply Forall_impl; [exact Hre|]. simpl. lia.
  - (* accept *)
    assert (i < length cs) as Hlt by (by eapply lookup_lt_Some).
    split; simpl; try done.
    + intros j cl' Hj. destruct (decide (j = i)) as [->|Hne].
      * rewrite list_lookup_insert in Hj by done. injection Hj as <-.
        destruct (Hc i cl Hi) as [H1 H2 H3 H4 H5]. simpl in H3, H4. split; simpl; try done.
        -- apply lookup_lt_Some in Hu. lia.
        -- rewrite after_select_reqs, app_assoc, reqs_of_app, map_app, H3. rewrite (take_S_lookup _ _ u) by done. f_equal.
           unfold reqs_of. rewrite filter_cons. by rewrite decide_True.
        -- by rewrite after_select_results.
      * rewrite list_lookup_insert_ne in Hj by done. apply (call_ok_ext _ _ _ _ _ _ _ (Hc j cl' Hj)); [|done|].
        -- rewrite after_select_reqs, app_assoc, reqs_of_app. simpl.
           unfold reqs_of at 2. rewrite filter_cons. rewrite decide_False by (simpl; done). by rewrite app_nil_r.
        -- by rewrite after_select_results.
    + rewrite after_select_reqs, app_assoc, insert_length. apply Forall_app. split; [done|]. by repeat constructor.
    + rewrite after_select_results. constructor.
    + apply after_select_alive.
  - (* timeout *)
    split; simpl; try done.
    + intros j cl' Hj. apply (call_ok_ext _ _ _ _ _ _ _ (Hc j cl' Hj)); [|done|].
      * by rewrite after_select_reqs, app_nil_r.
      * by rewrite after_select_results.
    + by rewrite after_select_reqs, app_nil_r.
    + rewrite after_select_results. constructor.
    + apply after_select_alive.
  - (* deliver direct *)
    assert (i < length cs) as Hlt by (by eapply lookup_lt_Some).
    apply Forall_cons in Hre as [_ Hre].
    split; simpl; try done; rewrite ?insert_length; try done.
    intros j cl' Hj. destruct (decide (j = i)) as [->|Hne].
    + rewrite list_lookup_insert in Hj by done. injection Hj as <-.
      destruct (Hc i cl Hi) as [H1 H2 H3 H4 H5]. simpl in H3, H4. split; simpl; try done.
      rewrite H4, H5 by done. simpl. rewrite results_hd by done. simpl. by rewrite <-app_assoc.
    + rewrite list_lookup_insert_ne in Hj by done. apply (call_ok_ext _ _ _ _ _ _ _ (Hc j cl' Hj)); [done|done|].
      simpl. rewrite (results_other j (i, r)) by (simpl; congruence). done.
  - (* deliver buffered *)
    assert (i < length cs) as Hlt by (by eapply lookup_lt_Some).
    apply Forall_cons in Hre as [_ Hre].
    split; simpl; try done; rewrite ?insert_length; try done.
    intros j cl' Hj. destruct (decide (j = i)) as [->|Hne].
    + rewrite list_lookup_insert in Hj by done. injection Hj as <-.
      destruct (Hc i cl Hi) as [H1 H2 H3 H4 H5]. simpl in H3, H4. split; simpl; try done.
      * rewrite H4. simpl. rewrite results_hd by done. simpl. by rewrite <-app_assoc.
      * intros H. rewrite H in Hb. lia.
    + rewrite list_lookup_insert_ne in Hj by done. apply (call_ok_ext _ _ _ _ _ _ _ (Hc j cl' Hj)); [done|done|].
      simpl. rewrite (results_other j (i, r)) by (simpl; congruence). done.
  - (* deliver to a closed channel *)
    exfalso. pose proof (call_ok_counts _ _ _ _ _ (Hc i cl Hi)) as Hn. destruct Hr as [Hr1 Hr2].
    simpl in Hn. rewrite results_hd in Hn by done. simpl in Hn. lia.
  - split; simpl; try done.
    intros j cl' Hj. by apply (call_ok_ext _ _ _ _ _ _ _ (Hc j cl' Hj)).
  - (* receive *)
    assert (i < length cs) as Hlt by (by eapply lookup_lt_Some).
    split; simpl; try done; rewrite ?insert_length; try done.
    intros j cl' Hj. destruct (decide (j = i)) as [->|Hne].
    + rewrite list_lookup_insert in Hj by done. injection Hj as <-.
      destruct (Hc i cl Hi) as [H1 H2 H3 H4 H5]. simpl in H3, H4. split; simpl; try done.
      * rewrite H4, Hbuf. by rewrite <-app_assoc.
      * intros H. by rewrite H5 in Hbuf.
    + rewrite list_lookup_insert_ne in Hj by done. auto.
  - split; simpl; done.
  - split; simpl; done.
  - (* apply *)
    split; simpl; try done.
    + rewrite hev_run_app, <-Hca. done.
    + apply hev_fits_app. split; [done|]. simpl. done.
  - split; simpl; try done.
    + rewrite hev_run_app, <-Hca. done.
    + apply hev_fits_app. split; [done|]. simpl. done.
  - split; simpl; done.
  - split; simpl; try done.
    + rewrite hev_run_app, <-Hca. done.
    + apply hev_fits_app. split; [done|]. simpl. rewrite <-Hca. done.
Qed.

Lemma lstep_read cfg x x' : lstep cfg begin x x' → read_so_far x' = read_so_far x.
Proof.
  destruct 1; unfold read_so_far; simpl; rewrite ?hev_updates_app, ?app_nil_r; simpl; rewrite <-?app_assoc; try done.
Qed.

(** History only grows. *)
Lemma lstep_events cfg x x' : lstep cfg begin x x' → ∃ es, in_events x' = in_events x ++ es.
Proof. destruct 1; simpl; try (by exists []; rewrite app_nil_r); by eexists. Qed.

Lemma lstep_calls_grow cfg x x' i cl : lstep cfg begin x x' → in_calls x !! i = Some cl →
  ∃ cl' l, in_calls x' !! i = Some cl' ∧ cl_ups cl' = cl_ups cl ∧ cl_cap cl' = cl_cap cl ∧ cl_got cl' = cl_got cl ++ l.
Proof.
  assert (Hins : ∀ (cs : list call) j c c', cs !! j = Some c → cs !! i = Some cl → cl_ups c' = cl_ups c → cl_cap c' = cl_cap c →
    (∃ l, cl_got c' = cl_got c ++ l) →
    ∃ cl' l, <[j:=c']> cs !! i = Some cl' ∧ cl_ups cl' = cl_ups cl ∧ cl_cap cl' = cl_cap cl ∧ cl_got cl' = cl_got cl ++ l).
  { intros cs j c c' Hj Hi E1 E2 [l E3]. destruct (decide (i = j)) as [->|Hne].
    - rewrite Hj in Hi. injection Hi as ->. exists c', l.
      split; [|done]. apply list_lookup_insert. by eapply lookup_lt_Some.
    - exists cl, []. rewrite list_lookup_insert_ne by done. by rewrite app_nil_r. }
  destruct 1; simpl; intros Hcl;
    try (exists cl, []; by rewrite app_nil_r);
    try (eapply Hins; [eassumption|done|done|done|]; simpl; (by exists []; rewrite app_nil_r) || by eexists).
  exists cl, []. rewrite app_nil_r. split; [|done]. by apply lookup_app_l_Some.
Qed.

Lemma lstep_calls_length cfg x x' : lstep cfg begin x x' → length (in_calls x) <= length (in_calls x').
Proof. destruct 1; simpl; rewrite ?app_length, ?insert_length; lia. Qed.
End inst.
