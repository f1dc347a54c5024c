(** A reader of the Redis stream among any number of writers. *)
From Coq Require Import Ascii String ZArith NArith Lia ZifyBool ZifyN Sorting.
From stdpp Require Import prelude strings.
From Verif.Model Require Import GoStrings Types Filter RedisRepl RedisReader.
From Verif.Spec Require Import StringSpec IdSpec RedisSpec.
From Verif.Proofs Require Import StringLemmas MemLemmas RedisLemmas RedisSendLemmas.
Local Open Scope Z_scope.

Local Instance LexLt_dec a b : Decision (LexLt a b).
Proof. unfold LexLt. apply _. Defined.

Definition After (c : sid) (p : sid * update) : Prop := LexLt c p.1.
Local Instance After_dec c p : Decision (After c p).
Proof. unfold After. apply _. Defined.
Definition Until (c : sid) (p : sid * update) : Prop := ¬ LexLt c p.1.
Local Instance Until_dec c p : Decision (Until c p).
Proof. unfold Until. apply _. Defined.

Lemma le_lt_trans (a b c : Z * Z) : a = b ∨ LexLt a b → LexLt b c → LexLt a c.
Proof. intros [->|H]; [done|]. by apply LexLt_trans. Qed.

(** ** Lists *)
Lemma filter_none {A} (P : A → Prop) `{∀ x, Decision (P x)} (l : list A) : (∀ x, x ∈ l → ¬ P x) → filter P l = [].
Proof.
  induction l as [|x l IH]; intros Hl; [done|]. rewrite filter_cons_False by (apply Hl; left).
  apply IH. intros y Hy. apply Hl. by right.
Qed.

Lemma sublist_filter_mono {A} (P : A → Prop) `{∀ x, Decision (P x)} (l k : list A) :
  l `sublist_of` k → filter P l `sublist_of` filter P k.
Proof.
  induction 1 as [|x l k Hs IH|x l k Hs IH]; [done| |].
  - rewrite !filter_cons. case_decide; [by constructor|done].
  - rewrite (filter_cons P x k). case_decide; [by constructor|done].
Qed.

Lemma filter_sublist {A} (P : A → Prop) `{∀ x, Decision (P x)} (l : list A) : filter P l `sublist_of` l.
Proof.
  induction l as [|x l IH]; [done|]. rewrite filter_cons. case_decide; [by constructor|by constructor].
Qed.

Lemma filter_filter_sub {A} (P Q : A → Prop) `{∀ x, Decision (P x)} `{∀ x, Decision (Q x)} (l : list A) :
  (∀ x, x ∈ l → P x → Q x) → filter P (filter Q l) = filter P l.
Proof.
  induction l as [|x l IH]; intros Hl; [done|].
  assert (IH' : filter P (filter Q l) = filter P l) by (apply IH; intros y Hy; apply Hl; by right).
  rewrite (filter_cons Q), (filter_cons P x l). destruct (decide (Q x)) as [HQ|HQ].
  - rewrite (filter_cons P x). by rewrite IH'.
  - rewrite decide_False; [done|]. intros HP. apply HQ, Hl; [left|done].
Qed.

Lemma StronglySorted_app_3 {A} (R : relation A) (l k : list A) :
  StronglySorted R (l ++ k) ↔ StronglySorted R l ∧ StronglySorted R k ∧ (∀ x y, x ∈ l → y ∈ k → R x y).
Proof.
  induction l as [|a l IH]; simpl.
  - split; [|tauto]. intros H. split_and!; [constructor|done|]. intros x y Hx. by apply elem_of_nil in Hx.
  - split.
    + intros H. apply StronglySorted_inv in H as [Hs Hf]. apply IH in Hs as (H1 & H2 & H3).
      rewrite Forall_app in Hf. destruct Hf as [Hf1 Hf2]. split_and!; [by constructor|done|].
      intros x y [->|Hx]%elem_of_cons Hy; [|by apply H3]. rewrite Forall_forall in Hf2. by apply Hf2.
    + intros (H1 & H2 & H3). apply StronglySorted_inv in H1 as [H1 Hf]. constructor.
      * apply IH. split_and!; [done|done|]. intros x y Hx Hy. apply H3; [by right|done].
      * apply Forall_app. split; [done|]. apply Forall_forall. intros y Hy. apply H3; [left|done].
Qed.

Lemma sublist_sorted {A} (R : relation A) (l k : list A) :
  l `sublist_of` k → StronglySorted R k → StronglySorted R l.
Proof.
  induction 1 as [|x l k Hs IH|x l k Hs IH]; [done| |]; intros H; apply StronglySorted_inv in H as [H1 H2].
  - constructor; [by apply IH|]. rewrite Forall_forall in H2 |- *. intros y Hy. apply H2.
    by eapply elem_of_submseteq, sublist_submseteq.
  - by apply IH.
Qed.

Lemma sublist_elem {A} (l k : list A) x : l `sublist_of` k → x ∈ l → x ∈ k.
Proof. intros H Hx. by eapply elem_of_submseteq, sublist_submseteq. Qed.

Lemma sublist_fst (l k : list (sid * update)) : l `sublist_of` k → l.*1 `sublist_of` k.*1.
Proof. induction 1; simpl; by constructor. Qed.

Notation SortedLog l := (StronglySorted LexLt (l.*1)) (only parsing).

Lemma sorted_app_log (l k : list (sid * update)) :
  SortedLog (l ++ k) ↔ SortedLog l ∧ SortedLog k ∧ (∀ x y, x ∈ l → y ∈ k → LexLt x.1 y.1).
Proof.
  rewrite fmap_app, StronglySorted_app_3. split; intros (H1 & H2 & H3); split_and!; try done.
  - intros x y Hx Hy. apply H3; by apply elem_of_list_fmap_1.
  - intros x y Hx Hy. apply elem_of_list_fmap in Hx as (p & -> & Hp). apply elem_of_list_fmap in Hy as (q & -> & Hq).
    by apply H3.
Qed.

Lemma split_sorted c (l : list (sid * update)) : SortedLog l → filter (Until c) l ++ filter (After c) l = l.
Proof.
  induction l as [|x l IH]; intros Hs; [done|]. simpl in Hs. apply StronglySorted_inv in Hs as [Hs Hf].
  specialize (IH Hs). rewrite Forall_forall in Hf. destruct (decide (After c x)) as [Ha|Ha].
  - rewrite filter_cons_False by (unfold Until; tauto). rewrite (filter_cons_True _ _ _ Ha).
    assert (∀ y, y ∈ l → After c y) as Hall.
    { intros y Hy. unfold After in *. eapply LexLt_trans; [done|]. apply Hf. by apply elem_of_list_fmap_1. }
    rewrite (filter_none (Until c)) by (intros y Hy HU; by apply HU, Hall). simpl.
    by rewrite filter_all by done.
  - rewrite filter_cons_True by done. rewrite (filter_cons_False _ _ _ Ha). simpl. by rewrite IH.
Qed.

Lemma sublist_join c (l a b : list (sid * update)) :
  SortedLog l → a `sublist_of` l → b `sublist_of` l → (∀ p, p ∈ a → Until c p) → (∀ p, p ∈ b → After c p) →
  a ++ b `sublist_of` l.
Proof.
  intros Hs Ha Hb Hua Hab. rewrite <-(split_sorted c l Hs). apply sublist_app.
  - rewrite <-(filter_all (Until c) a Hua). by apply sublist_filter_mono.
  - rewrite <-(filter_all (After c) b Hab). by apply sublist_filter_mono.
Qed.

(** Advancing the cursor over the first entries after it. *)
Lemma advance_split c (l b r : list (sid * update)) :
  SortedLog l → filter (After c) l = b ++ r →
  filter (After (last_id c b)) l = r ∧ filter (Until (last_id c b)) l = filter (Until c) l ++ b.
Proof.
  intros Hs Hf. pose proof (split_sorted c l Hs) as Hl. rewrite Hf in Hl.
  assert (Hs' := Hs). rewrite <-Hl in Hs'. apply sorted_app_log in Hs' as (HsA & HsBR & HAB).
  apply sorted_app_log in HsBR as (HsB & HsR & HBR).
  set (A := filter (Until c) l) in *. set (c' := last_id c b).
  assert (HA : ∀ p, p ∈ A → ¬ LexLt c p.1) by (intros p Hp; unfold A in Hp; by apply elem_of_list_filter in Hp as [? _]).
  assert (HBRc : ∀ p, p ∈ b ++ r → LexLt c p.1).
  { intros p Hp. rewrite <-Hf in Hp. apply elem_of_list_filter in Hp. apply Hp. }
  assert (Hc' : (b = [] ∧ c' = c) ∨ ∃ b' x, b = b' ++ [x] ∧ c' = x.1).
  { unfold c', last_id. destruct b as [|x b' _] using rev_ind; [by left|right].
    exists b', x. split; [done|]. by rewrite fmap_app, last_app. }
  assert (HU : ∀ p, p ∈ A ++ b → ¬ LexLt c' p.1).
  { intros p Hp. destruct Hc' as [[-> ->]|(b' & x & -> & ->)].
    - rewrite app_nil_r in Hp. by apply HA.
    - apply elem_of_app in Hp as [Hp|Hp].
      + assert (LexLt p.1 x.1) as H by (apply HAB; [done|]; set_solver). unfold LexLt in *. lia.
      + apply elem_of_app in Hp as [Hp|Hp%elem_of_list_singleton].
        * apply sorted_app_log in HsB as (_ & _ & HB).
          assert (LexLt p.1 x.1) as H by (apply HB; [done|set_solver]). unfold LexLt in *. lia.
        * rewrite Hp. apply LexLt_irrefl. }
  assert (HR : ∀ p, p ∈ r → LexLt c' p.1).
  { intros p Hp. destruct Hc' as [[-> ->]|(b' & x & -> & ->)].
    - apply HBRc. set_solver.
    - apply HBR; [set_solver|done]. }
  rewrite <-Hl, app_assoc, !filter_app. split.
  - rewrite <-filter_app, (filter_none (After c') (A ++ b)) by done. simpl. by apply filter_all.
  - rewrite <-filter_app, (filter_all (Until c') (A ++ b)) by done.
    rewrite (filter_none (Until c') r) by (intros p Hp Hn; by apply Hn, HR). by rewrite app_nil_r.
Qed.

(** ** Batches *)
Lemma log_batch_sorted us : ∀ l os,
  SortedLog (log_batch l us os) ∧ ∀ p, p ∈ log_batch l us os → LexLt l p.1.
Proof.
  induction us as [|u us IH]; intros l os; cbn [log_batch].
  - split; [constructor|]. intros p Hp. by apply elem_of_nil in Hp.
  - case_decide; [|apply IH]. destruct os as [|[ms|] os]; [| |apply IH].
    + split; [constructor|]. intros p Hp. by apply elem_of_nil in Hp.
    + destruct (IH (next_sid l ms) os) as [H1 H2]. pose proof (next_sid_gt l ms) as Hg. split.
      * simpl. constructor; [done|]. apply Forall_forall. intros i Hi.
        apply elem_of_list_fmap in Hi as (p & -> & Hp). by apply H2.
      * intros p [->|Hp]%elem_of_cons; [done|]. eapply LexLt_trans; [done|by apply H2].
Qed.

Lemma last_id_in l b : last_id l b = l ∧ b = [] ∨ ∃ b' p, b = b' ++ [p] ∧ last_id l b = p.1.
Proof.
  unfold last_id. destruct b as [|x b _] using rev_ind; [by left|right].
  exists b, x. split; [done|]. by rewrite fmap_app, last_app.
Qed.

(** ** The invariant *)
Definition LogOk (last : sid) (log : list (sid * update)) : Prop :=
  SortedLog log ∧ (∀ p, p ∈ log → LexLt (0, 0) p.1) ∧
  (∀ p, p ∈ log → p.1 = last ∨ LexLt p.1 last) ∧ (last = (0, 0) ∨ LexLt (0, 0) last).

Lemma LogOk_extend l log us os :
  LogOk l log → LogOk (last_id l (log_batch l us os)) (log ++ log_batch l us os).
Proof.
  intros (H1 & H2 & H3 & H4). destruct (log_batch_sorted us l os) as [Hs Hg].
  set (b := log_batch l us os) in *.
  assert (Hpos : ∀ p, p ∈ b → LexLt (0, 0) p.1).
  { intros p Hp. specialize (Hg p Hp). destruct H4 as [->|H4]; [done|by eapply LexLt_trans]. }
  assert (Hle : last_id l b = l ∨ LexLt l (last_id l b)).
  { destruct (last_id_in l b) as [[? _]|(b' & p & Hb & ->)]; [by left|]. right. apply Hg. rewrite Hb. set_solver. }
  split_and!.
  - apply sorted_app_log. split_and!; [done|done|]. intros x y Hx Hy. 
    exact (le_lt_trans _ _ _ (H3 x Hx) (Hg y Hy)).
  - intros p [Hp|Hp]%elem_of_app; [by apply H2|by apply Hpos].
  - intros p [Hp|Hp]%elem_of_app.
    + destruct Hle as [->|Hlt]; [by apply H3|]. right. exact (le_lt_trans _ _ _ (H3 p Hp) Hlt).
    + destruct (last_id_in l b) as [[_ Hb]|(b' & q & Hb & ->)]; [rewrite Hb in Hp; by apply elem_of_nil in Hp|].
      rewrite Hb in Hp, Hs. apply elem_of_app in Hp as [Hp|Hp%elem_of_list_singleton]; [|subst; by left].
      right. apply sorted_app_log in Hs as (_ & _ & Hbq). apply Hbq; [done|set_solver].
  - destruct (last_id_in l b) as [[-> _]|(b' & q & Hb & ->)]; [done|]. right. apply Hpos. rewrite Hb. set_solver.
Qed.

Record RInv (st : rstate) (log slog dlog : list (sid * update)) : Prop := {
  ri_log : LogOk (st_last (rs_stream st)) log;
  ri_slog : slog `sublist_of` log;
  ri_holds : Forall2 Holds (st_entries (rs_stream st)) slog;
  ri_dlog : dlog `sublist_of` log;
  ri_until : ∀ p, p ∈ dlog → Until (rs_cursor st) p;
  ri_out : rs_out st = map (λ p, as_read p.1 p.2) dlog;
  ri_cursor : rs_cursor st = (0, 0) ∨ rs_cursor st ∈ log.*1;
  ri_fine : rs_panicked st = false
}.

Lemma Forall2_filter_entries es l c :
  Forall2 Holds es l → Forall2 Holds (filter (λ e, sid_ltb c (e_id e) = true) es) (filter (After c) l).
Proof.
  induction 1 as [|e p es l [Hid Hd] Hf IH]; [constructor|].
  destruct (decide (sid_ltb c (e_id e) = true)) as [H|H]; assert (H' := H); rewrite sid_ltb_spec, Hid in H'.
  - rewrite filter_cons_True by done. rewrite (filter_cons_True (After c)) by done. by constructor.
  - rewrite filter_cons_False by done. rewrite (filter_cons_False (After c)) by done. done.
Qed.

Lemma decode_all_holds es l : Forall2 Holds es l → decode_all es = Done (map (λ p, as_read p.1 p.2) l).
Proof. induction 1 as [|e p es l [Hid Hd] Hf IH]; [done|]. simpl. by rewrite Hd, IH. Qed.

Lemma advance_holds c es l : Forall2 Holds es l → advance c es = last_id c l.
Proof.
  intros H. unfold advance, last_id. revert H. induction es as [|e es IH] using rev_ind; intros H.
  - by inversion H.
  - apply Forall2_app_inv_l in H as (l1 & l2 & Hl1 & Hl2 & ->).
    apply Forall2_cons_inv_l in Hl2 as (p & l3 & [Hid _] & H3 & ->). inversion H3; subst.
    by rewrite fmap_app, !last_app.
Qed.

Lemma poll_spec ttl count st log slog dlog :
  RInv st log slog dlog →
  let b := take count (filter (After (rs_cursor st)) slog) in
  rstep ttl count st (RPoll true) =
    RState (rs_stream st) (last_id (rs_cursor st) b) (map (λ p, as_read p.1 p.2) (dlog ++ b)) false.
Proof.
  intros HI. cbn [rstep]. rewrite (ri_fine _ _ _ _ HI). unfold redis_get.
  assert (Hx : Forall2 Holds (xread (rs_stream st) count (rs_cursor st)) (take count (filter (After (rs_cursor st)) slog))).
  { unfold xread. apply Forall2_take, Forall2_filter_entries, HI. }
  rewrite (decode_all_holds _ _ Hx), (advance_holds _ _ _ Hx). simpl. by rewrite (ri_out _ _ _ _ HI), map_app.
Qed.

Definition slog_after (ttl : Z) (slog b : list (sid * update)) (now : instant) (po : pipe_outcome) : list (sid * update) :=
  match po with
  | PipeOk _ => filter (λ p, ¬ (0 <= unix_secs now - ttl ∧ p.1.1 < unix_secs now - ttl)) (slog ++ b)
  | PipeFail _ => slog ++ b
  end.

Lemma Forall2_filter_kept thr es l :
  Forall2 Holds es l → Forall2 Holds (filter (kept thr) es) (filter (λ p, ¬ (0 <= thr ∧ p.1.1 < thr)) l).
Proof.
  induction 1 as [|e p es l [Hid Hd] Hf IH]; [constructor|].
  destruct (decide (kept thr e)) as [H|H]; assert (H' := H); unfold kept in H'; rewrite Hid in H'.
  - rewrite filter_cons_True by done. rewrite filter_cons_True by done. by constructor.
  - rewrite filter_cons_False by done. rewrite filter_cons_False by done. done.
Qed.

Lemma send_entries ttl now st po us slog :
  Forall2 Holds (st_entries (rs_stream st)) slog →
  Forall2 Holds (st_entries (redis_send ttl now (rs_stream st) po us).1)
          (slog_after ttl slog (log_batch (st_last (rs_stream st)) us (executed po)) now po).
Proof.
  intros H. destruct (redis_send_stream ttl now (rs_stream st) (executed po) us) as (new & Hn & H1 & H2).
  assert (Forall2 Holds (st_entries (rs_stream st) ++ new)
            (slog ++ log_batch (st_last (rs_stream st)) us (executed po))) as Happ by by apply Forall2_app.
  destruct po as [os|os]; simpl in *.
  - rewrite H1. by apply Forall2_filter_kept.
  - by rewrite H2.
Qed.

Lemma slog_after_sublist ttl slog b now po log :
  slog `sublist_of` log → slog_after ttl slog b now po `sublist_of` log ++ b.
Proof.
  intros H. destruct po; simpl.
  - etrans; [apply filter_sublist|]. by apply sublist_app.
  - by apply sublist_app.
Qed.

(** What a step does to the logs. *)
Definition step_logs (ttl : Z) (count : nat) (st : rstate) (e : rdev) (l : list (sid * update) * list (sid * update) * list (sid * update))
    : list (sid * update) * list (sid * update) * list (sid * update) :=
  let '(log, slog, dlog) := l in
  match e with
  | RSend now po us =>
      let b := log_batch (st_last (rs_stream st)) us (executed po) in
      (log ++ b, slog_after ttl slog b now po, dlog)
  | RPoll true => (log, slog, dlog ++ take count (filter (After (rs_cursor st)) slog))
  | RPoll false => (log, slog, dlog)
  end.

Lemma sublist_after_cursor c slog log n : slog `sublist_of` log → take n (filter (After c) slog) `sublist_of` log.
Proof.
  intros H. etrans; [apply sublist_take|]. etrans; [apply filter_sublist|done].
Qed.

Lemma step_inv ttl count st log slog dlog e :
  RInv st log slog dlog →
  let '(log', slog', dlog') := step_logs ttl count st e (log, slog, dlog) in
  RInv (rstep ttl count st e) log' slog' dlog'.
Proof.
  intros HI. destruct e as [now po us|[]].
  - cbn [step_logs rstep]. destruct HI as [H1 H2 H3 H4 H5 H6 H7 H8]. constructor; cbn [rs_stream rs_cursor rs_out rs_panicked].
    + rewrite redis_send_last. by apply LogOk_extend.
    + by apply slog_after_sublist.
    + by apply send_entries.
    + etrans; [done|]. apply sublist_inserts_r. done.
    + done.
    + done.
    + destruct H7 as [->|H7]; [by left|right]. rewrite fmap_app. apply elem_of_app. by left.
    + done.
  - cbn [step_logs]. rewrite (poll_spec ttl count st log slog dlog HI).
    destruct HI as [H1 H2 H3 H4 H5 H6 H7 H8]. set (c := rs_cursor st) in *.
    set (b := take count (filter (After c) slog)).
    assert (Hb : ∀ p, p ∈ b → After c p).
    { intros p Hp. unfold b in Hp. apply elem_of_take in Hp as (i & Hp & _). apply elem_of_list_lookup_2 in Hp.
      apply elem_of_list_filter in Hp. apply Hp. }
    assert (Hbl : b `sublist_of` log) by by apply sublist_after_cursor.
    assert (Hbs : SortedLog b) by (eapply sublist_sorted; [by apply sublist_fst|apply H1]).
    constructor; cbn [rs_stream rs_cursor rs_out rs_panicked]; try done.
    + apply (sublist_join c); try done. apply H1.
    + intros p Hp. unfold Until. destruct (last_id_in c b) as [[-> Hb0]|(b' & q & Hbq & ->)].
      * rewrite Hb0, app_nil_r in Hp. by apply H5.
      * apply elem_of_app in Hp as [Hp|Hp].
        -- specialize (H5 p Hp). assert (After c q) as Hq by (apply Hb; rewrite Hbq; set_solver).
           unfold After, Until, LexLt in *. lia.
        -- rewrite Hbq in Hp, Hbs. apply elem_of_app in Hp as [Hp|Hp%elem_of_list_singleton].
           ++ apply sorted_app_log in Hbs as (_ & _ & Hx). specialize (Hx p q Hp ltac:(set_solver)).
              intros Hy. by eapply LexLt_irrefl, LexLt_trans.
           ++ subst p. apply LexLt_irrefl.
    + destruct (last_id_in c b) as [[-> _]|(b' & q & Hbq & ->)]; [done|]. right.
      apply elem_of_list_fmap_1. eapply sublist_elem; [done|]. rewrite Hbq. set_solver.
  - cbn [step_logs rstep]. unfold redis_get. rewrite (ri_fine _ _ _ _ HI).
    destruct HI as [H1 H2 H3 H4 H5 H6 H7 H8]. constructor; simpl; try done. by rewrite app_nil_r.
Qed.

Lemma StreamOf_inv s log : StreamOf s log → RInv (reader_start s) log log [].
Proof.
  intros (H1 & H2 & H3 & H4 & H5). constructor; simpl.
  - by split_and!.
  - done.
  - done.
  - apply sublist_nil_l.
  - intros p Hp. by apply elem_of_nil in Hp.
  - done.
  - by left.
  - done.
Qed.

(** C18, first half: what is delivered is in stream order, without repeats and
    without anything that was never appended - whatever is trimmed. *)
Lemma run_inv ttl count es : ∀ st log slog dlog,
  RInv st log slog dlog →
  ∃ slog' dlog', RInv (rrun ttl count st es) (log ++ run_log (st_last (rs_stream st)) es) slog' dlog'.
Proof.
  induction es as [|e es IH]; intros st log slog dlog HI.
  - simpl. rewrite app_nil_r. by exists slog, dlog.
  - pose proof (step_inv ttl count st log slog dlog e HI) as H1.
    destruct (step_logs ttl count st e (log, slog, dlog)) as [[log1 slog1] dlog1] eqn:E.
    destruct (IH _ _ _ _ H1) as (slog' & dlog' & H2). exists slog', dlog'.
    change (rrun ttl count st (e :: es)) with (rrun ttl count (rstep ttl count st e) es).
    destruct e as [now po us|ok]; cbn [step_logs run_log] in *.
    + simplify_eq. cbn [rstep rs_stream] in H2. rewrite redis_send_last in H2. by rewrite app_assoc.
    + replace log1 with log in H2 by (destruct ok; by simplify_eq).
      replace (st_last (rs_stream (rstep ttl count st (RPoll ok)))) with (st_last (rs_stream st)) in H2; [done|].
      cbn [rstep]. destruct (rs_panicked st); [done|]. by destruct (redis_get _ _ _ _) as [[]].
Qed.

Lemma delivered_in_order ttl count s log es :
  StreamOf s log →
  let st := rrun ttl count (reader_start s) es in
  rs_panicked st = false ∧
  ∃ d, d `sublist_of` log ++ run_log (st_last s) es ∧ rs_out st = map (λ p, as_read p.1 p.2) d ∧
       NoDup d.*1.
Proof.
  intros H. destruct (run_inv ttl count es _ _ _ _ (StreamOf_inv s log H)) as (slog & dlog & HI).
  cbv zeta. split; [apply HI|]. exists dlog. split_and!; [apply HI|apply HI|].
  assert (SortedLog dlog) as Hs.
  { eapply sublist_sorted; [apply sublist_fst; apply HI|]. apply HI. }
  clear -Hs. induction (dlog.*1) as [|x l IHl]; [constructor|].
  apply StronglySorted_inv in Hs as [Hs Hf]. constructor; [|by apply IHl].
  intros Hx. rewrite Forall_forall in Hf. by eapply LexLt_irrefl, Hf.
Qed.

(** ** No gaps *)
Definition NoGap (st : rstate) (log slog dlog : list (sid * update)) : Prop :=
  filter (After (rs_cursor st)) slog = filter (After (rs_cursor st)) log ∧
  dlog = filter (Until (rs_cursor st)) log.

Lemma filter_filter_later c c' (l : list (sid * update)) :
  c' = c ∨ LexLt c c' → filter (After c') (filter (After c) l) = filter (After c') l.
Proof.
  intros Hc. apply filter_filter_sub. intros p _. unfold After, LexLt in *. destruct Hc as [->|Hc]; [done|]. lia.
Qed.

Lemma cursor_le_last st log slog dlog :
  RInv st log slog dlog → rs_cursor st = st_last (rs_stream st) ∨ LexLt (rs_cursor st) (st_last (rs_stream st)).
Proof.
  intros HI. destruct (ri_log _ _ _ _ HI) as (H1 & H2 & H3 & H4). destruct (ri_cursor _ _ _ _ HI) as [->|Hc].
  - destruct H4 as [->|H4]; [by left|by right].
  - apply elem_of_list_fmap in Hc as (p & -> & Hp). by apply H3.
Qed.

Lemma step_nogap ttl count st log slog dlog e :
  RInv st log slog dlog → NoGap st log slog dlog → TrimsOnlyRead ttl count st [e] →
  let '(log', slog', dlog') := step_logs ttl count st e (log, slog, dlog) in
  NoGap (rstep ttl count st e) log' slog' dlog'.
Proof.
  intros HI [Hg1 Hg2] Ht. destruct e as [now po us|[]].
  - cbn [step_logs rstep]. destruct Ht as [Ht _]. unfold NoGap. cbn [rs_cursor].
    set (c := rs_cursor st) in *. set (b := log_batch _ us _) in *.
    destruct (log_batch_sorted us (st_last (rs_stream st)) (executed po)) as [_ Hbg]. fold b in Hbg.
    assert (Hb : ∀ p, p ∈ b → After c p).
    { intros p Hp. specialize (Hbg p Hp). destruct (cursor_le_last _ _ _ _ HI) as [Hc|Hc]; fold c in Hc.
      - unfold After. by rewrite Hc.
      - by eapply LexLt_trans. }
    split.
    + rewrite filter_app. destruct po as [os|os]; simpl.
      * rewrite filter_filter_sub, filter_app, Hg1; [done|].
        intros p Hp HA [_ Hlt]. apply (Ht p.1); [|done|done].
        apply elem_of_app in Hp as [Hp|Hp].
        -- left. apply elem_of_list_lookup in Hp as [i Hi].
           destruct (Forall2_lookup_r _ _ _ _ _ (ri_holds _ _ _ _ HI) Hi) as (en & Hen & Hid & _).
           rewrite <-Hid. apply elem_of_list_fmap_1. by eapply elem_of_list_lookup_2.
        -- right. by apply elem_of_list_fmap_1.
      * by rewrite filter_app, Hg1.
    + rewrite filter_app, (filter_none (Until c) b), app_nil_r by (intros p Hp Hn; by apply Hn, Hb). done.
  - cbn [step_logs]. rewrite (poll_spec ttl count st log slog dlog HI). unfold NoGap. cbn [rs_cursor].
    set (c := rs_cursor st) in *. rewrite Hg1.
    set (b := take count (filter (After c) log)). set (r := drop count (filter (After c) log)).
    assert (Hbr : filter (After c) log = b ++ r) by (symmetry; apply take_drop).
    destruct (ri_log _ _ _ _ HI) as (Hs & _).
    destruct (advance_split c log b r Hs Hbr) as [Hr Hd].
    assert (Hc' : last_id c b = c ∨ LexLt c (last_id c b)).
    { destruct (last_id_in c b) as [[-> _]|(b' & q & Hbq & ->)]; [by left|right].
      assert (q ∈ filter (After c) log) as Hq by (rewrite Hbr, Hbq; set_solver).
      apply elem_of_list_filter in Hq. apply Hq. }
    split.
    + rewrite <-(filter_filter_later c _ slog Hc'), <-(filter_filter_later c _ log Hc'). by rewrite Hg1.
    + by rewrite Hd, Hg2.
  - cbn [step_logs rstep]. unfold redis_get. by rewrite (ri_fine _ _ _ _ HI).
Qed.

Lemma trims_cons ttl count st e es :
  TrimsOnlyRead ttl count st (e :: es) →
  TrimsOnlyRead ttl count st [e] ∧ TrimsOnlyRead ttl count (rstep ttl count st e) es.
Proof. cbn [TrimsOnlyRead]. tauto. Qed.

Lemma run_nogap ttl count es : ∀ st log slog dlog,
  RInv st log slog dlog → NoGap st log slog dlog → TrimsOnlyRead ttl count st es →
  ∃ slog' dlog', let log' := log ++ run_log (st_last (rs_stream st)) es in
    RInv (rrun ttl count st es) log' slog' dlog' ∧ NoGap (rrun ttl count st es) log' slog' dlog'.
Proof.
  induction es as [|e es IH]; intros st log slog dlog HI HG Ht.
  - simpl. rewrite app_nil_r. by exists slog, dlog.
  - apply trims_cons in Ht as [Ht1 Ht2].
    pose proof (step_inv ttl count st log slog dlog e HI) as H1.
    pose proof (step_nogap ttl count st log slog dlog e HI HG Ht1) as G1.
    destruct (step_logs ttl count st e (log, slog, dlog)) as [[log1 slog1] dlog1] eqn:E.
    destruct (IH _ _ _ _ H1 G1 Ht2) as (slog' & dlog' & H2). exists slog', dlog'.
    change (rrun ttl count st (e :: es)) with (rrun ttl count (rstep ttl count st e) es).
    destruct e as [now po us|ok]; cbn [step_logs run_log] in *.
    + simplify_eq. cbn [rstep rs_stream] in H2. rewrite redis_send_last in H2. cbv zeta in *. by rewrite app_assoc.
    + replace log1 with log in H2 by (destruct ok; by simplify_eq).
      replace (st_last (rs_stream (rstep ttl count st (RPoll ok)))) with (st_last (rs_stream st)) in H2; [done|].
      cbn [rstep]. destruct (rs_panicked st); [done|]. by destruct (redis_get _ _ _ _) as [[]].
Qed.

Lemma start_nogap s log : StreamOf s log → NoGap (reader_start s) log log [].
Proof.
  intros (H1 & H2 & H3 & H4 & H5). split; [done|]. simpl. symmetry. apply filter_none.
  intros p Hp Hn. by apply Hn, H3.
Qed.

(** C18, second half: with no unread entry trimmed, a prefix of the log is delivered. *)
Lemma delivered_prefix ttl count s log es :
  StreamOf s log → TrimsOnlyRead ttl count (reader_start s) es →
  ∃ d r, log ++ run_log (st_last s) es = d ++ r ∧
         rs_out (rrun ttl count (reader_start s) es) = map (λ p, as_read p.1 p.2) d.
Proof.
  intros H Ht.
  destruct (run_nogap ttl count es _ _ _ _ (StreamOf_inv s log H) (start_nogap s log H) Ht) as (slog & dlog & HI & HG).
  cbv zeta in *. destruct HG as [Hg1 Hg2]. eexists dlog, _. split; [|apply HI].
  rewrite Hg2. symmetry. apply split_sorted. apply HI.
Qed.

(** ** Progress *)
Lemma polls_progress ttl count n : ∀ st log slog dlog,
  RInv st log slog dlog → NoGap st log slog dlog → (1 <= count)%nat →
  (length (filter (After (rs_cursor st)) log) <= n)%nat →
  rs_out (rrun ttl count st (replicate n (RPoll true))) = map (λ p, as_read p.1 p.2) log.
Proof.
  induction n as [|n IH]; intros st log slog dlog HI HG Hc Hn.
  - simpl. destruct HG as [Hg1 Hg2]. rewrite (ri_out _ _ _ _ HI), Hg2. f_equal.
    destruct (ri_log _ _ _ _ HI) as (Hs & _). rewrite <-(split_sorted (rs_cursor st) log Hs) at 2.
    destruct (filter (After (rs_cursor st)) log); [by rewrite app_nil_r|]. simpl in Hn. lia.
  - cbn [replicate]. change (rrun ttl count st (RPoll true :: replicate n (RPoll true)))
      with (rrun ttl count (rstep ttl count st (RPoll true)) (replicate n (RPoll true))).
    pose proof (step_inv ttl count st log slog dlog (RPoll true) HI) as H1.
    assert (Ht : TrimsOnlyRead ttl count st [RPoll true]) by done.
    pose proof (step_nogap ttl count st log slog dlog (RPoll true) HI HG Ht) as G1.
    cbn [step_logs] in H1, G1. eapply IH; [exact H1|exact G1|done|].
    rewrite (poll_spec ttl count st log slog dlog HI). cbn [rs_cursor].
    destruct HG as [Hg1 Hg2]. rewrite Hg1.
    destruct (ri_log _ _ _ _ HI) as (Hs & _).
    destruct (advance_split (rs_cursor st) log _ _ Hs (eq_sym (take_drop count (filter (After (rs_cursor st)) log)))) as [Hr _].
    rewrite Hr, drop_length. lia.
Qed.

Lemma rrun_app ttl count st es es' : rrun ttl count st (es ++ es') = rrun ttl count (rrun ttl count st es) es'.
Proof. unfold rrun. by rewrite foldl_app. Qed.

Lemma reader_catches_up ttl count s log es n :
  StreamOf s log → TrimsOnlyRead ttl count (reader_start s) es → (1 <= count)%nat →
  (length (log ++ run_log (st_last s) es) <= n)%nat →
  rs_out (rrun ttl count (reader_start s) (es ++ replicate n (RPoll true))) =
    map (λ p, as_read p.1 p.2) (log ++ run_log (st_last s) es).
Proof.
  intros H Ht Hc Hn.
  destruct (run_nogap ttl count es _ _ _ _ (StreamOf_inv s log H) (start_nogap s log H) Ht) as (slog & dlog & HI & HG).
  cbv zeta in *. rewrite rrun_app. eapply polls_progress; [done|done|done|].
  etrans; [apply sublist_length, filter_sublist|done].
Qed.

(** Thresholds that are below all ids trim nothing. *)
Lemma low_thresholds ttl count es : ∀ st b,
  (∀ e, e ∈ st_entries (rs_stream st) → b <= (e_id e).1) →
  (∀ now po us ms, RSend now po us ∈ es → XaddOk ms ∈ executed po → b <= ms) →
  (∀ now po us, RSend now po us ∈ es → unix_secs now - ttl <= b) →
  TrimsOnlyRead ttl count st es.
Proof.
  induction es as [|e es IH]; intros st b H1 H2 H3; [done|]. cbn [TrimsOnlyRead].
  assert (Hlog : ∀ now po us p, e = RSend now po us → p ∈ log_batch (st_last (rs_stream st)) us (executed po) → b <= p.1.1).
  { intros now po us p -> Hp. eapply log_batch_ms; [|done]. intros ms Hms. eapply H2; [left|done]. }
  split.
  - destruct e as [now po us|ok]; [|done]. intros i Hi Hlt. exfalso.
    assert (b <= i.1) as Hb.
    { destruct Hi as [Hi|Hi]; apply elem_of_list_fmap in Hi as (x & -> & Hx); [by apply H1|by eapply Hlog]. }
    specialize (H3 now po us ltac:(left)). lia.
  - apply (IH _ b).
    + destruct e as [now po us|ok].
      * cbn [rstep rs_stream]. intros x Hx.
        destruct (redis_send_stream ttl now (rs_stream st) (executed po) us) as (new & Hn & He1 & He2).
        assert (x ∈ st_entries (rs_stream st) ++ new) as Hin.
        { destruct po; simpl in *; [rewrite He1 in Hx; apply elem_of_list_filter in Hx; apply Hx|by rewrite He2 in Hx]. }
        apply elem_of_app in Hin as [Hin|Hin]; [by apply H1|].
        apply elem_of_list_lookup in Hin as [i Hi]. destruct (Forall2_lookup_l _ _ _ _ _ Hn Hi) as (p & Hp & Hid & _).
        rewrite Hid. eapply Hlog; [done|]. by eapply elem_of_list_lookup_2.
      * cbn [rstep]. destruct (rs_panicked st); [done|]. by destruct (redis_get _ _ _ _) as [[]].
    + intros now po us ms He. apply (H2 now po us ms). by right.
    + intros now po us He. apply (H3 now po us). by right.
Qed.
