(** Conversations of om-core with a function. *)
From Coq Require Import Ascii String ZArith NArith Lia.
From stdpp Require Import prelude strings relations.
From Verif.Model Require Import Converse.
From Verif.Spec Require Import ConverseSpec.
Local Open Scope nat_scope.

Lemma reads_app a b : reads (a ++ b) = reads a + reads b.
Proof. unfold reads. by rewrite filter_app, app_length. Qed.
Lemma reads_read l : reads (ORead :: l) = S (reads l).
Proof. unfold reads. by rewrite filter_cons_True. Qed.
Lemma reads_emit m l : reads (OEmit m :: l) = reads l.
Proof. unfold reads. by rewrite filter_cons_False. Qed.
Lemma emits_app a b : emits (a ++ b) = emits a ++ emits b.
Proof. unfold emits. by rewrite omap_app. Qed.
Lemma reads_emits ms : reads (map OEmit ms) = 0.
Proof. induction ms as [|m ms IH]; [done|]. cbn [map]. by rewrite reads_emit. Qed.
Lemma reads_repeat n : reads (repeat ORead n) = n.
Proof. induction n as [|n IH]; [done|]. cbn [repeat]. by rewrite reads_read, IH. Qed.
Lemma emits_repeat n : emits (repeat ORead n) = [].
Proof. induction n as [|n IH]; [done|]. exact IH. Qed.
Lemma emits_map ms : emits (map OEmit ms) = ms.
Proof. induction ms as [|m ms IH]; [done|]. cbn. by f_equal. Qed.

(** ** What holds in every state *)
Record cvinv (cu cd : nat) (chunks : list string) (ops0 : list op) (s : conv) (done : list op) : Prop := {
  ci_ops : ops0 = done ++ cv_ops s;
  ci_read : length (cv_read s) = reads done;
  ci_up : length (cv_up s) ≤ cu;
  ci_chunks : ∃ mid, chunks = cv_read s ++ mid ++ cv_left s ∧ (cv_ops s ≠ [] → mid = cv_up s);
  ci_got : emits done = cv_got s ++ cv_down s;
  ci_order : cv_left s ≠ [] → cv_got s = [];
  ci_passed : ∀ pre m post, done = pre ++ OEmit m :: post → cd ≤ length (emits pre) → length chunks ≤ reads pre + cu;
  ci_over : cv_over s = true → cv_left s = [] ∧ cv_ops s = [] ∧ cv_down s = []
}.

Lemma snoc_emit_split (done : list op) m pre m' post : done ++ [OEmit m] = pre ++ OEmit m' :: post →
  pre = done ∨ ∃ post', done = pre ++ OEmit m' :: post'.
Proof.
  intros E. destruct post as [|x post _] using rev_ind.
  - apply app_inj_tail in E as [-> _]. by left.
  - change (pre ++ OEmit m' :: post ++ [x]) with (pre ++ (OEmit m' :: post) ++ [x]) in E. rewrite app_assoc in E.
    apply app_inj_tail in E as [-> _]. right. by exists post.
Qed.
Lemma snoc_read_split (done : list op) pre m' post : done ++ [ORead] = pre ++ OEmit m' :: post →
  ∃ post', done = pre ++ OEmit m' :: post'.
Proof.
  intros E. destruct post as [|x post _] using rev_ind.
  - by apply app_inj_tail in E as [_ ?].
  - change (pre ++ OEmit m' :: post ++ [x]) with (pre ++ (OEmit m' :: post) ++ [x]) in E. rewrite app_assoc in E.
    apply app_inj_tail in E as [-> _]. by exists post.
Qed.

Lemma cvstep_inv cu cd chunks ops0 s s' dn : cvstep cu cd s s' → cvinv cu cd chunks ops0 s dn →
  ∃ dn', cvinv cu cd chunks ops0 s' dn'.
Proof.
  destruct 1 as [c cs u ops rd d g Hu|c cs u rd d g|cs c u ops rd d g|cs u m ops rd d g Hd|u ops rd m d g|u rd g];
    intros [I1 I2 I3 (mid & I4 & I4') I5 I6 I7 I8]; cbn [cv_left cv_up cv_ops cv_read cv_down cv_got cv_over] in *.
  - exists dn. split; cbn [cv_left cv_up cv_ops cv_read cv_down cv_got cv_over]; try done.
    + rewrite app_length. cbn. lia.
    + exists (mid ++ [c]). split; [by rewrite I4, <-!app_assoc|]. intros Ho. by rewrite (I4' Ho).
    + intros _. by apply I6.
  - exists dn. split; cbn [cv_left cv_up cv_ops cv_read cv_down cv_got cv_over]; try done.
    + exists (mid ++ [c]). split; [by rewrite I4, <-!app_assoc|done].
    + intros _. by apply I6.
  - rewrite (I4' ltac:(done)) in I4. exists (dn ++ [ORead]).
    split; cbn [cv_left cv_up cv_ops cv_read cv_down cv_got cv_over]; try done.
    + by rewrite I1, <-app_assoc.
    + rewrite app_length, reads_app, I2. done.
    + cbn in I3. lia.
    + exists u. split; [|done]. by rewrite I4, <-!app_assoc.
    + rewrite emits_app, I5. by rewrite app_nil_r.
    + intros pre m' post E. apply snoc_read_split in E as [post' E]. exact (I7 _ _ _ E).
  - rewrite (I4' ltac:(done)) in I4. exists (dn ++ [OEmit m]).
    split; cbn [cv_left cv_up cv_ops cv_read cv_down cv_got cv_over]; try done.
    + by rewrite I1, <-app_assoc.
    + rewrite reads_app, I2. cbn. by rewrite Nat.add_0_r.
    + exists u. by split.
    + rewrite emits_app, I5. cbn. by rewrite <-app_assoc.
    + intros pre m' post E. apply snoc_emit_split in E as [->|[post' E]]; [|exact (I7 _ _ _ E)].
      intros Hc. rewrite I5, app_length in Hc.
      assert (cs = []) as -> by (destruct cs; [done|]; rewrite (I6 ltac:(done)) in Hc; cbn in Hc; lia).
      rewrite I4, app_nil_r, app_length, I2. lia.
  - exists dn. split; cbn [cv_left cv_up cv_ops cv_read cv_down cv_got cv_over]; try done.
    + by exists mid.
    + by rewrite I5, <-app_assoc.
  - exists dn. split; cbn [cv_left cv_up cv_ops cv_read cv_down cv_got cv_over]; try done.
    by exists mid.
Qed.

Lemma cvreach_inv cu cd chunks ops s : cvreach cu cd chunks ops s → ∃ dn, cvinv cu cd chunks ops s dn.
Proof.
  revert s. apply rtc_ind_r.
  - exists []. split; cbn; try done; try lia.
    + by exists [].
    + intros pre m post E. by destruct pre.
  - intros y z _ Hs [dn I]. exact (cvstep_inv _ _ _ _ _ _ _ Hs I).
Qed.

(** ** Order *)
Lemma conv_matches cu cd chunks ops s : cvreach cu cd chunks ops s →
  emits ops = cv_got s ++ cv_down s ++ emits (cv_ops s).
Proof. intros [dn I]%cvreach_inv. rewrite (ci_ops _ _ _ _ _ _ I), emits_app, (ci_got _ _ _ _ _ _ I). by rewrite <-app_assoc. Qed.
Lemma conv_chunks cu cd chunks ops s : cvreach cu cd chunks ops s →
  cv_read s = take (length (cv_read s)) chunks ∧ length (cv_read s) + reads (cv_ops s) = reads ops ∧
  (cv_ops s ≠ [] → chunks = cv_read s ++ cv_up s ++ cv_left s).
Proof.
  intros [dn I]%cvreach_inv. destruct (ci_chunks _ _ _ _ _ _ I) as (mid & E & Em). split; [|split].
  - rewrite E. by rewrite take_app.
  - rewrite (ci_read _ _ _ _ _ _ I), (ci_ops _ _ _ _ _ _ I), reads_app. done.
  - intros Ho. by rewrite <-(Em Ho).
Qed.
Lemma conv_over cu cd chunks ops s : cvreach cu cd chunks ops s → cv_over s = true →
  cv_got s = emits ops ∧ cv_read s = take (reads ops) chunks ∧ reads ops ≤ length chunks.
Proof.
  intros H Ho. pose proof (conv_matches _ _ _ _ _ H) as E. pose proof (conv_chunks _ _ _ _ _ H) as (E1 & E2 & _).
  apply cvreach_inv in H as [dn I]. destruct (ci_over _ _ _ _ _ _ I Ho) as (_ & Hops & Hd). rewrite Hops, Hd in *. cbn in E.
  rewrite !app_nil_r in E. change (reads []) with 0 in E2. rewrite Nat.add_0_r in E2. split; [done|]. split; [by rewrite <-E2|].
  rewrite <-E2, E1, take_length. lia.
Qed.
Lemma conv_bounded cu cd chunks ops s : cvreach cu cd chunks ops s → length (cv_up s) ≤ cu ∧ length (cv_down s) ≤ cd.
Proof.
  intros H. split.
  - apply cvreach_inv in H as [dn I]. apply I.
  - revert s H. apply rtc_ind_r; [cbn; lia|]. intros y z _ Hs. destruct Hs; cbn; rewrite ?app_length; cbn; lia.
Qed.
(** om-core receives nothing before everything is sent. *)
Lemma conv_first_sends cu cd chunks ops s : cvreach cu cd chunks ops s → cv_left s ≠ [] → cv_got s = [].
Proof. intros [dn I]%cvreach_inv. apply I. Qed.

(** ** Every execution ends *)
Definition cvweight (s : conv) : nat :=
  length (cv_left s) + 2 * length (cv_ops s) + length (cv_down s) + (if cv_over s then 0 else 1).
Lemma cvstep_weight cu cd s s' : cvstep cu cd s s' → cvweight s' < cvweight s.
Proof. destruct 1; unfold cvweight; cbn; rewrite ?app_length; cbn; lia. Qed.
Lemma conv_length cu cd s s' n : nsteps (cvstep cu cd) n s s' → n + cvweight s' ≤ cvweight s.
Proof. induction 1 as [|n x y z Hs _ IH]; [lia|]. apply cvstep_weight in Hs. lia. Qed.
Lemma conv_finite cu cd chunks ops n s : nsteps (cvstep cu cd) n (conv0 chunks ops) s → n ≤ length chunks + 2 * length ops + 1.
Proof. intros H%conv_length. unfold cvweight in H at 2. cbn in H. lia. Qed.

(** ** Who can go on *)
Lemma conv_progress cu cd chunks ops s : 1 ≤ cu → 1 ≤ cd → Fits cu cd (length chunks) ops → cvreach cu cd chunks ops s →
  cv_over s = false → ∃ s', cvstep cu cd s s'.
Proof.
  intros Hcu Hcd [Hr Hf] H Ho. pose proof (conv_chunks _ _ _ _ _ H) as (E1 & E2 & E3).
  apply cvreach_inv in H as [dn I]. pose proof (ci_ops _ _ _ _ _ _ I) as Eo. pose proof (ci_read _ _ _ _ _ _ I) as Er.
  pose proof (ci_got _ _ _ _ _ _ I) as Eg. pose proof (ci_order _ _ _ _ _ _ I) as Eord.
  destruct s as [lf u os rd d g ov]; cbn [cv_left cv_up cv_ops cv_read cv_down cv_got cv_over] in *. subst ov.
  destruct os as [|o os].
  - destruct lf as [|c cs]; [|eexists; apply CV_send_fails].
    destruct d as [|m d]; eexists; [apply CV_eof|apply CV_recv].
  - specialize (E3 ltac:(done)). destruct o as [|m].
    + destruct u as [|c u]; [|eexists; apply CV_read].
      destruct lf as [|c cs]; [|eexists; apply CV_send; cbn; lia].
      exfalso. rewrite reads_read in E2. rewrite E3 in Hr. cbn in Hr. rewrite app_nil_r in Hr. lia.
    + destruct (decide (length d < cd)) as [Hd|Hd]; [eexists; by apply CV_emit|].
      destruct lf as [|c cs].
      * destruct d as [|m' d]; [cbn in Hd; lia|]. eexists. apply CV_recv.
      * destruct (decide (length u < cu)) as [Hu|Hu]; [eexists; by apply CV_send|]. exfalso.
        specialize (Hf dn m os Eo). rewrite Eg, app_length in Hf. specialize (Hf ltac:(lia)).
        rewrite E3, !app_length in Hf. cbn in Hf. lia.
Qed.

Lemma conv_over_fits cu cd chunks ops s : cvreach cu cd chunks ops s → cv_over s = true → Fits cu cd (length chunks) ops.
Proof.
  intros H Ho. split; [by apply (conv_over _ _ _ _ _ H Ho)|]. apply cvreach_inv in H as [dn I].
  destruct (ci_over _ _ _ _ _ _ I Ho) as (_ & Hops & _). pose proof (ci_ops _ _ _ _ _ _ I) as Eo. rewrite Hops, app_nil_r in Eo.
  subst ops. exact (ci_passed _ _ _ _ _ _ I).
Qed.

(** A scheduler: from every state an execution leads to one where nothing can
    happen. *)
Definition cv_can (cu cd : nat) (s : conv) : option conv :=
  if cv_over s then None else
  match cv_ops s with
  | [] => match cv_left s with
          | c :: cs => Some (Conv cs (cv_up s) [] (cv_read s) (cv_down s) (cv_got s) false)
          | [] => match cv_down s with
                  | [] => Some (Conv [] (cv_up s) [] (cv_read s) [] (cv_got s) true)
                  | m :: d => Some (Conv [] (cv_up s) [] (cv_read s) d (cv_got s ++ [m]) false) end end
  | o :: os =>
      match cv_left s with
      | c :: cs => if decide (length (cv_up s) < cu) then Some (Conv cs (cv_up s ++ [c]) (o :: os) (cv_read s) (cv_down s) (cv_got s) false)
          else match o, cv_up s with
               | ORead, x :: u => Some (Conv (c :: cs) u os (cv_read s ++ [x]) (cv_down s) (cv_got s) false)
               | ORead, [] => None
               | OEmit m, _ => if decide (length (cv_down s) < cd) then Some (Conv (c :: cs) (cv_up s) os (cv_read s) (cv_down s ++ [m]) (cv_got s) false) else None end
      | [] => match cv_down s with
              | m :: d => Some (Conv [] (cv_up s) (o :: os) (cv_read s) d (cv_got s ++ [m]) false)
              | [] => match o, cv_up s with
                      | ORead, x :: u => Some (Conv [] u os (cv_read s ++ [x]) [] (cv_got s) false)
                      | ORead, [] => None
                      | OEmit m, _ => if decide (0 < cd) then Some (Conv [] (cv_up s) os (cv_read s) [m] (cv_got s) false) else None end end end end.
Lemma cv_can_some cu cd s s' : cv_can cu cd s = Some s' → cvstep cu cd s s'.
Proof.
  unfold cv_can. destruct s as [lf u os rd d g ov]; cbn [cv_left cv_up cv_ops cv_read cv_down cv_got cv_over].
  intros E. repeat (case_match; simplify_eq); by constructor.
Qed.
Lemma cv_can_none cu cd s s' : cv_can cu cd s = None → ¬ cvstep cu cd s s'.
Proof.
  unfold cv_can. intros E H. destruct H; cbn [cv_left cv_up cv_ops cv_read cv_down cv_got cv_over length] in E;
    repeat (case_match; simplify_eq; cbn in *); try done; try lia.
Qed.
Lemma conv_runs cu cd s : ∃ s', rtc (cvstep cu cd) s s' ∧ ∀ s'', ¬ cvstep cu cd s' s''.
Proof.
  remember (cvweight s) as w eqn:Ew. revert s Ew. induction (lt_wf w) as [w _ IH]. intros s ->.
  destruct (cv_can cu cd s) as [s1|] eqn:E.
  - apply cv_can_some in E. destruct (IH _ (cvstep_weight _ _ _ _ E) s1 eq_refl) as (s' & H1 & H2).
    exists s'. split; [by apply (rtc_l _ _ s1)|done].
  - exists s. split; [done|]. intros s''. by apply cv_can_none.
Qed.

(** ** When conversations come to their end *)
Lemma fits_iff_never_stuck cu cd chunks ops : 1 ≤ cu → 1 ≤ cd →
  Fits cu cd (length chunks) ops ↔ ∀ s, cvreach cu cd chunks ops s → ¬ Deadlock cu cd s.
Proof.
  intros Hcu Hcd. split.
  - intros Hf s H [Ho Hs]. destruct (conv_progress _ _ _ _ _ Hcu Hcd Hf H Ho) as [s' Hs']. exact (Hs s' Hs').
  - intros Hn. destruct (conv_runs cu cd (conv0 chunks ops)) as (s & H & Hs).
    destruct (cv_over s) eqn:Ho; [exact (conv_over_fits _ _ _ _ _ H Ho)|]. exfalso. by apply (Hn s H).
Qed.
Lemma fits_iff_can_end cu cd chunks ops : 1 ≤ cu → 1 ≤ cd →
  Fits cu cd (length chunks) ops ↔ ∃ s, cvreach cu cd chunks ops s ∧ cv_over s = true.
Proof.
  intros Hcu Hcd. split.
  - intros Hf. destruct (conv_runs cu cd (conv0 chunks ops)) as (s & H & Hs). exists s. split; [done|].
    destruct (cv_over s) eqn:Ho; [done|]. destruct (conv_progress _ _ _ _ _ Hcu Hcd Hf H Ho) as [s' Hs']. by destruct (Hs s').
  - intros (s & H & Ho). exact (conv_over_fits _ _ _ _ _ H Ho).
Qed.

(** ** Kinds of functions *)
Lemma emit_split_after_reads n ms pre m post : repeat ORead n ++ map OEmit ms = pre ++ OEmit m :: post → n ≤ reads pre.
Proof.
  revert pre. induction n as [|n IH]; intros pre E; [lia|]. destruct pre as [|o pre]; [done|]. cbn in E. injection E as <- E.
  rewrite reads_read. apply IH in E. lia.
Qed.
Lemma sample_fits cu cd n ms : Fits cu cd n (sample_ops n ms).
Proof.
  unfold sample_ops. split.
  - rewrite reads_app, reads_repeat, reads_emits. lia.
  - intros pre m post E _. apply emit_split_after_reads in E. lia.
Qed.
Lemma sample_ends cu cd chunks ms s : 1 ≤ cu → 1 ≤ cd → cvreach cu cd chunks (sample_ops (length chunks) ms) s →
  (∀ s', ¬ cvstep cu cd s s') → cv_over s = true ∧ cv_got s = ms ∧ cv_read s = chunks.
Proof.
  intros Hcu Hcd H Hs. destruct (cv_over s) eqn:Ho.
  - destruct (conv_over _ _ _ _ _ H Ho) as (Eg & Er & _). unfold sample_ops in *.
    rewrite emits_app, emits_repeat, emits_map in Eg. rewrite reads_app, reads_repeat, reads_emits, Nat.add_0_r, take_ge in Er by done. done.
  - destruct (conv_progress _ _ _ _ _ Hcu Hcd (sample_fits cu cd (length chunks) ms) H Ho) as [s' Hs']. by destruct (Hs s').
Qed.
(** A request in few enough chunks, or few enough matches. *)
Lemma short_fits cu cd n ops : reads ops ≤ n → n ≤ cu ∨ length (emits ops) ≤ cd → Fits cu cd n ops.
Proof.
  intros Hr H. split; [done|]. intros pre m post -> Hc. destruct H as [H|H]; [lia|]. rewrite emits_app, app_length in H. cbn in H. lia.
Qed.
Lemma until_eof_never cu cd chunks ms s : cvreach cu cd chunks (until_eof_ops (length chunks) ms) s →
  cv_over s = false ∧ cv_got s = [].
Proof.
  intros H. split.
  - destruct (cv_over s) eqn:Ho; [|done]. exfalso. destruct (conv_over _ _ _ _ _ H Ho) as (_ & _ & Hr).
    unfold until_eof_ops in Hr. rewrite reads_app, reads_repeat, reads_emits in Hr. lia.
  - pose proof (conv_chunks _ _ _ _ _ H) as (E1 & E2 & _). apply cvreach_inv in H as [dn I].
    pose proof (ci_ops _ _ _ _ _ _ I) as Eo. pose proof (ci_got _ _ _ _ _ _ I) as Eg. pose proof (ci_read _ _ _ _ _ _ I) as Er.
    assert (emits dn = []) as Ee.
    { destruct (emits dn) as [|x l] eqn:Ex; [done|]. exfalso.
      assert (∃ pre m post, dn = pre ++ OEmit m :: post) as (pre & m & post & ->).
      { clear -Ex. induction dn as [|[|m] dn IH]; [done| |].
        - destruct (IH Ex) as (pre & m & post & ->). by exists (ORead :: pre), m, post.
        - by exists [], m, dn. }
      rewrite <-app_assoc in Eo. apply emit_split_after_reads in Eo. rewrite reads_app in Er.
      pose proof (f_equal length E1) as El. rewrite take_length in El. lia. }
    rewrite Ee in Eg. by destruct (cv_got s).
Qed.
Lemma fits_mono cu cd cu' cd' n ops : cu ≤ cu' → cd ≤ cd' → Fits cu cd n ops → Fits cu' cd' n ops.
Proof. intros Hu Hd [Hr Hf]. split; [done|]. intros pre m post E Hc. specialize (Hf pre m post E ltac:(lia)). lia. Qed.
