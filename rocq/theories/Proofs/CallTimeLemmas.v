(** Lemmas for C151. *)
From Coq Require Import ZArith Lia.
From stdpp Require Import prelude.
From Verif.Model Require Import Types Connect CallTime.
From Verif.Spec Require Import ConnectSpec CallTimeSpec.
From Verif.Proofs Require Import ConnectLemmas.
Local Open Scope Z_scope.

Lemma fn_end_spec limit start f : FnEnds limit start f (fn_end limit start f).
Proof.
  unfold FnEnds, fn_end. destruct (run_call _ _ _ _) as [o|t] eqn:E; [right; exists o; split; [done|lia] | by left].
Qed.
Lemma fn_ends_unique limit start f t : FnEnds limit start f t → t = fn_end limit start f.
Proof. unfold FnEnds, fn_end. intros [-> |(o & -> & H)]; [done|lia]. Qed.
Lemma complete_spec limit start f : fn_complete limit start f = true ↔ EndsWell limit start f (fn_end limit start f).
Proof.
  unfold fn_complete, EndsWell, fn_end. destruct (run_call _ _ _ _) as [o|t] eqn:E.
  - rewrite andb_true_iff, Z.ltb_lt. split.
    + intros [Ho Hl]. exists o. repeat split; [done|lia|lia].
    + intros (o' & [= <-] & Ho & He & Hl). split; [done|lia].
  - split; [done|]. by intros (o' & ? & _).
Qed.
Lemma ends_well_end limit start f t : EndsWell limit start f t → t = fn_end limit start f ∧ fn_complete limit start f = true.
Proof.
  intros H. assert (t = fn_end limit start f) as ->.
  { destruct H as (o & E & _ & -> & Hl). unfold fn_end. rewrite E. lia. }
  split; [done|]. by apply complete_spec.
Qed.
Lemma open_bounds limit start f o : SaneFn start f → run_call limit start start (fc_dns f) = Open o → start <= o < start + limit.
Proof.
  intros (Hd & _) E. destruct (run_bounded limit start start (fc_dns f) Hd ltac:(lia)) as (t & He & Hb & Ho).
  rewrite E in He. destruct He as [[= <-]|?]; [|done]. specialize (Ho E). lia.
Qed.
Lemma fn_end_bounds limit start f : SaneFn start f → start <= fn_end limit start f <= start + Z.max limit 0.
Proof.
  intros Hs. pose proof Hs as (Hd & Hr & _). destruct (run_bounded limit start start (fc_dns f) Hd ltac:(lia)) as (t & He & Hb & Ho).
  unfold fn_end. destruct He as [He|He]; rewrite He in *; [specialize (Ho eq_refl)|]; lia.
Qed.

(** Matches that were received. *)
Lemma items_of_in (wait : bool) limit start i f x : x ∈ items_of wait limit start i f ↔
  ∃ o m, run_call limit start start (fc_dns f) = Open o ∧ m ∈ fc_matches f ∧ o + m_after m <= fn_end limit start f ∧
    x = Item i (o + m_after m + m_update m + if wait then check_time else 0) (m_send m).
Proof.
  unfold items_of. destruct (run_call _ _ _ _) as [o|t] eqn:E.
  - rewrite elem_of_list_fmap. setoid_rewrite elem_of_list_filter. split.
    + intros (m & -> & Hl & Hm). by exists o, m.
    + intros (o' & m & [= <-] & Hm & Hl & ->). by exists m.
  - split; [by intros ?%elem_of_nil|]. by intros (o & m & ? & _).
Qed.
Lemma all_items_in (wait : bool) limit start fs : ∀ i x, x ∈ all_items wait limit start i fs ↔
  ∃ j f, fs !! j = Some f ∧ x ∈ items_of wait limit start (i + j) f.
Proof.
  induction fs as [|f fs IH]; intros i x; simpl.
  - split; [by intros ?%elem_of_nil|]. by intros (j & f & ? & _).
  - rewrite elem_of_app, IH. split.
    + intros [H|(j & f' & Hj & H)].
      * exists 0%nat, f. split; [done|]. by rewrite Nat.add_0_r.
      * exists (S j), f'. split; [done|]. by replace (i + S j)%nat with (S i + j)%nat by lia.
    + intros ([|j] & f' & Hj & H); simpl in Hj.
      * injection Hj as <-. left. by rewrite Nat.add_0_r in H.
      * right. exists j, f'. split; [done|]. by replace (S i + j)%nat with (i + S j)%nat by lia.
Qed.

Lemma Total_app l1 l2 : Total (l1 ++ l2) = Total l1 + Total l2.
Proof. induction l1 as [|d l1 IH]; simpl; lia. Qed.
Lemma Total_nonneg l : Forall (λ d, 0 <= d) l → 0 <= Total l.
Proof. induction 1; simpl; lia. Qed.
Lemma Total_perm l1 l2 : l1 ≡ₚ l2 → Total l1 = Total l2.
Proof. induction 1; simpl; lia. Qed.
Lemma Total_filter (ms : list fmatch) (P : fmatch → Prop) `{!∀ m, Decision (P m)} : Forall SaneMatch ms →
  Total (m_send <$> filter P ms) <= Total (m_send <$> ms).
Proof.
  induction 1 as [|m ms (H1 & H2 & H3) _ IH]; [done|]. rewrite filter_cons. destruct (decide (P m)); rewrite ?fmap_cons; cbn [Total]; lia.
Qed.
Lemma sends_nonneg start fs : Forall (SaneFn start) fs → ∀ m, MatchOf fs m → SaneMatch m.
Proof.
  intros Hs m (f & Hf & Hm). destruct (proj1 (Forall_forall _ _) Hs _ Hf) as (_ & _ & H).
  exact (proj1 (Forall_forall _ _) H _ Hm).
Qed.
Lemma all_items_total (wait : bool) limit start fs : Forall (SaneFn start) fs → ∀ i,
  Total (it_send <$> all_items wait limit start i fs) <= Sending fs.
Proof.
  unfold Sending. induction 1 as [|f fs Hf Hfs IH]; intros i; [simpl; lia|].
  cbn [all_items]. rewrite bind_cons, fmap_app, !Total_app. specialize (IH (S i)).
  enough (Total (it_send <$> items_of wait limit start i f) <= Total (m_send <$> fc_matches f)) by lia.
  destruct Hf as (_ & _ & Hm). unfold items_of. destruct (run_call _ _ _ _).
  - rewrite <-list_fmap_compose. by apply Total_filter.
  - simpl. apply Total_nonneg, Forall_fmap. eapply Forall_impl; [exact Hm|]. intros m (H1 & H2 & H3). done.
Qed.
Lemma all_items_sane (wait : bool) limit start fs x : Forall (SaneFn start) fs → x ∈ all_items wait limit start 0 fs →
  ∃ f m o, fs !! it_fn x = Some f ∧ f ∈ fs ∧ m ∈ fc_matches f ∧ run_call limit start start (fc_dns f) = Open o ∧
    o + m_after m <= fn_end limit start f ∧ SaneMatch m ∧ SaneFn start f ∧
    x = Item (it_fn x) (o + m_after m + m_update m + if wait then check_time else 0) (m_send m).
Proof.
  intros Hs (j & f & Hj & H)%all_items_in. apply items_of_in in H as (o & m & E & Hm & Hl & ->).
  exists f, m, o. pose proof (elem_of_list_lookup_2 _ _ _ Hj) as Hf.
  pose proof (proj1 (Forall_forall _ _) Hs _ Hf) as Hsf. pose proof Hsf as (_ & _ & Hms).
  pose proof (proj1 (Forall_forall _ _) Hms _ Hm) as Hsm. exact (conj Hj (conj Hf (conj Hm (conj E (conj Hl (conj Hsm (conj Hsf eq_refl))))))).
Qed.
Lemma served_sane (wait : bool) limit start fs served x : Forall (SaneFn start) fs → served_ok wait limit start fs served → x ∈ served →
  x ∈ all_items wait limit start 0 fs.
Proof. intros Hs (_ & rest & Hp & _) Hx. rewrite <-Hp. set_solver. Qed.
Lemma item_sane (wait : bool) limit start fs x : Forall (SaneFn start) fs → x ∈ all_items wait limit start 0 fs →
  0 <= it_send x ∧ start <= it_ready x.
Proof.
  intros Hs Hx. destruct (all_items_sane _ _ _ _ _ Hs Hx) as (f & m & o & _ & _ & _ & E & _ & (H1 & H2 & H3) & Hf & ->).
  pose proof (open_bounds _ _ _ _ Hf E). simpl. unfold check_time, millisecond. destruct wait; lia.
Qed.
Lemma served_total (wait : bool) limit start fs served : Forall (SaneFn start) fs → served_ok wait limit start fs served →
  Total (it_send <$> served) <= Sending fs.
Proof.
  intros Hs (_ & rest & Hp & _). pose proof (all_items_total wait limit start fs Hs 0) as H.
  rewrite <-(Total_perm _ _ (fmap_Permutation it_send _ _ Hp)), fmap_app, Total_app in H.
  enough (0 <= Total (it_send <$> rest)) by lia. apply Total_nonneg, Forall_fmap, Forall_forall. intros x Hx.
  apply (item_sane wait limit start fs x Hs). rewrite <-Hp. set_solver.
Qed.

(** The goroutine that sends. *)
Lemma serve_later l : ∀ now x t, (x, t) ∈ serve now l → it_ready x <= t.
Proof.
  induction l as [|y l IH]; intros now x t; simpl; [by intros ?%elem_of_nil|].
  intros [H|H]%elem_of_cons; [|by eapply IH]. injection H as -> ->. lia.
Qed.
Lemma serve_in l : ∀ now x t, (x, t) ∈ serve now l → x ∈ l.
Proof.
  induction l as [|y l IH]; intros now x t; simpl; [by intros ?%elem_of_nil|].
  intros [H|H]%elem_of_cons; [|right; by eapply IH]. injection H as -> ->. left.
Qed.
Lemma serve_all l : ∀ now x, x ∈ l → ∃ t, (x, t) ∈ serve now l.
Proof.
  induction l as [|y l IH]; intros now x; simpl; [by intros ?%elem_of_nil|].
  intros [-> |H]%elem_of_cons; [eexists; left|]. destruct (IH (Z.max now (it_ready y) + it_send y) x H) as [t Ht].
  exists t. by right.
Qed.
Lemma serve_wait l : ∀ now x t, Forall (λ y, 0 <= it_send y) l → no_idling now l → (x, t) ∈ serve now l →
  ∃ pre post, l = pre ++ x :: post ∧ t <= Z.max now (it_ready x) + Total (it_send <$> pre).
Proof.
  induction l as [|y l IH]; intros now x t Hn Hc; simpl; [by intros ?%elem_of_nil|].
  apply Forall_cons in Hn as [Hy Hn]. destruct Hc as [Hi Hc]. intros [H|H]%elem_of_cons.
  - injection H as -> ->. exists [], l. split; [done|]. simpl. lia.
  - destruct (IH _ _ _ Hn Hc H) as (pre & post & -> & Hle). exists (y :: pre), post. split; [done|].
    assert (it_ready y <= Z.max now (it_ready x)) as Hr.
    { refine (proj1 (Forall_forall _ _) Hi x _). set_solver. }
    rewrite fmap_cons. cbn [Total]. lia.
Qed.
Lemma handover (wait : bool) limit start fs served x t : Forall (SaneFn start) fs → served_ok wait limit start fs served →
  (x, t) ∈ serve start served → ∃ others, served ≡ₚ x :: others ∧ it_ready x <= t <= it_ready x + Total (it_send <$> others).
Proof.
  intros Hs Hok Hx. pose proof (serve_later _ _ _ _ Hx) as Hl.
  assert (∀ y, y ∈ served → 0 <= it_send y ∧ start <= it_ready y) as Hsane.
  { intros y Hy. exact (item_sane wait limit start fs y Hs (served_sane _ _ _ _ _ _ Hs Hok Hy)). }
  pose proof Hok as (Hc & _). destruct (serve_wait served start x t) as (pre & post & E & Hle); [|done|done|].
  { apply Forall_forall. intros y Hy. by apply Hsane. }
  exists (pre ++ post). split; [rewrite E; symmetry; apply Permutation_middle|]. split; [done|].
  rewrite fmap_app, Total_app. assert (0 <= Total (it_send <$> post)).
  { apply Total_nonneg, Forall_fmap, Forall_forall. intros y Hy. apply Hsane. rewrite E. set_solver. }
  destruct (Hsane x ltac:(rewrite E; set_solver)). lia.
Qed.

Lemma latest_spec l d : (latest l d = d ∨ latest l d ∈ l) ∧ d <= latest l d ∧ ∀ t, t ∈ l → t <= latest l d.
Proof.
  induction l as [|y l (IH1 & IH2 & IH3)]; simpl.
  - split; [by left|]. split; [lia|]. by intros t ?%elem_of_nil.
  - split; [|split; [lia|]].
    + destruct (Z.max_spec y (latest l d)) as [[_ ->]|[_ ->]]; [|right; left].
      destruct IH1 as [-> |]; [by left|right; by right].
    + intros t [-> |H]%elem_of_cons; [lia|]. specialize (IH3 t H). lia.
Qed.
Lemma latest_ge l d : d <= latest l d.
Proof. exact (proj1 (proj2 (latest_spec l d))). Qed.
Lemma latest_in l d t : t ∈ l → t <= latest l d.
Proof. exact (proj2 (proj2 (latest_spec l d)) t). Qed.
Lemma invoke_end_at_least (wait : bool) limit start fs served i f : fs !! i = Some f →
  fn_done wait limit start (serve start served) i f <= invoke_end wait limit start fs served.
Proof.
  intros Hi. apply latest_in. apply elem_of_list_lookup. exists i. by rewrite list_lookup_imap, Hi.
Qed.
Lemma invoke_end_cases (wait : bool) limit start fs served : invoke_end wait limit start fs served = start ∨
  ∃ i f, fs !! i = Some f ∧ invoke_end wait limit start fs served = fn_done wait limit start (serve start served) i f.
Proof.
  destruct (latest_spec (imap (fn_done wait limit start (serve start served)) fs) start) as ([H|H] & _ & _); [by left|].
  right. apply elem_of_list_lookup in H as [i H]. rewrite list_lookup_imap in H.
  destruct (fs !! i) as [f|] eqn:E; [|done]. exists i, f. split; [done|]. injection H as H. by rewrite H.
Qed.
Lemma fn_done_end (wait : bool) limit start taken i f : fn_end limit start f <= fn_done wait limit start taken i f.
Proof. unfold fn_done. destruct (fn_complete _ _ _); [|lia]. apply latest_ge. Qed.
Lemma fn_done_cases (wait : bool) limit start taken i f : fn_done wait limit start taken i f = fn_end limit start f ∨
  fn_complete limit start f = true ∧ ∃ x t, (x, t) ∈ taken ∧ it_fn x = i ∧
    fn_done wait limit start taken i f = t + if wait then 0 else check_time.
Proof.
  unfold fn_done. destruct (fn_complete limit start f) eqn:E; [|by left].
  match goal with |- context [latest ?l ?d] => destruct (latest_spec l d) as ([-> |H] & _ & _) end; [by left|].
  right. split; [done|]. apply elem_of_list_fmap in H as ([x t] & Heq & H). apply elem_of_list_filter in H as [Hi H].
  exists x, t. split; [done|]. split; [exact Hi|]. by rewrite Heq.
Qed.
Lemma fn_done_match (wait : bool) limit start taken i f x t : fn_complete limit start f = true → (x, t) ∈ taken → it_fn x = i →
  t + (if wait then 0 else check_time) <= fn_done wait limit start taken i f.
Proof.
  intros E Hx Hi. unfold fn_done. rewrite E. apply latest_in. apply elem_of_list_fmap. exists (x, t).
  split; [done|]. apply elem_of_list_filter. by split.
Qed.

Lemma bounded (wait : bool) limit start fs served U : Forall (SaneFn start) fs → served_ok wait limit start fs served →
  0 <= U → (∀ m, MatchOf fs m → m_update m <= U) →
  start <= invoke_end wait limit start fs served <= start + Z.max limit 0 + U + 100 * 1000000 + Sending fs.
Proof.
  intros Hs Hok HU Hu.
  assert (0 <= Sending fs) as Hsend.
  { apply Total_nonneg, Forall_forall. intros d (f & Hd & Hf)%elem_of_list_bind.
    apply elem_of_list_fmap in Hd as (m & -> & Hm). apply (sends_nonneg start fs Hs m). by exists f. }
  split; [apply latest_ge|]. destruct (invoke_end_cases wait limit start fs served) as [-> |(i & f & Hi & ->)]; [lia|].
  assert (SaneFn start f) as Hf.
  { refine (proj1 (Forall_forall _ _) Hs f _). by eapply elem_of_list_lookup_2. }
  pose proof (fn_end_bounds limit start f Hf). destruct (fn_done_cases wait limit start (serve start served) i f) as [-> |(_ & x & t & Hx & _ & ->)]; [lia|].
  destruct (handover wait limit start fs served x t Hs Hok Hx) as (others & Hp & _ & Hle).
  pose proof (served_sane _ _ _ _ _ x Hs Hok (serve_in _ _ _ _ Hx)) as Hin.
  pose proof (served_total wait limit start fs served Hs Hok) as Ht.
  rewrite (Total_perm _ _ (fmap_Permutation it_send _ _ Hp)) in Ht. rewrite fmap_cons in Ht. cbn [Total] in Ht.
  destruct (item_sane _ _ _ _ _ Hs Hin) as [Hsx _].
  destruct (all_items_sane _ _ _ _ _ Hs Hin) as (g & m & o & _ & Hg & Hm & E & Hl & _ & Hgs & Ex).
  pose proof (fn_end_bounds limit start g Hgs). specialize (Hu m (ex_intro _ g (conj Hg Hm))).
  rewrite Ex in Hle, Hsx, Ht. cbn [it_ready it_send] in Hle, Hsx, Ht. unfold check_time, millisecond in *. destruct wait; lia.
Qed.

Lemma well_served (wait : bool) limit start fs served i f m e : served_ok wait limit start fs served → fs !! i = Some f →
  EndsWell limit start f e → m ∈ fc_matches f → m_after m <= fc_run f →
  let x := Item i (e - fc_run f + m_after m + m_update m + if wait then check_time else 0) (m_send m) in
  ∃ t, (x, t) ∈ serve start served ∧ t + (if wait then 0 else check_time) <= invoke_end wait limit start fs served.
Proof.
  intros (_ & rest & Hp & Hrest) Hi He Hm Ha x. pose proof He as (o & E & _ & -> & Hl).
  destruct (ends_well_end _ _ _ _ He) as [Heq Hc].
  assert (x ∈ served) as Hx.
  { assert (x ∈ served ++ rest) as Hx.
    { rewrite Hp. apply all_items_in. exists i, f. split; [done|]. apply items_of_in. exists o, m.
      split; [done|]. split; [done|]. split; [lia|]. unfold x. f_equal. lia. }
    apply elem_of_app in Hx as [|Hx]; [done|]. specialize (Hrest x f Hx Hi). congruence. }
  destruct (serve_all served start x Hx) as [t Ht]. exists t. split; [done|].
  etrans; [|exact (invoke_end_at_least wait limit start fs served i f Hi)]. by apply (fn_done_match wait limit start _ i f x t).
Qed.

Lemma exact_fast (wait : bool) limit start fs served : Forall (SaneFn start) fs → served_ok wait limit start fs served →
  (∀ m, MatchOf fs m → m_send m = 0) →
  Latest (WaitedFor limit start fs) (invoke_end wait limit start fs served).
Proof.
  intros Hs Hok Hz. assert (∀ x t, (x, t) ∈ serve start served → t = it_ready x) as Hserve.
  { intros x t Hx. destruct (handover _ _ _ _ _ _ _ Hs Hok Hx) as (others & Hp & Hb).
    enough (Total (it_send <$> others) = 0) by lia.
    assert (∀ y, y ∈ others → it_send y = 0) as Ho.
    { intros y Hy. assert (y ∈ served) as Hy' by (rewrite Hp; by right).
      destruct (all_items_sane _ _ _ _ _ Hs (served_sane _ _ _ _ _ _ Hs Hok Hy')) as (g & m & o & _ & Hg & Hm & _ & _ & _ & _ & ->).
      apply Hz. by exists g. }
    clear -Ho. induction others as [|y l IH]; [done|]. rewrite fmap_cons. cbn [Total]. rewrite (Ho y) by left. rewrite IH; [done|]. intros z Hz. apply Ho. by right. }
  split.
  - destruct (invoke_end_cases wait limit start fs served) as [-> |(i & f & Hi & ->)]; [by left|]. right.
    pose proof (elem_of_list_lookup_2 _ _ _ Hi) as Hf.
    destruct (fn_done_cases wait limit start (serve start served) i f) as [-> |(Hc & x & t & Hx & Hxi & ->)].
    + left. exists f. split; [done|]. apply fn_end_spec.
    + right. rewrite (Hserve x t Hx).
      pose proof (served_sane _ _ _ _ _ x Hs Hok (serve_in _ _ _ _ Hx)) as Hin.
      destruct (all_items_sane _ _ _ _ _ Hs Hin) as (g & m & o & Hg & _ & Hm & E & Hl & _ & _ & Ex).
      rewrite Hxi, Hi in Hg. injection Hg as <-. pose proof (proj1 (complete_spec limit start f) Hc) as He.
      exists f, m, (fn_end limit start f). split; [done|]. split; [done|]. split; [done|].
      destruct He as (o' & E' & _ & He & _). rewrite E in E'. injection E' as <-. split; [lia|].
      rewrite Ex. simpl. unfold check_time, millisecond in *. destruct wait; lia.
  - intros u [-> |[(f & Hf & He)|(f & m & e & Hf & Hm & He & Ha & ->)]].
    + apply latest_ge.
    + apply elem_of_list_lookup in Hf as [i Hi]. rewrite (fn_ends_unique _ _ _ _ He).
      etrans; [|exact (invoke_end_at_least wait limit start fs served i f Hi)]. apply fn_done_end.
    + apply elem_of_list_lookup in Hf as [i Hi].
      destruct (well_served wait limit start fs served i f m e Hok Hi He Hm Ha) as (t & Ht & Hle).
      apply Hserve in Ht. simpl in Ht. unfold check_time, millisecond in *. destruct wait; lia.
Qed.

Lemma within_partial (wait : bool) limit start fs served : Forall (SaneFn start) fs → served_ok wait limit start fs served →
  (∀ f e, f ∈ fs → EndsWell limit start f e → fc_matches f = []) →
  Latest (λ t, t = start ∨ ∃ f, f ∈ fs ∧ FnEnds limit start f t) (invoke_end wait limit start fs served) ∧
  invoke_end wait limit start fs served <= start + Z.max limit 0.
Proof.
  intros Hs Hok Hw.
  assert (∀ i f, fs !! i = Some f → fn_done wait limit start (serve start served) i f = fn_end limit start f) as Hd.
  { intros i f Hi. destruct (fn_done_cases wait limit start (serve start served) i f) as [|(Hc & x & t & Hx & Hxi & _)]; [done|].
    exfalso. pose proof (served_sane _ _ _ _ _ x Hs Hok (serve_in _ _ _ _ Hx)) as Hin.
    destruct (all_items_sane _ _ _ _ _ Hs Hin) as (g & m & o & Hg & _ & Hm & _).
    rewrite Hxi, Hi in Hg. injection Hg as <-. pose proof (proj1 (complete_spec limit start f) Hc) as He.
    rewrite (Hw f _ (elem_of_list_lookup_2 _ _ _ Hi) He) in Hm. by apply elem_of_nil in Hm. }
  split; [split|].
  - destruct (invoke_end_cases wait limit start fs served) as [-> |(i & f & Hi & ->)]; [by left|]. right.
    exists f. split; [by eapply elem_of_list_lookup_2|]. rewrite (Hd i f Hi). apply fn_end_spec.
  - intros u [-> |(f & Hf & He)]; [apply latest_ge|].
    apply elem_of_list_lookup in Hf as [i Hi]. rewrite (fn_ends_unique _ _ _ _ He).
    etrans; [|exact (invoke_end_at_least wait limit start fs served i f Hi)]. apply fn_done_end.
  - destruct (invoke_end_cases wait limit start fs served) as [-> |(i & f & Hi & ->)]; [lia|].
    rewrite (Hd i f Hi). apply fn_end_bounds. refine (proj1 (Forall_forall _ _) Hs f _). by eapply elem_of_list_lookup_2.
Qed.
Lemma silent_holds (wait : bool) limit start fs served f k j : f ∈ fs → SaneFn start f →
  dn_first (fc_dns f) = replicate (S k) Silent → dn_other (fc_dns f) = replicate j Silent → dn_at (fc_dns f) < start + limit →
  start + limit <= invoke_end wait limit start fs served.
Proof.
  intros [i Hi]%elem_of_list_lookup (Hd & _) H1 H2 H3.
  etrans; [|exact (invoke_end_at_least wait limit start fs served i f Hi)]. etrans; [|apply fn_done_end].
  unfold fn_end. rewrite (silent_both limit start start (fc_dns f) k j Hd ltac:(lia) H1 H2 H3). lia.
Qed.

Lemma within_refuted : ¬ (∀ wait limit start fs served, Forall (SaneFn start) fs → served_ok wait limit start fs served → 0 <= limit →
  (∀ m, MatchOf fs m → m_send m = 0 ∧ m_update m = 0) → invoke_end wait limit start fs served <= start + limit).
Proof.
  intros H. pose (f := FCall (Dns 0 [Accepts 0] []) 9950000000 true [FMatch 9950000000 0 0]).
  specialize (H false 10000000000 0 [f] [Item 0 9950000000 0]). assert (10050000000 <= 10000000000); [|lia]. apply H.
  - apply Forall_cons_2; [|constructor]. repeat split; simpl; try lia; repeat constructor; simpl; lia.
  - split; [split; [constructor|done]|]. exists []. split; [done|]. by intros x g ?%elem_of_nil.
  - lia.
  - intros m (g & ->%elem_of_list_singleton & ->%elem_of_list_singleton). done.
Qed.
Lemma some_bound_refuted : ¬ (∃ B : Z → Z, ∀ wait limit start fs served, Forall (SaneFn start) fs → served_ok wait limit start fs served →
  (∀ m, MatchOf fs m → m_update m = 0) → invoke_end wait limit start fs served <= start + B limit).
Proof.
  intros [B H]. set (S := Z.max 0 (B 10000000000) + 1). assert (0 <= S) as HS by lia.
  pose (f := FCall (Dns 0 [Accepts 0] []) 0 true [FMatch 0 0 S; FMatch 0 0 S]).
  assert (all_items false 10000000000 0 0 [f] = [Item 0 0 S; Item 0 0 S]) as E by done.
  specialize (H false 10000000000 0 [f] [Item 0 0 S; Item 0 0 S]).
  assert (invoke_end false 10000000000 0 [f] [Item 0 0 S; Item 0 0 S] <= 0 + B 10000000000) as Hle.
  { apply H.
    - apply Forall_cons_2; [|constructor]. split; [|split; [simpl; lia|]].
      + repeat split; simpl; try lia; repeat constructor; simpl; lia.
      + apply Forall_cons_2; [|apply Forall_cons_2; [|constructor]]; repeat split; simpl; lia.
    - split.
      + simpl. split; [|split; [constructor|done]]. apply Forall_cons_2; [simpl; lia|constructor].
      + exists []. split; [by rewrite app_nil_r, E|]. by intros x g ?%elem_of_nil.
    - intros m (g & ->%elem_of_list_singleton & Hm). simpl in Hm. by apply elem_of_cons in Hm as [-> | ->%elem_of_list_singleton]. }
  assert (S <= invoke_end false 10000000000 0 [f] [Item 0 0 S; Item 0 0 S]); [|lia].
  etrans; [|exact (invoke_end_at_least false 10000000000 0 [f] _ 0%nat f eq_refl)].
  etrans; [|apply (fn_done_match false 10000000000 0 _ 0%nat f (Item 0 0 S) (Z.max (0 + S) 0)); [done| |done]].
  - unfold check_time, millisecond. lia.
  - simpl. right. left.
Qed.
