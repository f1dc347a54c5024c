(** http.DefaultServeMux with the pages of om-core. *)
From Coq Require Import Ascii String ZArith NArith Lia.
From stdpp Require Import prelude strings.
From Verif.Model Require Import GoStrings Gateway Dial DebugMux.
From Verif.Spec Require Import DebugSpec.
From Verif.Proofs Require Import StringLemmas MiscLemmas.
Local Open Scope string_scope.

Lemma snoc_inj a b c : a +:+ String c "" = b +:+ String c "" → a = b.
Proof.
  revert b. induction a as [|x a IH]; intros [|y b] E; cbn in E; [done| | |].
  - injection E as _ E. by destruct b.
  - injection E as _ E. by destruct a.
  - injection E as -> E. f_equal. by apply IH.
Qed.

Fixpoint noslash (s : string) : bool := match s with "" => true | String c s' => negb (Ascii.eqb c "/") && noslash s' end.
Definition good (s : string) : bool :=
  noslash s && negb (String.eqb s "") && negb (String.eqb s ".") && negb (String.eqb s "..").

Lemma noslash_iff s : noslash s = true ↔ ∀ a b, s ≠ a +:+ "/" +:+ b.
Proof.
  induction s as [|c s IH]; cbn [noslash].
  - split; [|done]. intros _ a b. by destruct a.
  - rewrite andb_true_iff, negb_true_iff, Ascii.eqb_neq, IH. split.
    + intros [Hc Hs] a b E. destruct a as [|d a]; cbn in E; injection E as E1 E2; [by apply Hc|exact (Hs a b E2)].
    + intros H. split.
      * intros ->. by apply (H "" s).
      * intros a b E. apply (H (String c a) b). by rewrite E.
Qed.
Lemma good_iff s : good s = true ↔ GoodSeg s.
Proof.
  unfold good, GoodSeg. rewrite !andb_true_iff, !negb_true_iff, !String.eqb_neq, noslash_iff. tauto.
Qed.

Lemma slashed_path l : slashed l = PathOf l.
Proof. induction l as [|w l IH]; [done|]. cbn [slashed PathOf foldr]. by rewrite IH. Qed.
Lemma slashed_app a b : slashed (a ++ b) = slashed a +:+ slashed b.
Proof. induction a as [|w a IH]; [done|]. cbn [slashed app]. rewrite IH. by rewrite !app_assoc_s. Qed.

Lemma split_noslash s : noslash s = true → split_slash s = [s].
Proof.
  induction s as [|c s IH]; [done|]. cbn [noslash split_slash]. intros [Hc Hs]%andb_true_iff.
  apply negb_true_iff in Hc. rewrite Hc, (IH Hs). done.
Qed.
Lemma split_app_slash w r : noslash w = true → split_slash (w +:+ String "/" r) = w :: split_slash r.
Proof.
  induction w as [|c w IH]; [done|]. cbn [noslash]. intros [Hc Hs]%andb_true_iff. apply negb_true_iff in Hc.
  change (String c w +:+ String "/" r) with (String c (w +:+ String "/" r)). cbn [split_slash]. by rewrite Hc, (IH Hs).
Qed.
Lemma split_slashed w l : noslash w = true → Forall (λ x, noslash x = true) l → split_slash (w +:+ slashed l) = w :: l.
Proof.
  revert w. induction l as [|b l IH]; intros w Hw Hl.
  - cbn [slashed]. rewrite app_nil_r_s. by apply split_noslash.
  - inversion Hl; subst. cbn [slashed]. change ("/" +:+ b +:+ slashed l) with (String "/" (b +:+ slashed l)).
    rewrite split_app_slash by done. by rewrite IH.
Qed.
Lemma split_parts p : Forall (λ x, noslash x = true) (split_slash p).
Proof.
  induction p as [|c p IH]; cbn [split_slash]; [by repeat constructor|]. destruct (Ascii.eqb c "/") eqn:E; [by constructor|].
  destruct (split_slash p) as [|w ws]; inversion IH; subst.
  - repeat constructor. cbn. by rewrite E.
  - constructor; [|done]. cbn. by rewrite E.
Qed.

Lemma resolve_good_app acc l : Forall (λ x, good x = true) l → fold_left resolve1 l acc = (acc ++ l)%list.
Proof.
  revert acc. induction l as [|w l IH]; intros acc Hl; [by rewrite app_nil_r|]. inversion Hl as [|? ? Hw Hl']; subst.
  cbn [fold_left]. unfold resolve1 at 2. unfold good in Hw. rewrite !andb_true_iff, !negb_true_iff in Hw.
  destruct Hw as [[[_ ->] ->] ->]. cbn. rewrite IH by done. by rewrite <-app_assoc.
Qed.
Lemma resolve_good l acc : Forall (λ x, noslash x = true) l → Forall (λ x, good x = true) acc →
  Forall (λ x, good x = true) (fold_left resolve1 l acc).
Proof.
  revert acc. induction l as [|w l IH]; intros acc Hl Ha; [done|]. inversion Hl; subst. cbn [fold_left]. apply IH; [done|].
  unfold resolve1. destruct (String.eqb w "") eqn:E1; [done|]. destruct (String.eqb w ".") eqn:E2; [done|]. cbn [orb].
  destruct (String.eqb w "..") eqn:E3.
  - clear -Ha. induction Ha as [|x l Hx Hl IHl]; [constructor|]. cbn. destruct l; [constructor|]. by constructor.
  - apply Forall_app. split; [done|]. constructor; [|done]. unfold good. rewrite E1, E2, E3. by rewrite H1.
Qed.

Lemma ends_app a b : b ≠ "" → ends_slash (a +:+ b) = ends_slash b.
Proof.
  intros Hb. induction a as [|c a IH]; [done|]. change (String c a +:+ b) with (String c (a +:+ b)).
  cbn [ends_slash]. rewrite <-IH. destruct a; cbn; [by destruct b|done].
Qed.
Lemma ends_noslash w : noslash w = true → ends_slash w = false.
Proof.
  induction w as [|c w IH]; [done|]. cbn [noslash]. intros [Hc Hs]%andb_true_iff. apply negb_true_iff in Hc.
  cbn [ends_slash]. destruct w; [done|]. by apply IH.
Qed.
Lemma good_noslash w : good w = true → noslash w = true.
Proof. unfold good. by intros [[[? _]%andb_true_iff _]%andb_true_iff _]%andb_true_iff. Qed.
Lemma good_nonempty w : good w = true → w ≠ "".
Proof. intros H ->. done. Qed.
Lemma goods_noslash l : Forall (λ x, good x = true) l → Forall (λ x, noslash x = true) l.
Proof. intros H. eapply Forall_impl; [exact H|]. exact good_noslash. Qed.
Lemma ends_slashed l : Forall (λ x, good x = true) l → ends_slash (slashed l) = false.
Proof.
  destruct l as [|w l _] using rev_ind; [done|]. intros [_ Hw]%Forall_app. inversion Hw as [|? ? Hw' _]; subst.
  rewrite slashed_app. cbn [slashed]. rewrite app_nil_r_s. rewrite ends_app by done. rewrite ends_app by (by apply good_nonempty).
  by apply ends_noslash, good_noslash.
Qed.
Lemma slashed_root l : Forall (λ x, good x = true) l → l ≠ [] → String.eqb (slashed l) "/" = false.
Proof.
  intros Hl Hne. apply String.eqb_neq. intros E. pose proof (ends_slashed l Hl) as He. rewrite E in He. done.
Qed.
Lemma slashed_starts l : l ≠ [] → starts_slash (slashed l) = true.
Proof. by destruct l. Qed.

(** Canonical paths are those that cleaning leaves alone, and cleaning gives one. *)
Lemma clean_canonical p : Canonical (clean_path p).
Proof.
  unfold clean_path. destruct (String.eqb p ""); [exists []; split; [done|by right]|].
  set (p0 := if starts_slash p then p else "/" +:+ p). unfold path_clean.
  pose proof (resolve_good (split_slash p0) [] (split_parts p0) ltac:(constructor)) as Hg. fold (resolve (split_slash p0)) in Hg.
  assert (HG : Forall GoodSeg (resolve (split_slash p0))) by (eapply Forall_impl; [exact Hg|]; intros x; apply good_iff).
  destruct (resolve (split_slash p0)) as [|w l] eqn:E.
  - rewrite andb_false_r. exists []. split; [done|by right].
  - rewrite slashed_root by done. cbn [negb]. rewrite andb_true_r. exists (w :: l). split; [done|]. rewrite <-(slashed_path (w :: l)).
    destruct (ends_slash p0); [by right|by left].
Qed.
Lemma canonical_clean p : Canonical p → clean_path p = p.
Proof.
  intros (l & HG & H). assert (Hg : Forall (λ x, good x = true) l) by (eapply Forall_impl; [exact HG|]; intros x; apply good_iff).
  rewrite <-slashed_path in H. destruct H as [[-> Hne]| ->].
  - unfold clean_path. pose proof (slashed_starts l Hne) as Hs. destruct (String.eqb (slashed l) "") eqn:E0.
    { apply String.eqb_eq in E0. by rewrite E0 in Hs. }
    rewrite Hs, (ends_slashed l Hg). cbn [andb]. unfold path_clean, resolve.
    change (slashed l) with ("" +:+ slashed l) at 1. rewrite split_slashed by (try done; by apply goods_noslash).
    cbn [fold_left]. change (resolve1 [] "") with (@nil string). rewrite resolve_good_app by done. cbn [app]. by destruct l.
  - assert (Es : slashed l +:+ "/" = slashed (l ++ [""])) by (by rewrite slashed_app).
    assert (Hs : starts_slash (slashed l +:+ "/") = true) by (rewrite Es; apply slashed_starts; by destruct l).
    unfold clean_path. destruct (String.eqb (slashed l +:+ "/") "") eqn:E0.
    { apply String.eqb_eq in E0. by rewrite E0 in Hs. }
    rewrite Hs, ends_app by done. change (ends_slash "/") with true. cbn [andb].
    assert (Ec : path_clean (slashed l +:+ "/") = match l with [] => "/" | _ => slashed l end).
    { unfold path_clean, resolve. rewrite Es. change (slashed (l ++ [""])) with ("" +:+ slashed (l ++ [""])).
      rewrite split_slashed; [|done|apply Forall_app; split; [by apply goods_noslash|by repeat constructor]].
      cbn [fold_left]. change (resolve1 [] "") with (@nil string). rewrite fold_left_app, (resolve_good_app [] l Hg). cbn [app].
      cbn [fold_left]. change (resolve1 l "") with l. by destruct l. }
    rewrite Ec. destruct l as [|w l]; [done|]. by rewrite slashed_root.
Qed.

(** ** The patterns *)
Lemma prefix_split q p : String.prefix q p = true ↔ ∃ r, p = q +:+ r.
Proof.
  revert p. induction q as [|c q IH]; intros p.
  - split; [by exists p|]. intros _. by destruct p.
  - destruct p as [|d p]; cbn [String.prefix].
    + split; [done|]. by intros [r ?].
    + destruct (ascii_dec c d) as [->|Hne].
      * rewrite IH. split; intros [r E]; exists r; [by rewrite E|]. by injection E.
      * split; [done|]. intros [r E]. by injection E.
Qed.
Lemma match_iff p h : mux_match p = Some h ↔ PageAt p h.
Proof.
  unfold mux_match, default_patterns. cbn [find_exact find_prefix].
  destruct (String.eqb_spec p "/debug/pprof/") as [->|H1].
  { split.
    - intros [= <-]. exists "". split; [done|]. by rewrite !not_elem_of_cons, elem_of_nil; repeat split; try done; intros [].
    - destruct h; intros H; cbn in H; try done. }
  destruct (String.eqb_spec p "/debug/pprof/cmdline") as [->|H2].
  { split; [by intros [= <-]|]. destruct h; intros H; cbn in H; try done.
    destruct H as (r & E & Hr). cbn in E. injection E as <-. destruct Hr. by left. }
  destruct (String.eqb_spec p "/debug/pprof/profile") as [->|H3].
  { split; [by intros [= <-]|]. destruct h; intros H; cbn in H; try done.
    destruct H as (r & E & Hr). cbn in E. injection E as <-. destruct Hr. right. by left. }
  destruct (String.eqb_spec p "/debug/pprof/symbol") as [->|H4].
  { split; [by intros [= <-]|]. destruct h; intros H; cbn in H; try done.
    destruct H as (r & E & Hr). cbn in E. injection E as <-. destruct Hr. do 2 right. by left. }
  destruct (String.eqb_spec p "/debug/pprof/trace") as [->|H5].
  { split; [by intros [= <-]|]. destruct h; intros H; cbn in H; try done.
    destruct H as (r & E & Hr). cbn in E. injection E as <-. destruct Hr. do 3 right. by left. }
  destruct (String.eqb_spec p "/metrics") as [->|H6].
  { split; [by intros [= <-]|]. destruct h; intros H; cbn in H; try done. destruct H as (r & E & Hr). done. }
  change (ends_slash "/debug/pprof/") with true. change (ends_slash "/debug/pprof/cmdline") with false.
  change (ends_slash "/debug/pprof/profile") with false. change (ends_slash "/debug/pprof/symbol") with false.
  change (ends_slash "/debug/pprof/trace") with false. change (ends_slash "/metrics") with false. cbn [andb].
  destruct (String.prefix "/debug/pprof/" p) eqn:E.
  - apply prefix_split in E as [r ->]. split.
    + intros [= <-]. exists r. split; [done|]. intros Hr. rewrite !elem_of_cons in Hr.
      destruct Hr as [-> | [-> | [-> | [-> | []%elem_of_nil]]]]; done.
    + destruct h; intros H; cbn [PageAt] in H; done.
  - split; [done|]. destruct h; intros H; cbn [PageAt] in H; try done. destruct H as (r & -> & _).
    assert (X : String.prefix "/debug/pprof/" ("/debug/pprof/" +:+ r) = true) by (apply prefix_split; by exists r). congruence.
Qed.
Lemma slash_missing_iff p : slash_missing p = true ↔ p = "/debug/pprof".
Proof.
  split; [|by intros ->]. unfold slash_missing. destruct (find_exact default_patterns p); [done|].
  intros [_ H]%andb_true_iff. unfold default_patterns in H. cbn [find_exact] in H.
  repeat match type of H with context [String.eqb ?a ?b] => destruct (String.eqb_spec a b) as [E|_] end; try done;
    try (assert (Hf : ends_slash (p +:+ "/") = true) by (by rewrite ends_app); rewrite E in Hf; discriminate Hf).
  exact (snoc_inj _ "/debug/pprof" _ E).
Qed.

(** ** What is served *)
Lemma serves_iff meth p h : mux_serve meth p = Serves h ↔ PageAt p h ∧ (meth = "CONNECT" ∨ Canonical p).
Proof.
  unfold mux_serve. destruct (String.eqb_spec p "*") as [->|Hstar].
  { split; [done|]. intros [H _]. destruct h; cbn in H; try done. by destruct H as (r & E & _). }
  assert (Hm : ∀ h, PageAt p h → slash_missing p = false).
  { intros h' H'. destruct (slash_missing p) eqn:E; [|done]. apply slash_missing_iff in E. subst p.
    destruct h'; cbn in H'; try done. by destruct H' as (r & E & _). }
  destruct (String.eqb_spec meth "CONNECT") as [->|Hc].
  - split.
    + destruct (slash_missing p); [done|]. destruct (mux_match p) as [h'|] eqn:E; [|done]. intros [= ->].
      apply match_iff in E. split; [done|by left].
    + intros [H _]. rewrite (Hm h H). apply match_iff in H. by rewrite H.
  - split.
    + destruct (slash_missing (clean_path p)); [done|]. destruct (String.eqb_spec (clean_path p) p) as [E|E]; [|done].
      cbn [negb]. destruct (mux_match p) as [h'|] eqn:E'; [|done]. intros [= ->]. apply match_iff in E'. split; [done|]. right.
      rewrite <-E. apply clean_canonical.
    + intros [H [?|Hcan]]; [done|]. rewrite (canonical_clean p Hcan), (Hm h H), String.eqb_refl. cbn [negb].
      apply match_iff in H. by rewrite H.
Qed.
Lemma moved_once meth p q q' : mux_serve meth p = Moved q → mux_serve meth q ≠ Moved q'.
Proof.
  unfold mux_serve at 1. destruct (String.eqb p "*"); [done|]. destruct (String.eqb_spec meth "CONNECT") as [->|Hc].
  - destruct (slash_missing p) eqn:E; [|by destruct (mux_match p)]. apply slash_missing_iff in E. subst p. intros [= <-]. done.
  - pose proof (clean_canonical p) as Hcan. destruct (slash_missing (clean_path p)) eqn:E.
    + apply slash_missing_iff in E. rewrite E. intros [= <-]. unfold mux_serve. cbn [String.eqb]. apply String.eqb_neq in Hc. rewrite Hc. done.
    + destruct (String.eqb (clean_path p) p); [by destruct (mux_match p)|]. intros [= <-]. unfold mux_serve.
      destruct (String.eqb (clean_path p) "*"); [done|]. apply String.eqb_neq in Hc. rewrite Hc.
      rewrite (canonical_clean _ Hcan), E, String.eqb_refl. cbn [negb]. by destruct (mux_match (clean_path p)).
Qed.
(** Where a request is sent: the path cleaned, or the index of the debug pages. *)
Lemma moved_where meth p q : meth ≠ "CONNECT" → mux_serve meth p = Moved q →
  Canonical q ∧ (q = clean_path p ∨ (clean_path p = "/debug/pprof" ∧ q = "/debug/pprof/")).
Proof.
  intros Hc. unfold mux_serve. destruct (String.eqb p "*"); [done|]. apply String.eqb_neq in Hc. rewrite Hc.
  pose proof (clean_canonical p) as Hcan. destruct (slash_missing (clean_path p)) eqn:E.
  - apply slash_missing_iff in E. rewrite E. intros [= <-]. split; [|by right]. exists ["debug"; "pprof"]. split; [|by right].
    repeat constructor; apply good_iff; done.
  - destruct (String.eqb (clean_path p) p); [by destruct (mux_match p)|]. intros [= <-]. split; [done|by left].
Qed.

Lemma remote_exactly port meth p a :
  http_get core_listeners OtherHost port meth p = a ↔
  a = if String.eqb port "2223" then FromMux (mux_serve meth p)
      else if String.eqb port "58081" then FromGateway (serve meth p) else NoConnection.
Proof.
  unfold core_listeners. cbn [http_get].
  change (split_host_port ":2223") with (Some ("", "2223")). change (split_host_port "localhost:2224") with (Some ("localhost", "2224")).
  change (split_host_port ":58081") with (Some ("", "58081")). 
  change (can_connect OtherHost ":2223") with true. change (can_connect OtherHost "localhost:2224") with false.
  change (can_connect OtherHost ":58081") with true. rewrite !andb_true_r, !andb_false_r.
  destruct (String.eqb port "2223"); [naive_solver|]. destruct (String.eqb port "58081"); naive_solver.
Qed.
Lemma local_exactly port meth p a :
  http_get core_listeners SameHost port meth p = a ↔
  a = if String.eqb port "2223" || String.eqb port "2224" then FromMux (mux_serve meth p)
      else if String.eqb port "58081" then FromGateway (serve meth p) else NoConnection.
Proof.
  unfold core_listeners. cbn [http_get].
  change (split_host_port ":2223") with (Some ("", "2223")). change (split_host_port "localhost:2224") with (Some ("localhost", "2224")).
  change (split_host_port ":58081") with (Some ("", "58081")).
  change (can_connect SameHost ":2223") with true. change (can_connect SameHost "localhost:2224") with true.
  change (can_connect SameHost ":58081") with true. rewrite !andb_true_r.
  destruct (String.eqb port "2223"); [naive_solver|]. destruct (String.eqb port "2224"); [naive_solver|].
  destruct (String.eqb port "58081"); naive_solver.
Qed.
(** The debug pages, to others: at one port, under one path. *)
Lemma remote_debug port meth p h : http_get core_listeners OtherHost port meth p = FromMux (Serves h) ↔
  port = "2223" ∧ PageAt p h ∧ (meth = "CONNECT" ∨ Canonical p).
Proof.
  rewrite remote_exactly, <-serves_iff. destruct (String.eqb_spec port "2223") as [->|Hp].
  - split; [by intros [= <-]|]. by intros [_ ->].
  - split; [|by intros [? _]]. destruct (String.eqb port "58081"); done.
Qed.

(** ** What cleaning does *)
Lemma clean_slashed l : l ≠ [] → Forall (λ x, noslash x = true) l →
  clean_path (slashed l) =
    let r := fold_left resolve1 l [] in let np := match r with [] => "/" | _ => slashed r end in
    if ends_slash (slashed l) && negb (String.eqb np "/") then np +:+ "/" else np.
Proof.
  intros Hne Hl. unfold clean_path. pose proof (slashed_starts l Hne) as Hs. destruct (String.eqb (slashed l) "") eqn:E0.
  { apply String.eqb_eq in E0. by rewrite E0 in Hs. }
  rewrite Hs. cbv zeta. assert (Hp : path_clean (slashed l) = match fold_left resolve1 l [] with [] => "/" | _ => slashed (fold_left resolve1 l []) end).
  { unfold path_clean, resolve. change (slashed l) with ("" +:+ slashed l). rewrite split_slashed by done.
    cbn [fold_left]. change (resolve1 [] "") with (@nil string). by destruct (fold_left resolve1 l []). }
  by rewrite Hp.
Qed.
Lemma ends_slashed_app a b : b ≠ [] → ends_slash (slashed (a ++ b)) = ends_slash (slashed b).
Proof. intros Hb. rewrite slashed_app. apply ends_app. by destruct b. Qed.
Lemma clean_same a b b' : b ≠ [] → b' ≠ [] → Forall (λ x, noslash x = true) (a ++ b) → Forall (λ x, noslash x = true) (a ++ b') →
  (∀ acc, fold_left resolve1 b acc = fold_left resolve1 b' acc) → ends_slash (slashed b) = ends_slash (slashed b') →
  clean_path (slashed (a ++ b)) = clean_path (slashed (a ++ b')).
Proof.
  intros Hb Hb' H H' Ef Ee. rewrite !clean_slashed; [|by destruct a, b'|done|by destruct a, b|done].
  rewrite !fold_left_app, Ef, !ends_slashed_app, Ee by done. done.
Qed.
Lemma noslash_all l : Forall NoSlash l ↔ Forall (λ x, noslash x = true) l.
Proof. split; intros H; (eapply Forall_impl; [exact H|]); intros x; cbn; by rewrite noslash_iff. Qed.
Lemma clean_dots a x b : Forall NoSlash a → GoodSeg x → Forall NoSlash b → b ≠ [] →
  clean_path (PathOf (a ++ x :: ".." :: b)) = clean_path (PathOf (a ++ b)).
Proof.
  rewrite !noslash_all. intros Ha Hx Hb Hne. apply good_iff in Hx. rewrite <-!slashed_path.
  apply clean_same; [done|done| | | |].
  - apply Forall_app. split; [done|]. constructor; [by apply good_noslash|]. by constructor.
  - by apply Forall_app.
  - intros acc. cbn [fold_left]. f_equal. unfold resolve1 at 2. unfold good in Hx. rewrite !andb_true_iff, !negb_true_iff in Hx.
    destruct Hx as [[[_ ->] ->] ->]. cbn [orb]. unfold resolve1. cbn [String.eqb orb]. cbn. apply removelast_last.
  - change (x :: ".." :: b) with ([x; ".."] ++ b)%list. by apply ends_slashed_app.
Qed.
Lemma clean_skip a w b : w = "" ∨ w = "." → Forall NoSlash a → Forall NoSlash b → b ≠ [] →
  clean_path (PathOf (a ++ w :: b)) = clean_path (PathOf (a ++ b)).
Proof.
  rewrite !noslash_all. intros Hw Ha Hb Hne. rewrite <-!slashed_path.
  apply clean_same; [done|done| | | |].
  - apply Forall_app. split; [done|]. constructor; [by destruct Hw as [-> | ->]|done].
  - by apply Forall_app.
  - intros acc. cbn [fold_left]. f_equal. by destruct Hw as [-> | ->].
  - change (w :: b) with ([w] ++ b)%list. by apply ends_slashed_app.
Qed.
Lemma clean_root_dots b : Forall NoSlash b → b ≠ [] → clean_path (PathOf (".." :: b)) = clean_path (PathOf b).
Proof.
  rewrite !noslash_all. intros Hb Hne. rewrite <-!slashed_path. rewrite !clean_slashed; [|done|done|done|by constructor].
  cbn [fold_left]. change (resolve1 [] "..") with (@nil string). change (".." :: b) with ([".."] ++ b)%list. by rewrite ends_slashed_app.
Qed.
Lemma ends_dots a w : noslash w = true → w ≠ "" → ends_slash (slashed (a ++ [w])) = false.
Proof.
  intros Hw Hne. rewrite ends_slashed_app by done. cbn [slashed]. rewrite app_nil_r_s. rewrite ends_app by done. by apply ends_noslash.
Qed.
Lemma clean_end a : Forall GoodSeg a → a ≠ [] →
  clean_path (PathOf (a ++ ["."])) = PathOf a ∧ ∀ x, GoodSeg x → clean_path (PathOf (a ++ [x; ".."])) = PathOf a.
Proof.
  intros HG Hne. assert (Hg : Forall (λ x, good x = true) a) by (eapply Forall_impl; [exact HG|]; intros x; apply good_iff).
  pose proof (goods_noslash _ Hg) as Hn. rewrite <-!slashed_path. split.
  - rewrite clean_slashed; [|by destruct a|apply Forall_app; split; [done|repeat constructor]].
    rewrite ends_dots by done. cbn [andb]. rewrite fold_left_app, (resolve_good_app [] a Hg). cbn. by destruct a.
  - intros x Hx. apply good_iff in Hx. rewrite <-slashed_path.
    change (a ++ [x; ".."])%list with (a ++ ([x] ++ [".."]))%list. rewrite app_assoc.
    rewrite clean_slashed; [|by destruct a|apply Forall_app; split; [apply Forall_app; split; [done|constructor; [by apply good_noslash|constructor]]|repeat constructor]].
    rewrite ends_dots by done. cbn [andb]. rewrite fold_left_app.
    rewrite (resolve_good_app [] (a ++ [x])) by (apply Forall_app; split; [done|by constructor]). cbn [app fold_left].
    unfold resolve1. cbn [String.eqb orb]. cbn. rewrite removelast_last. by destruct a.
Qed.

Lemma moved_iff meth p q : meth ≠ "CONNECT" → mux_serve meth p = Moved q ↔
  p ≠ "*" ∧ ((clean_path p = "/debug/pprof" ∧ q = "/debug/pprof/") ∨ (clean_path p ≠ "/debug/pprof" ∧ clean_path p ≠ p ∧ q = clean_path p)).
Proof.
  intros Hc. unfold mux_serve. destruct (String.eqb_spec p "*") as [->|Hs]; [split; [done|by intros [? _]]|].
  apply String.eqb_neq in Hc. rewrite Hc. destruct (slash_missing (clean_path p)) eqn:E.
  - apply slash_missing_iff in E. rewrite E. split; [intros [= <-]; split; [done|by left]|].
    intros [_ [[_ ->]|[? _]]]; done.
  - assert (Hn : clean_path p ≠ "/debug/pprof") by (intros E'; apply slash_missing_iff in E'; congruence).
    destruct (String.eqb_spec (clean_path p) p) as [Ec|Ec]; cbn [negb].
    + split; [by destruct (mux_match p)|]. by intros [_ [[? _]|[_ [? _]]]].
    + split; [intros [= <-]; split; [done|by right]|]. intros [_ [[? _]|(_ & _ & ->)]]; done.
Qed.
Lemma refused_iff meth p : mux_serve meth p = Refused ↔ p = "*".
Proof.
  unfold mux_serve. destruct (String.eqb_spec p "*") as [->|Hs]; [done|]. split; [|done].
  destruct (String.eqb meth "CONNECT"); [destruct (slash_missing p); [done|by destruct (mux_match p)]|].
  destruct (slash_missing (clean_path p)); [done|]. destruct (negb _); [done|by destruct (mux_match p)].
Qed.
