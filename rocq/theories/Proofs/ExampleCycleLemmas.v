(** Lemmas for C139. *)
From Coq Require Import Ascii String ZArith NArith Lia.
From stdpp Require Import prelude strings gmap.
From Verif.Model Require Import GoStrings Types Wire JsonMsg HttpStream JsonText JsonBytes ExampleCalls ExampleCycle.
From Verif.Spec Require Import JsonSpec HttpSpec JsonTextSpec JsonBytesSpec ExampleCycleSpec.
From Verif.Proofs Require Import StringLemmas JsonLemmas HttpLemmas JsonTextLemmas Utf8TextLemmas JsonBytesLemmas.
Local Open Scope N_scope.

Lemma status_200 code : http_status code = 200%Z ↔ code = 0.
Proof.
  split; [|by intros ->]. unfold http_status. destruct (N.ltb_spec code 17) as [H|H].
  - assert (Hc : ∀ n, (n < 17)%nat → default 500%Z ([200; 499; 500; 400; 504; 404; 409; 403; 429; 400; 409; 400; 501; 500; 503; 500; 401]%Z !! n) = 200%Z → n = 0%nat).
    { intros n Hn. do 17 (destruct n as [|n]; [cbn; done|]). lia. }
    intros E. apply Hc in E; lia.
  - rewrite lookup_ge_None_2; [done|]. cbn. lia.
Qed.

(** ** Lines *)
Lemma error_open_free : SpaceFree error_open.
Proof.
  unfold error_open. rewrite !space_free_cons. unfold SpaceChar. repeat (split; [lia|]). apply space_free_nil.
Qed.
Lemma trim_failure_line c t : trim (failure_line (c :: t)) = Some t.
Proof.
  unfold trim. assert (length (failure_line (c :: t)) = 11 + length t)%nat as ->.
  { unfold failure_line. rewrite !app_length. cbn. lia. }
  destruct (Nat.ltb_spec (11 + length t) 11) as [Hlt|Hge]; [exfalso; lia|]. f_equal.
  replace (11 + length t - 11)%nat with (length t) by lia.
  assert (drop 10 (failure_line (c :: t)) = t ++ [125]) as -> by reflexivity. apply take_app.
Qed.
Lemma scan_error t : SpaceFree t → scan_line (failure_line t ++ [10]) = Scanned (failure_line t) [].
Proof.
  intros Ht. unfold scan_line.
  assert (skip_space (failure_line t ++ [10]) = Some (failure_line t ++ [10])) as -> by reflexivity.
  destruct (failure_line t ++ [10]) as [|r t1] eqn:E; [discriminate E|]. rewrite <-E.
  rewrite (token_app (failure_line t) 10 []); [reflexivity| |unfold SpaceChar; lia].
  unfold failure_line. rewrite !space_free_app, space_free_sing. split; [apply error_open_free|]. split; [done|]. unfold SpaceChar. lia.
Qed.
Lemma scan_error_bad t : ¬ SpaceFree t → 10 ∉ t → scan_line (failure_line t ++ [10]) = ScanErr.
Proof.
  intros Ht Hn. destruct (split_space t Ht) as (a & r & b & -> & Ha & Hr). unfold scan_line.
  assert (skip_space (failure_line (a ++ r :: b) ++ [10]) = Some (failure_line (a ++ r :: b) ++ [10])) as -> by reflexivity.
  destruct (failure_line (a ++ r :: b) ++ [10]) as [|x t1] eqn:E; [discriminate E|]. rewrite <-E.
  assert (failure_line (a ++ r :: b) ++ [10] = (error_open ++ a) ++ r :: (b ++ 125 :: [10])) as ->.
  { unfold failure_line. rewrite <-!app_assoc. reflexivity. }
  rewrite token_app; [|apply space_free_app; split; [apply error_open_free|done]|done].
  change (r :: b ++ 125 :: [10]) with ((r :: b) ++ 125 :: [10]).
  rewrite match_newline_blocked; [done|]. intros H. apply Hn, elem_of_app. by right.
Qed.

(** ** The status as JSON *)
Lemma failure_shape f j : j_failure f = Some j → ∃ l, j = JDict (("code"%string, JNum (format_N (fl_code f))) :: l).
Proof.
  unfold j_failure. destruct (fl_details f) as [ds|]; [|done]. destruct (utf8_valid (fl_msg f)); [|done]. intros [= <-]. by eexists.
Qed.
Lemma failure_writable f j : RealFailure f → j_failure f = Some j → Writable j.
Proof.
  intros [_ Hd]. unfold j_failure. destruct (fl_details f) as [ds|]; [|done]. destruct (utf8_valid (fl_msg f)) eqn:E; [|done].
  intros [= <-]. constructor. intros k v Hx. rewrite !elem_of_cons, elem_of_nil in Hx. destruct Hx as [[= -> ->]|[[= -> ->]|[[= -> ->]|[]]]].
  - split; [reflexivity|]. constructor. pose proof (format_number (Z.of_N (fl_code f))) as H. rewrite format_Z_nonneg, N2Z.id in H by lia. exact H.
  - split; [reflexivity|]. by constructor.
  - split; [reflexivity|]. constructor. specialize (Hd ds eq_refl). rewrite Forall_forall in Hd. exact Hd.
Qed.
Lemma failure_sent sp f j : RealFailure f → j_failure f = Some j →
  ∃ rest, sent_text sp (tree j) = 123 :: 34 :: 99 :: 111 :: 100 :: 101 :: 34 :: 58 :: rest.
Proof.
  intros HF Hj. pose proof (failure_writable f j HF Hj) as HW. rewrite sent_text_printc by (by apply real_good, tree_scalars).
  destruct (failure_shape f j Hj) as [l ->]. cbn [tree map printc]. cbn [map fst snd joined].
  change (runes "code") with [99; 111; 100; 101]. unfold quotedc.
  destruct l as [|kv l]; eexists; reflexivity.
Qed.
Lemma rest_unread rest : read_text (34 :: 99 :: 111 :: 100 :: 101 :: 34 :: 58 :: rest) = None.
Proof. reflexivity. Qed.

(** ** Reading the stream *)
Section stream.
  Variables (read : jv → option (option match_)) (sp : bool).
  Definition texts (vs : list jv) : list text := map (λ v, sent_text sp (tree v)) vs.
  Lemma free_iff v : Writable v → SpaceFree (sent_text sp (tree v)) ↔ NoSpaces v.
  Proof.
    intros HW. rewrite spaces_iff by done. pose proof (real_good _ (tree_scalars v HW)) as HG. rewrite sent_text_printc by done. by apply printc_free.
  Qed.
  Lemma texts_free vs : Forall Writable vs → Forall SpaceFree (texts vs) ↔ Forall NoSpaces vs.
  Proof.
    intros HW. unfold texts. rewrite Forall_map. split; intros H; induction H as [|v vs Hv _ IH]; try constructor; apply Forall_cons in HW as [Hw HW];
      try (by apply free_iff); try (by apply IH).
  Qed.
  Lemma body_runes vs e : Forall Writable vs → (∀ f, e = Some f → RealFailure f) →
    runes (utf8_enc (stream_of (texts vs) ++ failure_text sp e)) = stream_of (texts vs) ++ failure_text sp e.
  Proof.
    intros HW He. unfold runes. rewrite dec_enc_whole; [done|]. apply Forall_app_2.
    - apply stream_runes. unfold texts. apply Forall_map. eapply Forall_impl; [exact HW|]. intros v Hv. by apply tree_runes.
    - unfold failure_text. destruct e as [f|]; [|constructor]. destruct (j_failure f) as [j|] eqn:Ej; [|constructor].
      pose proof (failure_writable f j (He f eq_refl) Ej) as Hw. apply (tree_runes sp) in Hw as [_ Hw]. unfold failure_line, error_open.
      repeat (apply Forall_app_2 || (constructor; [apply rune_ascii; lia|]) || exact Hw || constructor).
  Qed.
  Lemma not_free vs : Forall Writable vs → ¬ Forall NoSpaces vs →
    ∃ vs1 v vs2, vs = vs1 ++ v :: vs2 ∧ Forall NoSpaces vs1 ∧ ¬ SpaceFree (sent_text sp (tree v)) ∧ ¬ NoSpaces v.
  Proof.
    induction vs as [|v vs IH]; intros HW H; [destruct H; constructor|]. apply Forall_cons in HW as [Hw HW].
    destruct (decide (Forall (λ r, is_space r = false) (sent_text sp (tree v)))) as [Hd|Hd].
    - assert (Hf : SpaceFree (sent_text sp (tree v))).
      { intros r Hr. rewrite Forall_forall in Hd. apply is_space_false. by apply Hd. }
      destruct IH as (vs1 & x & vs2 & -> & H1 & H2); [done| |].
      { intros Hv. apply H. constructor; [by apply free_iff|done]. }
      exists (v :: vs1), x, vs2. split; [done|]. split; [|done]. constructor; [by apply free_iff|done].
    - exists [], v, vs. split; [done|]. split; [constructor|].
      assert (Hf : ¬ SpaceFree (sent_text sp (tree v))).
      { intros Hf. apply Hd, Forall_forall. intros r Hr. apply is_space_false. by apply Hf. }
      split; [done|]. by rewrite <-free_iff.
  Qed.
  Lemma sent_no_newline v : Writable v → 10 ∉ sent_text sp (tree v).
  Proof.
    intros HW. pose proof (real_good _ (tree_scalars v HW)) as HG. rewrite sent_text_printc by done. by apply printc_no_newline.
  Qed.

  Lemma reads_space vs rest : Forall Writable vs → ¬ Forall NoSpaces vs → ∃ got, example_reads (stream_of (texts vs) ++ rest) = ReadFatal got.
  Proof.
    intros HW H. destruct (not_free vs HW H) as (vs1 & v & vs2 & -> & H1 & H2 & _). apply Forall_app in HW as [HW1 HW]. apply Forall_cons in HW as [Hv _].
    exists (texts vs1). unfold texts. rewrite map_app, stream_of_app. cbn [map].
    change (reads ((stream_of (texts vs1) ++ stream_of (sent_text sp (tree v) :: texts vs2)) ++ rest) [] = ReadFatal (texts vs1)).
    rewrite <-app_assoc, reads_good by (by apply texts_free). unfold stream_of at 1. cbn [map concat]. rewrite <-app_assoc.
    rewrite reads_unfold, scan_bad; [reflexivity|done|]. by apply sent_no_newline.
  Qed.
  Lemma reads_rest vs rest : Forall Writable vs → Forall NoSpaces vs → example_reads (stream_of (texts vs) ++ rest) = reads rest (texts vs).
  Proof.
    intros HW H. change (reads (stream_of (texts vs) ++ rest) [] = reads rest (texts vs)). by rewrite reads_good by (by apply texts_free).
  Qed.
  Lemma texts_values vs : Forall Writable vs → map (λ t, j ← read_text t; read (value j)) (texts vs) = map read vs.
  Proof.
    intros HW. unfold texts. rewrite map_map. apply map_ext_in. intros v Hv. apply elem_of_list_In in Hv. rewrite Forall_forall in HW.
    destruct (read_sent sp (tree v) (tree_scalars v (HW v Hv))) as [_ ->]. cbn [mbind option_bind]. by rewrite tree_value by (by apply HW).
  Qed.
End stream.

Lemma existsb_somes {A} (l : list A) : existsb (λ r : option A, match r with None => true | Some _ => false end) (map Some l) = false.
Proof. induction l as [|x l IH]; [done|exact IH]. Qed.
Lemma default_somes {A} (l : list (option A)) : map (λ r, default None r) (map Some l) = l.
Proof. rewrite map_map. apply map_id. Qed.

(** ** The cycle *)
Lemma cycle_outcome read sp ms vs f : Forall Writable vs → map read vs = map Some ms → (∀ x, f = Some x → RealFailure x) →
  Outcome ms vs f (cycle_http read (gateway_stream sp (vs, f))).
Proof.
  intros HW Hr Hf. unfold cycle_http, gateway_stream. cbn [fst snd]. change (map (λ v, sent_text sp (tree v)) vs) with (texts sp vs).
  rewrite body_runes by done.
  destruct (decide (f ≠ None ∧ vs = [])) as [[Hn ->]|Hn].
  { destruct f as [x|]; [|done]. cbn [stream_status]. destruct (Z.eqb_spec (http_status (fl_code x)) 200) as [E|_].
    - apply status_200 in E. by destruct (Hf x eq_refl).
    - cbn [negb]. by eapply OC_refused. }
  assert (stream_status (vs, f) = 200%Z) as ->.
  { unfold stream_status. destruct vs; [|done]. destruct f; [|done]. by destruct Hn. }
  cbn [Z.eqb Pos.eqb negb].
  destruct (decide (Forall (λ t, Forall (λ r, is_space r = false) t) (texts sp vs))) as [Hd|Hd].
  2:{ assert (¬ Forall NoSpaces vs) as Hs.
      { rewrite <-(texts_free sp) by done. intros H. apply Hd. eapply Forall_impl; [exact H|]. intros t Ht. apply Forall_forall. intros r Hx.
        apply is_space_false. by apply Ht. }
      destruct (reads_space sp vs (failure_text sp f) HW Hs) as [got ->]. destruct (not_free sp vs HW Hs) as (vs1 & v & vs2 & -> & _ & _ & Hv).
      apply (OC_space _ _ _ v); [|done]. apply elem_of_app. right. left. }
  assert (Forall NoSpaces vs) as Hs.
  { apply (texts_free sp); [done|]. eapply Forall_impl; [exact Hd|]. intros t Ht r Hx. apply is_space_false. rewrite Forall_forall in Ht. by apply Ht. }
  rewrite reads_rest by done. unfold failure_text. destruct f as [x|].
  - assert (Hv : vs ≠ []) by (intros ->; by apply Hn). destruct (j_failure x) as [j|] eqn:Ej.
    + pose proof (failure_writable x j (Hf x eq_refl) Ej) as Hw. destruct (failure_sent sp x j (Hf x eq_refl) Ej) as [rest Et].
      destruct (decide (Forall (λ r, is_space r = false) (sent_text sp (tree j)))) as [Hj|Hj].
      * assert (SpaceFree (sent_text sp (tree j))) as Hfr.
        { intros r Hx. apply is_space_false. rewrite Forall_forall in Hj. by apply Hj. }
        rewrite reads_unfold, scan_error by done. rewrite Et, trim_failure_line. cbn [app]. rewrite reads_unfold. cbn [scan_line skip_space].
        rewrite map_app. rewrite texts_values by done. rewrite Hr. cbn [map]. rewrite rest_unread. cbn [mbind option_bind].
        rewrite map_app, default_somes, existsb_app, existsb_somes. cbn [map default existsb orb].
        eapply OC_counted; try done. by apply (free_iff sp).
      * assert (¬ SpaceFree (sent_text sp (tree j))) as Hfr.
        { intros H. apply Hj, Forall_forall. intros r Hx. apply is_space_false. by apply H. }
        rewrite reads_unfold, scan_error_bad; [|done|by apply sent_no_newline]. eapply OC_fatal; try done. by rewrite <-(free_iff sp).
    + rewrite reads_unfold. cbn [scan_line skip_space]. rewrite texts_values by done. rewrite Hr, default_somes, existsb_somes. by eapply OC_silent.
  - rewrite reads_unfold. cbn [scan_line skip_space]. rewrite texts_values by done. rewrite Hr, default_somes, existsb_somes. by apply OC_all.
Qed.
Lemma outcome_unique ms vs f r r' : (∀ x, x ∈ vs → Writable x) → (∀ x, f = Some x → RealFailure x) → Outcome ms vs f r → Outcome ms vs f r' → r = r'.
Proof.
  intros _ _ H H'. destruct H, H'; simplify_eq; try done; exfalso; rewrite ?Forall_forall in *; eauto; by apply elem_of_nil in H.
Qed.
Lemma written_spec c d bad ms e ms1 f : Agree c d → WritesJson c → BreaksOff c bad ms e ms1 f → Forall (AllOpt (AllMatch (kept c d))) ms1 →
  ∃ vs, mapM (j_result c true) ms1 = Some vs ∧ written (j_result c true) bad ms e = (vs, f) ∧ Forall Writable vs ∧
    map (r_result d) vs = map Some ms1.
Proof.
  intros HA HC HB HM.
  assert (∃ vs, mapM (j_result c true) ms1 = Some vs ∧ Forall Writable vs ∧ map (r_result d) vs = map Some ms1 ∧
    ∀ ms2, written (j_result c true) bad (ms1 ++ ms2) e =
      ((vs ++ (written (j_result c true) bad ms2 e).1)%list, (written (j_result c true) bad ms2 e).2)) as (vs & E & HW & Hr & Hw).
  { clear HB. induction HM as [|m ms1 Hm _ IH].
    - exists []. split; [done|]. split; [constructor|]. split; [done|]. intros ms2. cbn. by destruct (written _ _ _ _).
    - destruct IH as (vs & E & HW & Hr & Hw). destruct (rt_result c d HA true m Hm) as (v & Ev & _ & Hv). exists (v :: vs). split_and!.
      + cbn [mapM]. rewrite Ev, E. done.
      + constructor; [|done]. by eapply jw_result.
      + cbn [map]. by rewrite Hv, Hr.
      + intros ms2. cbn [app written]. rewrite Ev, Hw. done. }
  exists vs. split; [done|]. destruct HB as [|ms1 m ms2 -> Hm].
  - specialize (Hw []). rewrite app_nil_r in Hw. cbn in Hw. by rewrite app_nil_r in Hw.
  - rewrite Hw. cbn [written]. assert (j_result c true m = None) as ->.
    { apply none_of. by rewrite j_result_some. }
    cbn [fst snd]. by rewrite app_nil_r.
Qed.
Lemma http_cycle c d sp bad ms e ms1 f : Agree c d → WritesJson c → BreaksOff c bad ms e ms1 f → Forall (AllOpt (AllMatch (kept c d))) ms1 →
  (∀ x, f = Some x → RealFailure x) →
  ∃ vs, mapM (j_result c true) ms1 = Some vs ∧
    ∀ r, cycle_http (r_result d) (gateway_stream sp (written (j_result c true) bad ms e)) = r ↔ Outcome ms1 vs f r.
Proof.
  intros HA HC HB HM Hf. destruct (written_spec c d bad ms e ms1 f HA HC HB HM) as (vs & E & -> & HW & Hr). exists vs. split; [done|].
  pose proof (cycle_outcome (r_result d) sp ms1 vs f HW Hr Hf) as HO. intros r. split; [by intros <-|]. intros H.
  by eapply outcome_unique; [| |exact HO|exact H]; [apply Forall_forall|].
Qed.
