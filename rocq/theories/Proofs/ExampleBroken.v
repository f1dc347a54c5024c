(** Lemmas for C139: bodies that break off, and the statuses. *)
From Coq Require Import Ascii String ZArith NArith Lia.
From stdpp Require Import prelude strings gmap.
From Verif.Model Require Import GoStrings Types Wire JsonMsg HttpStream JsonText JsonBytes ExampleCalls ExampleCycle.
From Verif.Spec Require Import JsonSpec HttpSpec JsonTextSpec JsonBytesSpec ExampleCycleSpec.
From Verif.Proofs Require Import StringLemmas JsonLemmas HttpLemmas JsonTextLemmas Utf8TextLemmas JsonBytesLemmas ExampleCycleLemmas.
Local Open Scope N_scope.

Lemma code_status code st : http_status code = st ↔ CodeStatus code st.
Proof.
  assert (HC : CodeStatus code (http_status code)).
  { destruct (N.ltb_spec code 17) as [H|H].
    - assert (∃ n, code = N.of_nat n) as [n ->] by (exists (N.to_nat code); lia).
      do 17 (destruct n as [|n]; [solve [cbn; constructor; set_solver]|]). exfalso. lia.
    - unfold http_status. rewrite lookup_ge_None_2 by (cbn; lia). cbn [default]. apply CS_internal. right. lia. }
  split; [by intros <-|]. intros H.
  assert (∀ a b, CodeStatus code a → CodeStatus code b → a = b) as Hu; [|by apply Hu].
  clear. intros a b Ha Hb. destruct Ha, Hb; rewrite ?elem_of_cons, ?elem_of_nil in *; try reflexivity; exfalso; lia.
Qed.

(** ** Whole lines *)
Definition nl : ascii := ascii_of_N 10.
Fixpoint NoNl (s : string) : Prop :=
  match s with EmptyString => True | String c r => c ≠ nl ∧ NoNl r end.
Lemma whole_none s : NoNl s → whole_lines s = ""%string.
Proof.
  induction s as [|c s IH]; intros H; [done|]. destruct H as [Hc H]. cbn [whole_lines]. rewrite IH by done. cbn [String.eqb].
  destruct (Ascii.eqb_spec c (ascii_of_N 10)) as [->|_]; done.
Qed.
Lemma whole_line s r : NoNl s → whole_lines (s +:+ String nl r) = s +:+ String nl (whole_lines r).
Proof.
  induction s as [|c s IH]; intros H.
  - change (whole_lines (String nl r) = String nl (whole_lines r)). cbn [whole_lines].
    destruct (String.eqb_spec (whole_lines r) "") as [->|_]; done.
  - destruct H as [_ H]. change (whole_lines (String c (s +:+ String nl r)) = String c (s +:+ String nl (whole_lines r))).
    cbn [whole_lines]. rewrite IH by done. by destruct s.
Qed.
Lemma nonl_app a b : NoNl (a +:+ b) ↔ NoNl a ∧ NoNl b.
Proof.
  induction a as [|c a IH]; [cbn; tauto|]. change (String c a +:+ b) with (String c (a +:+ b)). cbn [NoNl]. rewrite IH. tauto.
Qed.

(** Lines, as bytes. *)
Definition lines (ls : list string) : string := fold_right (λ l r, l +:+ String nl r) ""%string ls.
Lemma prefix_cases X r p q : p +:+ q = X +:+ String nl r →
  (∃ x', X = p +:+ x') ∨ ∃ p', p = X +:+ String nl p' ∧ p' +:+ q = r.
Proof.
  revert p. induction X as [|c X IH]; intros p E.
  - destruct p as [|c p]; [left; by exists ""%string|]. right. change (String c (p +:+ q) = String nl r) in E. injection E as -> E. by exists p.
  - destruct p as [|c' p]; [left; by exists (String c X)|].
    change (String c' (p +:+ q) = String c (X +:+ String nl r)) in E. injection E as -> E. destruct (IH p E) as [[x' ->]|(p' & -> & E')].
    + left. by exists x'.
    + right. by exists p'.
Qed.
Lemma whole_prefix ls p q : Forall NoNl ls → p +:+ q = lines ls → ∃ k, whole_lines p = lines (take k ls).
Proof.
  revert p. induction ls as [|l ls IH]; intros p H E.
  - exists 0%nat. by destruct p.
  - apply Forall_cons in H as [Hl H]. cbn [lines fold_right] in E. change (fold_right _ _ ls) with (lines ls) in E.
    destruct (prefix_cases _ _ _ _ E) as [[x' ->]|(p' & -> & E')].
    + exists 0%nat. apply nonl_app in Hl as [Hl _]. by apply whole_none.
    + destruct (IH p' H E') as [k Hk]. exists (S k). rewrite whole_line by done. by rewrite Hk.
Qed.

Lemma byte_not_nl n : n < 256 → n ≠ 10 → ascii_of_N n ≠ nl.
Proof.
  intros H Hn E. apply Hn. rewrite <-(N_ascii_embedding n H), E. reflexivity.
Qed.
Lemma enc_nonl t : Forall Rune t → 10 ∉ t → NoNl (utf8_enc t).
Proof.
  induction t as [|r t IH]; intros H Hn; [done|]. apply Forall_cons in H as [Hr H]. apply not_elem_of_cons in Hn as [Hne Hn].
  rewrite utf8_enc_cons. apply nonl_app. split; [|by apply IH].
  assert (∀ b, RuneBytes r b → Forall (λ n, n < 256 ∧ n ≠ 10) b) as Hb by (destruct 1; repeat constructor; lia).
  specialize (Hb _ (rune_bytes_ok r Hr)). clear -Hb. unfold bytes. induction Hb as [|n b [H1 H2] _ IH]; [done|].
  cbn [map string_of_list_ascii NoNl]. split; [by apply byte_not_nl|done].
Qed.

(** ** Lines of the gateway *)
Definition line_texts (ls : list text) : text := concat (map (λ l, l ++ [10]) ls).
Lemma enc_lines ls : utf8_enc (line_texts ls) = lines (map utf8_enc ls).
Proof.
  induction ls as [|l ls IH]; [done|]. unfold line_texts. cbn [map concat]. rewrite <-app_assoc, utf8_enc_app.
  change ([10] ++ concat (map (λ l, l ++ [10]) ls)) with (10 :: line_texts ls). rewrite utf8_enc_cons, IH. done.
Qed.
(** A line that the example can read, or that ends it. *)
Definition LongLine (l : text) : Prop :=
  Forall Rune l ∧ 10 ∉ l ∧ (11 <= length l)%nat ∧ (∀ rest, scan_line ((l ++ [10]) ++ rest) = ScanErr ∨ scan_line ((l ++ [10]) ++ rest) = Scanned l rest).
Lemma long_reads ls got : Forall LongLine ls → reads (line_texts ls) got ≠ ReadPanics.
Proof.
  intros H. revert got. induction H as [|l ls Hl _ IH]; intros got; [done|]. destruct Hl as (_ & _ & Hl & Hs).
  unfold line_texts. cbn [map concat]. change (concat (map (λ l, l ++ [10]) ls)) with (line_texts ls).
  rewrite reads_unfold. destruct (Hs (line_texts ls)) as [-> | ->]; [done|]. unfold trim.
  destruct (Nat.ltb_spec (length l) 11) as [Hlt|_]; [exfalso; lia|]. apply IH.
Qed.
Lemma result_long sp v : Writable v → LongLine (result_line (sent_text sp (tree v))).
Proof.
  intros HW. pose proof (sent_no_newline sp v HW) as Hn. split_and!.
  - pose proof (tree_runes sp v HW) as [_ H]. unfold result_line, result_open.
    repeat (apply Forall_app_2 || (constructor; [apply rune_ascii; lia|]) || exact H || constructor).
  - unfold result_line, result_open. rewrite !elem_of_app, !elem_of_cons, elem_of_nil. intros [H|[H|H]]; [lia|done|].
    destruct H as [H|H]; [lia|done].
  - unfold result_line. rewrite !app_length. cbn. lia.
  - intros rest. destruct (decide (Forall (λ r, is_space r = false) (sent_text sp (tree v)))) as [Hd|Hd].
    + right. apply scan_good. intros r Hr. rewrite Forall_forall in Hd. apply is_space_false. by apply Hd.
    + left. apply scan_bad; [|done]. intros H. apply Hd, Forall_forall. intros r Hr. apply is_space_false. by apply H.
Qed.
Lemma scan_failure t rest : SpaceFree t → scan_line ((failure_line t ++ [10]) ++ rest) = Scanned (failure_line t) rest.
Proof.
  intros Ht. unfold scan_line.
  assert (skip_space ((failure_line t ++ [10]) ++ rest) = Some ((failure_line t ++ [10]) ++ rest)) as -> by reflexivity.
  destruct ((failure_line t ++ [10]) ++ rest) as [|r t1] eqn:E; [discriminate E|]. rewrite <-E. rewrite <-app_assoc. cbn [app].
  rewrite (token_app (failure_line t) 10 rest); [reflexivity| |unfold SpaceChar; lia].
  unfold failure_line. rewrite !space_free_app, space_free_sing. split; [apply error_open_free|]. split; [done|]. unfold SpaceChar. lia.
Qed.
Lemma scan_failure_bad t rest : ¬ SpaceFree t → 10 ∉ t → scan_line ((failure_line t ++ [10]) ++ rest) = ScanErr.
Proof.
  intros Ht Hn. destruct (split_space t Ht) as (a & r & b & -> & Ha & Hr). unfold scan_line.
  assert (skip_space ((failure_line (a ++ r :: b) ++ [10]) ++ rest) = Some ((failure_line (a ++ r :: b) ++ [10]) ++ rest)) as -> by reflexivity.
  destruct ((failure_line (a ++ r :: b) ++ [10]) ++ rest) as [|x t1] eqn:E; [discriminate E|]. rewrite <-E.
  assert ((failure_line (a ++ r :: b) ++ [10]) ++ rest = (error_open ++ a) ++ r :: (b ++ 125 :: 10 :: rest)) as ->.
  { unfold failure_line. rewrite <-!app_assoc. reflexivity. }
  rewrite token_app; [|apply space_free_app; split; [apply error_open_free|done]|done].
  change (r :: b ++ 125 :: 10 :: rest) with ((r :: b) ++ 125 :: 10 :: rest).
  rewrite match_newline_blocked; [done|]. intros H. apply Hn, elem_of_app. by right.
Qed.
Lemma failure_long sp f j : RealFailure f → j_failure f = Some j → LongLine (failure_line (sent_text sp (tree j))).
Proof.
  intros HF Hj. pose proof (failure_writable f j HF Hj) as HW. pose proof (sent_no_newline sp j HW) as Hn. split_and!.
  - pose proof (tree_runes sp j HW) as [_ H]. unfold failure_line, error_open.
    repeat (apply Forall_app_2 || (constructor; [apply rune_ascii; lia|]) || exact H || constructor).
  - unfold failure_line, error_open. rewrite !elem_of_app, !elem_of_cons, elem_of_nil. intros [H|[H|H]]; [lia|done|].
    destruct H as [H|H]; [lia|done].
  - destruct (failure_sent sp f j HF Hj) as [rest ->]. unfold failure_line. rewrite !app_length. cbn. lia.
  - intros rest. destruct (decide (Forall (λ r, is_space r = false) (sent_text sp (tree j)))) as [Hd|Hd].
    + right. apply scan_failure. intros r Hr. rewrite Forall_forall in Hd. apply is_space_false. by apply Hd.
    + left. apply scan_failure_bad; [|done]. intros H. apply Hd, Forall_forall. intros r Hr. apply is_space_false. by apply H.
Qed.

Lemma gateway_lines sp vs e : Forall Writable vs → (∀ f, e = Some f → RealFailure f) →
  ∃ ls, Forall LongLine ls ∧ stream_of (map (λ v, sent_text sp (tree v)) vs) ++ failure_text sp e = line_texts ls.
Proof.
  intros HW He.
  assert (∃ le, Forall LongLine le ∧ failure_text sp e = line_texts le) as (le & Hle & ->).
  { unfold failure_text. destruct e as [f|]; [|exists []; split; [constructor|done]]. destruct (j_failure f) as [j|] eqn:Ej; [|exists []; split; [constructor|done]].
    exists [failure_line (sent_text sp (tree j))]. split; [constructor; [exact (failure_long sp f j (He f eq_refl) Ej)|constructor]|].
    unfold line_texts. cbn [map concat]. by rewrite app_nil_r. }
  exists (map (λ v, result_line (sent_text sp (tree v))) vs ++ le). split.
  - apply Forall_app_2; [|done]. apply Forall_map. eapply Forall_impl; [exact HW|]. intros v Hv. by apply result_long.
  - unfold line_texts, stream_of. rewrite map_app, concat_app. f_equal. by rewrite !map_map.
Qed.

(** ** Bodies that break off *)
Lemma broken_never_next read st body ms l : cycle_http read (HAnswer st body true) ≠ Next ms l.
Proof. cbn [cycle_http]. destruct (negb (st =? 200)%Z); [done|]. by destruct (example_reads _). Qed.
Lemma broken_exit read sp vs e st body b p q : Forall Writable vs → (∀ f, e = Some f → RealFailure f) →
  gateway_stream sp (vs, e) = HAnswer st body b → body = p +:+ q → cycle_http read (HAnswer st p true) = Exit.
Proof.
  intros HW He [= _ <- <-] E. cbn [fst snd] in E. destruct (gateway_lines sp vs e HW He) as (ls & Hls & El). rewrite El, enc_lines in E.
  cbn [cycle_http]. destruct (negb (st =? 200)%Z); [done|].
  destruct (whole_prefix (map utf8_enc ls) p q) as [k Hk]; [|done|].
  { apply Forall_map. eapply Forall_impl; [exact Hls|]. intros l (H1 & H2 & _). by apply enc_nonl. }
  rewrite Hk, firstn_map, <-enc_lines. assert (Ht : Forall LongLine (take k ls)) by (by apply Forall_take).
  assert (runes (utf8_enc (line_texts (take k ls))) = line_texts (take k ls)) as ->.
  { unfold runes. rewrite dec_enc_whole; [done|]. clear -Ht. unfold line_texts. induction Ht as [|l ls0 Hl _ IH]; [constructor|]. cbn [map concat].
    destruct Hl as [Hl _]. apply Forall_app_2; [|done]. apply Forall_app_2; [done|]. constructor; [apply rune_ascii; lia|constructor]. }
  change (example_reads (line_texts (take k ls))) with (reads (line_texts (take k ls)) []).
  pose proof (long_reads _ [] Ht) as Hp. by destruct (reads _ _).
Qed.
