(** Lemmas for C98. *)
From Coq Require Import Ascii String ZArith NArith Lia.
From stdpp Require Import prelude.
From Verif.Model Require Import HttpStream.
From Verif.Spec Require Import HttpSpec.
Local Open Scope N_scope.

Lemma is_space_spec r : is_space r = true ↔ SpaceChar r.
Proof.
  unfold is_space, SpaceChar. cbn [existsb fst snd].
  rewrite !orb_true_iff, !andb_true_iff, !N.leb_le. rewrite orb_false_r || idtac.
  split; intros H; repeat (destruct H as [H|H]); try lia; try discriminate H.
Qed.
Lemma is_space_false r : is_space r = false ↔ ¬ SpaceChar r.
Proof. rewrite <-is_space_spec. by destruct (is_space r). Qed.
Lemma space_dec r : Decision (SpaceChar r).
Proof. destruct (is_space r) eqn:E; [left|right]; [by apply is_space_spec|by apply is_space_false]. Qed.

Lemma space_free_nil : SpaceFree [].
Proof. intros r Hr. by apply elem_of_nil in Hr. Qed.
Lemma space_free_cons r t : SpaceFree (r :: t) ↔ ¬ SpaceChar r ∧ SpaceFree t.
Proof. unfold SpaceFree. setoid_rewrite elem_of_cons. naive_solver. Qed.
Lemma space_free_app t1 t2 : SpaceFree (t1 ++ t2) ↔ SpaceFree t1 ∧ SpaceFree t2.
Proof. unfold SpaceFree. setoid_rewrite elem_of_app. naive_solver. Qed.
Lemma space_free_sing r : SpaceFree [r] ↔ ¬ SpaceChar r.
Proof. rewrite space_free_cons. pose proof space_free_nil. naive_solver. Qed.

(** ** Reading *)
Lemma token_spec t : token t = (t, []) ∨ ∃ a r b, t = a ++ r :: b ∧ SpaceFree a ∧ SpaceChar r ∧ token t = (a, r :: b).
Proof.
  induction t as [|r t IH]; [by left|]. cbn [token]. destruct (is_space r) eqn:E.
  - right. exists [], r, t. split; [done|]. split; [apply space_free_nil|]. split; [by apply is_space_spec|done].
  - destruct IH as [IH|(a & r' & b & -> & Ha & Hr & IH)]; rewrite IH; [by left|].
    right. exists (r :: a), r', b. split; [done|]. split; [|done]. apply space_free_cons. split; [by apply is_space_false|done].
Qed.
Lemma token_app a r b : SpaceFree a → SpaceChar r → token (a ++ r :: b) = (a, r :: b).
Proof.
  intros Ha Hr. induction a as [|x a IH]; cbn [app token].
  - apply is_space_spec in Hr. by rewrite Hr.
  - apply space_free_cons in Ha as [Hx Ha]. apply is_space_false in Hx. rewrite Hx. by rewrite (IH Ha).
Qed.
Lemma match_newline_length t t' : match_newline t = Some t' → (length t' <= length t)%nat.
Proof.
  revert t'. induction t as [|r t IH]; intros t'; cbn [match_newline]; [by intros [= <-]|].
  destruct (r =? 10); [intros [= <-]; cbn; lia|]. destruct (is_space r); [|done]. intros H. apply IH in H. cbn. lia.
Qed.
Lemma skip_space_length t t' : skip_space t = Some t' → (length t' <= length t)%nat ∧
  match t' with [] => True | r :: _ => ¬ SpaceChar r end.
Proof.
  revert t'. induction t as [|r t IH]; intros t'; cbn [skip_space]; [by intros [= <-]|].
  destruct (r =? 10); [done|]. destruct (is_space r) eqn:E.
  - intros H. apply IH in H as [? ?]. cbn. split; [lia|done].
  - intros [= <-]. split; [done|]. by apply is_space_false.
Qed.
Lemma scan_line_length t msg rest : scan_line t = Scanned msg rest → (length rest < length t)%nat.
Proof.
  unfold scan_line. destruct (skip_space t) as [[|r t1]|] eqn:Hs; try discriminate.
  apply skip_space_length in Hs as [Hl Hr]. destruct (token (r :: t1)) as [a b] eqn:Ht.
  destruct (match_newline b) as [t3|] eqn:Hn; [|discriminate]. intros [= <- <-].
  apply match_newline_length in Hn. cbn [token] in Ht. apply is_space_false in Hr. rewrite Hr in Ht.
  assert (length b <= length t1)%nat; [|cbn in Hl; lia].
  destruct (token t1) as [a1 b1] eqn:Ht1. injection Ht as _ <-.
  destruct (token_spec t1) as [E|(x & y & z & -> & _ & _ & E)]; rewrite E in Ht1; injection Ht1 as _ <-; cbn; [lia|].
  rewrite app_length. cbn. lia.
Qed.

(** More fuel changes nothing. *)
Lemma read_stream_fuel f1 : ∀ f2 t got, (length t < f1)%nat → (length t < f2)%nat → read_stream f1 t got = read_stream f2 t got.
Proof.
  induction f1 as [|f1 IH]; intros [|f2] t got H1 H2; try lia. cbn [read_stream].
  destruct (scan_line t) as [| |msg rest] eqn:E; [done|done|]. destruct (trim msg); [|done].
  apply scan_line_length in E. apply IH; lia.
Qed.
Definition reads (t : text) (got : list text) : read_result := read_stream (S (length t)) t got.
Lemma reads_unfold t got : reads t got =
  match scan_line t with
  | ScanEOF => ReadAll got
  | ScanErr => ReadFatal got
  | Scanned msg rest => match trim msg with None => ReadPanics | Some x => reads rest (got ++ [x]) end
  end.
Proof.
  unfold reads at 1. cbn [read_stream]. destruct (scan_line t) as [| |msg rest] eqn:E; [done|done|].
  destruct (trim msg); [|done]. apply scan_line_length in E. unfold reads.
  exact (read_stream_fuel _ _ _ _ E (Nat.lt_succ_diag_r _)).
Qed.

Lemma open_space_free : SpaceFree result_open.
Proof.
  unfold result_open. rewrite !space_free_cons. unfold SpaceChar.
  repeat (split; [lia|]). apply space_free_nil.
Qed.
Lemma result_line_free t : SpaceFree (result_line t) ↔ SpaceFree t.
Proof.
  unfold result_line. rewrite !space_free_app, space_free_sing. pose proof open_space_free.
  assert (¬ SpaceChar 125) by (unfold SpaceChar; lia). naive_solver.
Qed.
Lemma trim_result_line t : trim (result_line t) = Some t.
Proof.
  unfold trim. assert (length (result_line t) = 11 + length t)%nat as ->.
  { unfold result_line. rewrite !app_length. cbn. lia. }
  destruct (Nat.ltb_spec (11 + length t) 11) as [Hlt|Hge]; [exfalso; lia|]. f_equal.
  replace (11 + length t - 11)%nat with (length t) by lia.
  assert (drop 10 (result_line t) = t ++ [125]) as -> by reflexivity. apply take_app.
Qed.

Lemma scan_good t rest : SpaceFree t → scan_line ((result_line t ++ [10]) ++ rest) = Scanned (result_line t) rest.
Proof.
  intros Ht. unfold scan_line.
  assert (skip_space ((result_line t ++ [10]) ++ rest) = Some ((result_line t ++ [10]) ++ rest)) as -> by reflexivity.
  destruct ((result_line t ++ [10]) ++ rest) as [|r t1] eqn:E; [discriminate E|]. rewrite <-E. rewrite <-app_assoc.
  cbn [app]. rewrite (token_app (result_line t) 10 rest); [reflexivity|by apply result_line_free|].
  unfold SpaceChar. lia.
Qed.

(** The first space of a text is followed by something before the next newline. *)
Lemma split_space t : ¬ SpaceFree t → ∃ a r b, t = a ++ r :: b ∧ SpaceFree a ∧ SpaceChar r.
Proof.
  induction t as [|x t IH]; intros H; [destruct H; apply space_free_nil|].
  destruct (space_dec x) as [Hx|Hx].
  - exists [], x, t. split; [done|]. split; [apply space_free_nil|done].
  - destruct IH as (a & r & b & -> & Ha & Hr).
    { intros Ht. apply H. by apply space_free_cons. }
    exists (x :: a), r, b. split; [done|]. split; [|done]. by apply space_free_cons.
Qed.
Lemma match_newline_blocked l rest : 10 ∉ l → match_newline (l ++ 125 :: rest) = None.
Proof.
  induction l as [|x l IH]; intros H; [reflexivity|]. cbn [app match_newline].
  apply not_elem_of_cons in H as [Hx Hl]. destruct (N.eqb_spec x 10) as [->|_]; [done|].
  destruct (is_space x); [by apply IH|done].
Qed.
Lemma scan_bad t rest : ¬ SpaceFree t → 10 ∉ t → scan_line ((result_line t ++ [10]) ++ rest) = ScanErr.
Proof.
  intros Ht Hn. destruct (split_space t Ht) as (a & r & b & -> & Ha & Hr). unfold scan_line.
  assert (skip_space ((result_line (a ++ r :: b) ++ [10]) ++ rest) = Some ((result_line (a ++ r :: b) ++ [10]) ++ rest)) as ->
    by reflexivity.
  destruct ((result_line (a ++ r :: b) ++ [10]) ++ rest) as [|x t1] eqn:E; [discriminate E|]. rewrite <-E.
  assert ((result_line (a ++ r :: b) ++ [10]) ++ rest = (result_open ++ a) ++ r :: (b ++ 125 :: 10 :: rest)) as ->.
  { unfold result_line. rewrite <-!app_assoc. reflexivity. }
  rewrite token_app; [|apply space_free_app; split; [apply open_space_free|done]|done].
  change (r :: b ++ 125 :: 10 :: rest) with ((r :: b) ++ 125 :: 10 :: rest).
  rewrite match_newline_blocked; [done|]. intros H. apply Hn, elem_of_app. by right.
Qed.

Lemma reads_good ts : ∀ got rest, Forall SpaceFree ts → reads (stream_of ts ++ rest) got = reads rest (got ++ ts).
Proof.
  induction ts as [|t ts IH]; intros got rest H; [by rewrite app_nil_r|].
  apply Forall_cons in H as [Ht Hts]. unfold stream_of. cbn [map concat]. rewrite <-app_assoc.
  change (concat (map (λ t, result_line t ++ [10]) ts)) with (stream_of ts).
  rewrite reads_unfold, scan_good by done. rewrite trim_result_line. rewrite IH by done. by rewrite <-app_assoc.
Qed.
Lemma stream_of_app ts1 ts2 : stream_of (ts1 ++ ts2) = stream_of ts1 ++ stream_of ts2.
Proof. unfold stream_of. by rewrite map_app, concat_app. Qed.

Lemma reads_all ts : Forall SpaceFree ts → example_reads (stream_of ts) = ReadAll ts.
Proof.
  intros H. change (reads (stream_of ts) [] = ReadAll ts). rewrite <-(app_nil_r (stream_of ts)).
  rewrite reads_good by done. reflexivity.
Qed.
Lemma reads_fatal ts1 t ts2 : Forall SpaceFree ts1 → ¬ SpaceFree t → 10 ∉ t →
  example_reads (stream_of (ts1 ++ t :: ts2)) = ReadFatal ts1.
Proof.
  intros H1 Ht Hn. change (reads (stream_of (ts1 ++ t :: ts2)) [] = ReadFatal ts1).
  rewrite stream_of_app, reads_good by done. unfold stream_of. cbn [map concat].
  rewrite reads_unfold, scan_bad by done. reflexivity.
Qed.

(** ** Writing *)
Lemma json_ind' (P : json → Prop) :
  (∀ t, P (JRaw t)) → (∀ t, P (JStr t)) → (∀ l, Forall P l → P (JArr l)) →
  (∀ l, Forall (λ kv, P kv.2) l → P (JObj l)) → ∀ j, P j.
Proof.
  intros HR HS HA HO. fix IH 1. intros [t|t|l|l]; [apply HR|apply HS|apply HA|apply HO].
  - induction l as [|j l IHl]; constructor; [apply IH|exact IHl].
  - induction l as [|[k j] l IHl]; constructor; [apply IH|exact IHl].
Qed.

Lemma hex_digit_free d : d < 16 → ¬ SpaceChar (hex_digit d) ∧ hex_digit d ≠ 10.
Proof. intros H. unfold hex_digit, SpaceChar. destruct (N.ltb_spec d 10); lia. Qed.


(** ** What is left after compaction *)
Definition escaped (r : N) : text :=
  if (r =? 60) || (r =? 62) || (r =? 38) || (r =? 0x2028) || (r =? 0x2029) then html_escape r else escape r.
Definition quotedc (t : text) : text := 34 :: concat (map escaped t) ++ [34].
Fixpoint printc (j : json) : text :=
  match j with
  | JRaw t => t
  | JStr t => quotedc t
  | JArr l => 91 :: joined false (map printc l) ++ [93]
  | JObj l => 123 :: joined false (map (λ kv, quotedc kv.1 ++ 58 :: printc kv.2) l) ++ [125]
  end.

(** Characters that are copied as they are, and leave the state inside a string. *)
Definition Inert (r : N) : Prop := r ≠ 34 ∧ r ≠ 92 ∧ r ≠ 60 ∧ r ≠ 62 ∧ r ≠ 38 ∧ r ≠ 0x2028 ∧ r ≠ 0x2029.
Lemma html_inert r : r ≠ 60 → r ≠ 62 → r ≠ 38 → r ≠ 0x2028 → r ≠ 0x2029 → html_escape r = [r].
Proof.
  intros. unfold html_escape.
  destruct (N.eqb_spec r 60), (N.eqb_spec r 62), (N.eqb_spec r 38), (N.eqb_spec r 0x2028), (N.eqb_spec r 0x2029); try done.
Qed.
Lemma compact_inert r t : Inert r → compact true false (r :: t) = r :: compact true false t.
Proof.
  intros (H1 & H2 & H3 & H4 & H5 & H6 & H7). cbn [compact]. rewrite html_inert by done.
  destruct (N.eqb_spec r 34), (N.eqb_spec r 92); done.
Qed.
Lemma compact_backslash r t : r ≠ 60 → r ≠ 62 → r ≠ 38 → r ≠ 0x2028 → r ≠ 0x2029 →
  compact true false (92 :: r :: t) = 92 :: r :: compact true false t.
Proof. intros. cbn [compact]. rewrite (html_inert r) by done. done. Qed.
Lemma hex_inert d : d < 16 → Inert (hex_digit d).
Proof. intros H. unfold hex_digit, Inert. destruct (N.ltb_spec d 10); lia. Qed.

Lemma compact_escape r rest : compact true false (escape r ++ rest) = escaped r ++ compact true false rest.
Proof.
  unfold escaped.
  destruct ((r =? 60) || (r =? 62) || (r =? 38) || (r =? 0x2028) || (r =? 0x2029)) eqn:E.
  { assert (escape r = [r]) as ->.
    { rewrite !orb_true_iff, !N.eqb_eq in E. destruct E as [[[[->| ->]| ->]| ->]| ->]; reflexivity. }
    cbn [app compact]. rewrite !orb_true_iff, !N.eqb_eq in E.
    destruct E as [[[[->| ->]| ->]| ->]| ->]; reflexivity. }
  rewrite !orb_false_iff, !N.eqb_neq in E. destruct E as [[[[E1 E2] E3] E4] E5].
  unfold escape.
  destruct (N.eqb_spec r 34) as [->|N34]; [reflexivity|].
  destruct (N.eqb_spec r 92) as [->|N92]; [reflexivity|]. cbn [orb].
  destruct (N.eqb_spec r 8) as [->|]; [reflexivity|].
  destruct (N.eqb_spec r 12) as [->|]; [reflexivity|].
  destruct (N.eqb_spec r 10) as [->|]; [reflexivity|].
  destruct (N.eqb_spec r 13) as [->|]; [reflexivity|].
  destruct (N.eqb_spec r 9) as [->|]; [reflexivity|].
  destruct (N.ltb_spec r 32) as [Hlt|Hge].
  - pose proof (hex_inert (r / 16) ltac:(apply N.div_lt_upper_bound; lia)) as H1.
    pose proof (hex_inert (r mod 16) ltac:(apply N.mod_lt; lia)) as H2.
    generalize dependent (hex_digit (r / 16)). generalize dependent (hex_digit (r mod 16)). intros b Hb a Ha.
    cbn [app]. rewrite compact_backslash by lia.
    rewrite !compact_inert; [reflexivity|exact Hb|exact Ha|unfold Inert; lia|unfold Inert; lia].
  - cbn [app]. apply compact_inert. unfold Inert. lia.
Qed.
Lemma compact_quoted t rest : compact false false (quoted t ++ rest) = quotedc t ++ compact false false rest.
Proof.
  assert (compact false false (quoted t ++ rest) = 34 :: compact true false (concat (map escape t) ++ 34 :: rest)) as ->.
  { unfold quoted. cbn [app]. rewrite <-app_assoc. reflexivity. }
  unfold quotedc. cbn [app]. f_equal. rewrite <-app_assoc. cbn [app].
  induction t as [|r t IH]; [reflexivity|]. cbn [map concat]. rewrite <-!app_assoc.
  rewrite compact_escape. f_equal. exact IH.
Qed.
Lemma compact_punct r rest : r ∈ [91; 93; 123; 125; 58; 44] → compact false false (r :: rest) = r :: compact false false rest.
Proof.
  rewrite !elem_of_cons, elem_of_nil. intros [->|[->|[->|[->|[->|[->|[]]]]]]]; reflexivity.
Qed.
Lemma compact_comma sp rest : compact false false (comma sp ++ rest) = comma false ++ compact false false rest.
Proof. destruct sp; reflexivity. Qed.
Lemma compact_scalar t rest : (∀ r, r ∈ t → ScalarChar r) → compact false false (t ++ rest) = t ++ compact false false rest.
Proof.
  induction t as [|r t IH]; intros H; [done|]. cbn [app].
  assert (ScalarChar r) as Hr by (apply H; left).
  cbn [compact]. assert (json_space r = false) as ->.
  { unfold json_space. rewrite !orb_false_iff, !N.eqb_neq. unfold ScalarChar in Hr. lia. }
  rewrite html_inert by (unfold ScalarChar in Hr; lia).
  assert (r =? 34 = false) as -> by (apply N.eqb_neq; unfold ScalarChar in Hr; lia).
  cbn [app]. f_equal. apply IH. intros x Hx. apply H. by right.
Qed.
Lemma compact_joined {A} sp (f g : A → text) l rest :
  (∀ x rest, x ∈ l → compact false false (f x ++ rest) = g x ++ compact false false rest) →
  compact false false (joined sp (map f l) ++ rest) = joined false (map g l) ++ compact false false rest.
Proof.
  induction l as [|x l IH]; intros H; [done|]. cbn [map joined].
  destruct l as [|y l].
  - cbn [map joined]. apply H. left.
  - change (joined sp (map f (y :: l))) with (joined sp (f y :: map f l)) in IH.
    change (joined false (map g (y :: l))) with (joined false (g y :: map g l)) in IH.
    cbn [map]. rewrite <-!app_assoc. rewrite H by left. f_equal. rewrite compact_comma. f_equal.
    apply IH. intros z r Hz. apply H. by right.
Qed.
Lemma compact_print sp j : GoodScalars j → ∀ rest,
  compact false false (print sp j ++ rest) = printc j ++ compact false false rest.
Proof.
  induction j as [t|t|l IH|l IH] using json_ind'; intros HG rest; cbn [print printc].
  - apply compact_scalar. apply HG. constructor.
  - apply compact_quoted.
  - cbn [app]. rewrite compact_punct by (repeat constructor). f_equal. rewrite <-!app_assoc.
    rewrite (compact_joined sp (print sp) printc).
    + reflexivity.
    + intros j r Hj. rewrite Forall_forall in IH. apply IH; [done|]. intros t Ht. apply HG. by eapply RawIn_arr.
  - cbn [app]. rewrite compact_punct by (repeat constructor). f_equal. rewrite <-!app_assoc.
    rewrite (compact_joined sp _ (λ kv, quotedc kv.1 ++ 58 :: printc kv.2)).
    + reflexivity.
    + intros [k j] r Hj. cbn [fst snd]. rewrite <-!app_assoc, compact_quoted. f_equal. cbn [app].
      rewrite compact_punct by (repeat constructor). f_equal.
      rewrite Forall_forall in IH. apply (IH (k, j) Hj). intros t Ht. apply HG. by eapply RawIn_val.
Qed.
Lemma sent_text_printc sp j : GoodScalars j → sent_text sp j = printc j.
Proof.
  intros HG. unfold sent_text. rewrite <-(app_nil_r (print sp j)), (compact_print sp j HG []). apply app_nil_r.
Qed.
Lemma sent_text_build sp j : GoodScalars j → sent_text sp j = sent_text false j.
Proof. intros HG. by rewrite !sent_text_printc. Qed.

(** ** Spaces in it *)
Lemma escape_free r : SpaceFree (escape r) ↔ (SpaceChar r → r < 32).
Proof.
  unfold escape. destruct (N.eqb_spec r 34) as [->|]; [split; [unfold SpaceChar; lia|intros _; cbn [orb]; rewrite !space_free_cons; unfold SpaceChar; repeat (split; [lia|]); apply space_free_nil]|].
  destruct (N.eqb_spec r 92) as [->|]; [split; [unfold SpaceChar; lia|intros _; cbn [orb]; rewrite !space_free_cons; unfold SpaceChar; repeat (split; [lia|]); apply space_free_nil]|].
  cbn [orb].
  destruct (N.eqb_spec r 8); [split; [lia|intros _; rewrite !space_free_cons; unfold SpaceChar; repeat (split; [lia|]); apply space_free_nil]|].
  destruct (N.eqb_spec r 12); [split; [lia|intros _; rewrite !space_free_cons; unfold SpaceChar; repeat (split; [lia|]); apply space_free_nil]|].
  destruct (N.eqb_spec r 10); [split; [lia|intros _; rewrite !space_free_cons; unfold SpaceChar; repeat (split; [lia|]); apply space_free_nil]|].
  destruct (N.eqb_spec r 13); [split; [lia|intros _; rewrite !space_free_cons; unfold SpaceChar; repeat (split; [lia|]); apply space_free_nil]|].
  destruct (N.eqb_spec r 9); [split; [lia|intros _; rewrite !space_free_cons; unfold SpaceChar; repeat (split; [lia|]); apply space_free_nil]|].
  destruct (N.ltb_spec r 32).
  - split; [lia|]. intros _.
    pose proof (hex_digit_free (r / 16) ltac:(apply N.div_lt_upper_bound; lia)) as [H1 _].
    pose proof (hex_digit_free (r mod 16) ltac:(apply N.mod_lt; lia)) as [H2 _].
    rewrite !space_free_cons. split; [unfold SpaceChar; lia|]. split; [unfold SpaceChar; lia|].
    split; [unfold SpaceChar; lia|]. split; [unfold SpaceChar; lia|]. split; [done|]. split; [done|]. apply space_free_nil.
  - rewrite space_free_sing. split; [intros H1 H2; done|]. intros H1 H2. specialize (H1 H2). lia.
Qed.
Lemma escape_no_newline r : 10 ∉ escape r.
Proof.
  unfold escape. destruct (N.eqb_spec r 34) as [->|]; [cbn [orb]; rewrite !elem_of_cons, elem_of_nil; lia|].
  destruct (N.eqb_spec r 92) as [->|]; [cbn [orb]; rewrite !elem_of_cons, elem_of_nil; lia|]. cbn [orb].
  destruct (N.eqb_spec r 8); [rewrite !elem_of_cons, elem_of_nil; lia|].
  destruct (N.eqb_spec r 12); [rewrite !elem_of_cons, elem_of_nil; lia|].
  destruct (N.eqb_spec r 10); [rewrite !elem_of_cons, elem_of_nil; lia|].
  destruct (N.eqb_spec r 13); [rewrite !elem_of_cons, elem_of_nil; lia|].
  destruct (N.eqb_spec r 9); [rewrite !elem_of_cons, elem_of_nil; lia|].
  destruct (N.ltb_spec r 32); [|rewrite !elem_of_cons, elem_of_nil; lia].
  pose proof (hex_digit_free (r / 16) ltac:(apply N.div_lt_upper_bound; lia)) as [_ H1].
  pose proof (hex_digit_free (r mod 16) ltac:(apply N.mod_lt; lia)) as [_ H2].
  rewrite !elem_of_cons, elem_of_nil. naive_solver lia.
Qed.


Definition Plain (r : N) : Prop := SpaceChar r ∧ 32 <= r ∧ r ≠ 0x2028 ∧ r ≠ 0x2029.
Lemma escaped_free r : SpaceFree (escaped r) ↔ ¬ Plain r.
Proof.
  unfold escaped, Plain.
  destruct ((r =? 60) || (r =? 62) || (r =? 38) || (r =? 0x2028) || (r =? 0x2029)) eqn:E.
  - rewrite !orb_true_iff, !N.eqb_eq in E. split; [intros _ (H1 & H2 & H3 & H4); unfold SpaceChar in H1; lia|]. intros _.
    destruct E as [[[[->| ->]| ->]| ->]| ->]; vm_compute html_escape; rewrite !space_free_cons; unfold SpaceChar;
      repeat (split; [lia|]); apply space_free_nil.
  - rewrite !orb_false_iff, !N.eqb_neq in E. destruct E as [[[[E1 E2] E3] E4] E5]. rewrite escape_free.
    split; [intros H (H1 & H2 & _); specialize (H H1); lia|]. intros H H1. destruct (N.ltb_spec r 32); [done|]. exfalso. apply H. done.
Qed.
Lemma escaped_no_newline r : 10 ∉ escaped r.
Proof.
  unfold escaped.
  destruct ((r =? 60) || (r =? 62) || (r =? 38) || (r =? 0x2028) || (r =? 0x2029)) eqn:E; [|apply escape_no_newline].
  rewrite !orb_true_iff, !N.eqb_eq in E.
  destruct E as [[[[->| ->]| ->]| ->]| ->]; vm_compute html_escape; rewrite !elem_of_cons, elem_of_nil; lia.
Qed.
Lemma space_free_concat ts : SpaceFree (concat ts) ↔ Forall SpaceFree ts.
Proof.
  induction ts as [|t ts IH]; cbn [concat]; [split; [constructor|intros _; apply space_free_nil]|].
  by rewrite space_free_app, Forall_cons, IH.
Qed.
Lemma quotedc_free t : SpaceFree (quotedc t) ↔ ∀ r, r ∈ t → ¬ Plain r.
Proof.
  unfold quotedc. rewrite space_free_cons, space_free_app, space_free_sing, space_free_concat, Forall_map, Forall_forall.
  assert (¬ SpaceChar 34) by (unfold SpaceChar; lia). setoid_rewrite <-escaped_free. naive_solver.
Qed.
Lemma quotedc_no_newline t : 10 ∉ quotedc t.
Proof.
  unfold quotedc. rewrite elem_of_cons, elem_of_app, elem_of_list_singleton. intros [H|[H|H]]; [lia| |lia].
  apply elem_of_list_In, in_concat in H as (x & Hx & H). apply in_map_iff in Hx as (r & <- & _).
  apply (escaped_no_newline r). by apply elem_of_list_In.
Qed.

Lemma joined_free ts : SpaceFree (joined false ts) ↔ Forall SpaceFree ts.
Proof.
  assert (SpaceFree (comma false)) as Hc by (apply space_free_sing; unfold SpaceChar; lia).
  induction ts as [|t ts IH]; cbn [joined].
  { split; [intros _; constructor|intros _; apply space_free_nil]. }
  destruct ts as [|t' ts].
  - by rewrite Forall_singleton.
  - rewrite !space_free_app, IH, (Forall_cons _ t). naive_solver.
Qed.
Lemma joined_no_newline ts : Forall (λ t, 10 ∉ t) ts → 10 ∉ joined false ts.
Proof.
  induction ts as [|t ts IH]; cbn [joined]; intros H; [apply not_elem_of_nil|].
  apply Forall_cons in H as [H1 H2]. destruct ts as [|t' ts]; [done|].
  rewrite !not_elem_of_app. split; [done|]. split; [|by apply IH].
  cbn [comma]; rewrite !elem_of_cons, elem_of_nil; lia.
Qed.

Lemma plain_in j : PlainSpaceIn j ↔ ∃ t r, StringIn t j ∧ r ∈ t ∧ Plain r.
Proof. reflexivity. Qed.
Lemma scalar_free t : (∀ r, r ∈ t → ScalarChar r) → SpaceFree t.
Proof. intros H r Hr. specialize (H r Hr). unfold ScalarChar, SpaceChar in *. lia. Qed.

Lemma printc_free j : GoodScalars j → SpaceFree (printc j) ↔ ¬ PlainSpaceIn j.
Proof.
  assert (¬ SpaceChar 91 ∧ ¬ SpaceChar 93 ∧ ¬ SpaceChar 123 ∧ ¬ SpaceChar 125 ∧ ¬ SpaceChar 58) as (C1 & C2 & C3 & C4 & C5)
    by (unfold SpaceChar; lia).
  induction j as [t|t|l IH|l IH] using json_ind'; intros HG; cbn [printc].
  - split.
    + intros _ (t' & r & Hs & _). inversion Hs.
    + intros _. apply scalar_free, HG. constructor.
  - rewrite quotedc_free. split.
    + intros H (t' & r & Hs & Hr & HP). inversion Hs; subst. by apply (H r Hr).
    + intros H r Hr HP. apply H. exists t, r. split; [constructor|]. by split.
  - rewrite space_free_cons, space_free_app, space_free_sing, joined_free, Forall_map, Forall_forall.
    rewrite Forall_forall in IH. split.
    + intros (_ & HF & _) (t & r & Hs & Hr). inversion Hs as [|j l' Hj Hs'| |]; subst.
      apply (proj1 (IH j Hj (λ t Ht, HG t (RawIn_arr t j l Hj Ht))) (HF j Hj)). by exists t, r.
    + intros H. split; [done|]. split; [|done]. intros j Hj.
      apply (proj2 (IH j Hj (λ t Ht, HG t (RawIn_arr t j l Hj Ht)))). intros (t & r & Hs & Hr).
      apply H. exists t, r. split; [|done]. by eapply StringIn_arr.
  - rewrite space_free_cons, space_free_app, space_free_sing, joined_free, Forall_map, Forall_forall.
    rewrite Forall_forall in IH. split.
    + intros (_ & HF & _) (t & r & Hs & Hr). inversion Hs as [| |j l' Hj|k j l' Hj Hs']; subst.
      * specialize (HF (t, j) Hj). change (SpaceFree (quotedc t ++ 58 :: printc j)) in HF. rewrite space_free_app, quotedc_free in HF.
        destruct HF as [HF _]. destruct Hr as [Hr HP]. by apply (HF r Hr).
      * specialize (HF (k, j) Hj). change (SpaceFree (quotedc k ++ 58 :: printc j)) in HF. rewrite space_free_app, space_free_cons in HF.
        destruct HF as (_ & _ & HF).
        apply (proj1 (IH (k, j) Hj (λ t Ht, HG t (RawIn_val t k j l Hj Ht))) HF). by exists t, r.
    + intros H. split; [done|]. split; [|done]. intros [k j] Hj. change (SpaceFree (quotedc k ++ 58 :: printc j)).
      rewrite space_free_app, space_free_cons, quotedc_free. split; [|split; [done|]].
      * intros r Hr HP. apply H. exists k, r. split; [by eapply StringIn_key|by split].
      * apply (proj2 (IH (k, j) Hj (λ t Ht, HG t (RawIn_val t k j l Hj Ht)))). intros (t & r & Hs & Hr).
        apply H. exists t, r. split; [|done]. by eapply StringIn_val.
Qed.

Lemma printc_no_newline j : GoodScalars j → 10 ∉ printc j.
Proof.
  induction j as [t|t|l IH|l IH] using json_ind'; intros HG; cbn [printc].
  - intros H. pose proof (HG t (RawIn_here t) 10 H) as Hs. unfold ScalarChar in Hs. lia.
  - apply quotedc_no_newline.
  - rewrite elem_of_cons, elem_of_app, elem_of_list_singleton. intros [H|[H|H]]; [lia| |lia]. revert H.
    apply joined_no_newline. rewrite Forall_map. rewrite Forall_forall in IH |- *. intros j Hj.
    apply IH; [done|]. intros t Ht. apply HG. by eapply RawIn_arr.
  - rewrite elem_of_cons, elem_of_app, elem_of_list_singleton. intros [H|[H|H]]; [lia| |lia]. revert H.
    apply joined_no_newline. rewrite Forall_map. rewrite Forall_forall in IH |- *. intros [k j] Hj.
    change (10 ∉ quotedc k ++ 58 :: printc j). rewrite elem_of_app, elem_of_cons. intros [H|[H|H]]; [by apply (quotedc_no_newline k)|lia|]. revert H.
    apply (IH (k, j) Hj). intros t Ht. apply HG. by eapply RawIn_val.
Qed.

Lemma sent_free sp j : GoodScalars j → SpaceFree (sent_text sp j) ↔ ¬ PlainSpaceIn j.
Proof. intros HG. rewrite (sent_text_printc sp j HG). by apply printc_free. Qed.

Lemma reads_printed_fatal sp js1 j js2 : Forall GoodScalars (js1 ++ j :: js2) →
  Forall (λ j, ¬ PlainSpaceIn j) js1 → PlainSpaceIn j →
  example_reads (stream_of (map (sent_text sp) (js1 ++ j :: js2))) = ReadFatal (map (sent_text sp) js1).
Proof.
  intros HG H1 Hj. apply Forall_app in HG as [HG1 HG]. apply Forall_cons in HG as [HGj _].
  rewrite map_app. cbn [map]. apply reads_fatal.
  - rewrite Forall_map. rewrite Forall_forall in HG1, H1 |- *. intros x Hx. apply sent_free; [by apply HG1|by apply H1].
  - rewrite (sent_free sp j HGj). intros H. by apply H.
  - rewrite (sent_text_printc sp j HGj). by apply printc_no_newline.
Qed.

Lemma reads_printed sp js : Forall GoodScalars js →
  example_reads (stream_of (map (sent_text sp) js)) = ReadAll (map (sent_text sp) js) ↔ Forall (λ j, ¬ PlainSpaceIn j) js.
Proof.
  intros HG. split.
  - intros H. destruct (decide (Forall (λ t, Forall (λ r, is_space r = false) t) (map (sent_text sp) js))) as [Hd|Hd].
    + rewrite Forall_map in Hd. rewrite Forall_forall in HG, Hd |- *. intros j Hj. apply (sent_free sp); [by apply HG|].
      intros r Hr. apply is_space_false. specialize (Hd j Hj). cbn in Hd. rewrite Forall_forall in Hd. by apply Hd.
    + exfalso.
      assert (∃ js1 j js2, js = js1 ++ j :: js2 ∧ Forall SpaceFree (map (sent_text sp) js1) ∧ ¬ SpaceFree (sent_text sp j))
        as (js1 & j & js2 & -> & H1 & H2).
      { clear H HG. induction js as [|j js IH]; [destruct Hd; constructor|].
        destruct (decide (Forall (λ r, is_space r = false) (sent_text sp j))) as [Hj|Hj].
        - destruct IH as (js1 & j' & js2 & -> & H1 & H2).
          { intros Hx. apply Hd. constructor; done. }
          exists (j :: js1), j', js2. split; [done|]. split; [|done]. constructor; [|done].
          intros r Hr. apply is_space_false. rewrite Forall_forall in Hj. by apply Hj.
        - exists [], j, js. split; [done|]. split; [constructor|]. intros Hx. apply Hj. apply Forall_forall.
          intros r Hr. apply is_space_false. by apply Hx. }
      rewrite map_app in H. cbn [map] in H. rewrite reads_fatal in H; [discriminate H|done|done|].
      apply Forall_app in HG as [_ HG]. apply Forall_cons in HG as [HG _].
      rewrite (sent_text_printc sp j HG). by apply printc_no_newline.
  - intros H. apply reads_all. rewrite Forall_map. rewrite Forall_forall in HG, H |- *. intros j Hj.
    apply sent_free; [by apply HG|by apply H].
Qed.

(** ** The lines of the stream *)
Lemma result_line_object sp j : GoodScalars j →
  result_line (sent_text sp j) = sent_text sp (JObj [(codes "result"%string, j)]).
Proof.
  intros HG. rewrite (sent_text_printc sp j HG). rewrite (sent_text_printc sp (JObj [(codes "result"%string, j)])); [reflexivity|].
  intros t Ht. inversion Ht as [| |k j' l Hj Hr]; subst. apply elem_of_list_singleton in Hj. injection Hj as _ ->. exact (HG t Hr).
Qed.
Lemma stream_lines sp js : Forall GoodScalars js →
  stream_of (map (sent_text sp) js) = concat (map (λ j, sent_text sp (JObj [(codes "result"%string, j)]) ++ [10]) js).
Proof.
  intros H. unfold stream_of. rewrite map_map. f_equal. apply map_ext_in. intros j Hj. f_equal.
  apply result_line_object. rewrite Forall_forall in H. apply H. by apply elem_of_list_In.
Qed.
