(** Lemmas about Model/JsonBytes.v. *)
From Coq Require Import Ascii String ZArith NArith Lia.
From stdpp Require Import prelude strings gmap.
From Verif.Model Require Import GoStrings Types Wire Proto ProtoMsg JsonMsg HttpStream JsonText JsonBytes.
From Verif.Spec Require Import StringSpec MiscSpec SettingsSpec JsonSpec HttpSpec JsonTextSpec JsonBytesSpec.
From Verif.Proofs Require Import StringLemmas SettingsLemmas JsonLemmas HttpLemmas JsonTextLemmas Utf8TextLemmas.
Local Open Scope N_scope.

Lemma jv_ind' (P : jv → Prop) :
  P JNull → (∀ b, P (JBool b)) → (∀ t, P (JNum t)) → (∀ s, P (JsonMsg.JText s)) → (∀ l, Forall P l → P (JList l)) →
  (∀ l, Forall (λ kv, P kv.2) l → P (JDict l)) → ∀ v, P v.
Proof.
  intros H1 H2 H3 H4 H5 H6. fix IH 1. intros [|b|t|s|l|l]; [apply H1|apply H2|apply H3|apply H4|apply H5|apply H6].
  - induction l as [|j l IHl]; constructor; [apply IH|exact IHl].
  - induction l as [|[k j] l IHl]; constructor; [apply IH|exact IHl].
Qed.

(** ** Texts of ASCII characters *)
Lemma ascii_dec s : Forall (λ r, r < 128) (codes s) → utf8_dec s = (codes s, true).
Proof.
  induction s as [|c s IH]; [done|]. unfold codes. cbn [list_ascii_of_string map]. intros H. apply Forall_cons in H as [Hc H].
  cbn [utf8_dec]. rewrite (proj2 (in_range_iff 0 127 c)) by lia. rewrite IH by done. done.
Qed.
Lemma number_start t : JsonNumber t → ∃ c x, t = c :: x ∧ (c = 45 ∨ 48 <= c <= 57).
Proof.
  intros (sg & ip & fp & ep & -> & Hs & Hi & _). destruct Hs as [->| ->]; [|eexists _, _; split; [reflexivity|by left]].
  destruct Hi as [->|[[Hne Hd] _]]; [eexists _, _; split; [reflexivity|lia]|].
  destruct ip as [|c ip]; [done|]. eexists _, _. split; [reflexivity|]. right. exact (Forall_inv Hd).
Qed.
Lemma scalar_ascii t : JsonScalar t → Forall (λ r, r < 128) t.
Proof. intros H. apply Forall_forall. intros r Hr. pose proof (scalar_chars t H r Hr) as Hc. unfold ScalarChar in Hc. lia. Qed.
Lemma number_runes t : JsonNumber (codes t) → runes t = codes t ∧ utf8_valid t = true.
Proof.
  intros H. assert (D : utf8_dec t = (codes t, true)) by (apply ascii_dec, scalar_ascii; by do 3 right).
  split; [unfold runes; by rewrite D|by rewrite <-dec_valid, D].
Qed.

(** ** Trees *)
Lemma tree_value v : Writable v → value (tree v) = v.
Proof.
  induction v as [|b|t|s|l IH|l IH] using jv_ind'; intros HW; cbn [tree value].
  - reflexivity.
  - by destruct b.
  - inversion HW as [| |t' Ht| | |]; subst. destruct (number_runes t Ht) as [-> Hv]. destruct (number_start _ Ht) as (c & x & E & Hc).
    unfold null_text, true_text, false_text. rewrite !bool_decide_false by (rewrite E; intros [= ? ?]; lia).
    destruct (number_runes t Ht) as [<- _]. by rewrite enc_runes.
  - inversion HW as [| | |s' Hs| |]; subst. by rewrite enc_runes.
  - inversion HW as [| | | |l' Hl|]; subst. f_equal. rewrite map_map. rewrite Forall_forall in IH.
    transitivity (map id l); [|by apply map_id]. apply map_ext_in. intros x Hx. apply elem_of_list_In in Hx. by apply IH, Hl.
  - inversion HW as [| | | | |l' Hl]; subst. f_equal. rewrite map_map. rewrite Forall_forall in IH.
    transitivity (map id l); [|by apply map_id]. apply map_ext_in. intros [k x] Hx. apply elem_of_list_In in Hx. cbn [fst snd].
    destruct (Hl k x Hx) as [Hk Hv]. rewrite enc_runes by done. unfold id. f_equal. by apply (IH (k, x)).
Qed.
Lemma tree_scalars v : Writable v → RealScalars (tree v).
Proof.
  induction v as [|b|t|s|l IH|l IH] using jv_ind'; intros HW x Hx; cbn [tree] in Hx.
  - inversion Hx; subst. by left.
  - inversion Hx; subst. destruct b; [by right; left|by right; right; left].
  - inversion Hx; subst. inversion HW as [| |t' Ht| | |]; subst. do 3 right. by destruct (number_runes t Ht) as [-> _].
  - inversion Hx.
  - inversion HW as [| | | |l' Hl|]; subst. inversion Hx as [|j l' Hj Hr|]; subst. apply elem_of_list_fmap in Hj as (v & -> & Hv).
    rewrite Forall_forall in IH. by apply (IH v Hv (Hl v Hv)).
  - inversion HW as [| | | | |l' Hl]; subst. inversion Hx as [| |k j l' Hj Hr]; subst.
    apply elem_of_list_fmap in Hj as ([k' v] & [= -> ->] & Hv). rewrite Forall_forall in IH. destruct (Hl k' v Hv) as [_ Hw].
    by apply (IH (k', v) Hv Hw).
Qed.
Lemma tree_strings v t : Writable v → StringIn t (tree v) → ∃ s, TextIn s v ∧ utf8_valid s = true ∧ t = runes s.
Proof.
  induction v as [|b|n|s|l IH|l IH] using jv_ind'; intros HW Hx; cbn [tree] in Hx; try (by inversion Hx).
  - inversion Hx; subst. inversion HW as [| | |s' Hs| |]; subst. exists s. split_and!; try done. constructor.
  - inversion HW as [| | | |l' Hl|]; subst. inversion Hx as [|j l' Hj Hr| |]; subst. apply elem_of_list_fmap in Hj as (v & -> & Hv).
    rewrite Forall_forall in IH. destruct (IH v Hv (Hl v Hv) Hr) as (s & H1 & H2). exists s. split; [by eapply TextIn_list|done].
  - inversion HW as [| | | | |l' Hl]; subst. inversion Hx as [| |j l' Hj|k j l' Hj Hr]; subst;
      apply elem_of_list_fmap in Hj as ([k' v] & [= -> ->] & Hv); destruct (Hl k' v Hv) as [Hk Hw].
    + exists k'. split; [by eapply TextIn_key|done].
    + rewrite Forall_forall in IH. destruct (IH (k', v) Hv Hw Hr) as (s & H1 & H2). exists s. split; [by eapply TextIn_value|done].
Qed.
Lemma text_in_tree v s : TextIn s v → StringIn (runes s) (tree v).
Proof.
  induction 1 as [|v l Hv _ IH|v l Hv|k v l Hv _ IH]; cbn [tree].
  - constructor.
  - eapply StringIn_arr; [|exact IH]. apply elem_of_list_fmap. by exists v.
  - eapply (StringIn_key _ (tree v)). apply elem_of_list_fmap. by exists (s, v).
  - eapply (StringIn_val _ (runes k)); [|exact IH]. apply elem_of_list_fmap. by exists (k, v).
Qed.
Lemma text_valid v s : Writable v → TextIn s v → utf8_valid s = true.
Proof.
  intros HW H. induction H as [|v l Hv _ IH|v l Hv|k v l Hv _ IH]; inversion HW as [| | |s' Hs|l' Hl|l' Hl]; subst.
  - done.
  - by apply IH, Hl.
  - by apply (Hl s v).
  - by apply IH, (Hl k v).
Qed.
Lemma spaces_iff v : Writable v → NoSpaces v ↔ ¬ PlainSpaceIn (tree v).
Proof.
  intros HW. unfold NoSpaces, SpaceInText, PlainSpaceIn. split.
  - intros H (t & r & Ht & Hr). destruct (tree_strings v t HW Ht) as (s & Hs & Hv & ->). apply (H s Hs). exists (runes s), r.
    split; [by apply utf8_iff|done].
  - intros H s Hs (t & r & Ht & Hr). apply utf8_iff in Ht as [_ ->]. apply H. exists (runes s), r. split; [by apply text_in_tree|done].
Qed.

(** ** What is written is made of code points *)
Definition rune_text (t : text) : Prop := Forall Rune t.
Lemma rune_ascii r : r < 128 → Rune r.
Proof. unfold Rune. lia. Qed.
Lemma escape_runes r : Rune r → Forall Rune (escape r) ∧ Forall Rune (escaped r).
Proof.
  intros Hr. assert (HX : ∀ d, d < 16 → Rune (hex_digit d)).
  { intros d Hd. apply rune_ascii. unfold hex_digit. destruct (N.ltb_spec d 10); lia. }
  assert (HM : ∀ q, Rune (hex_digit (q mod 16))) by (intros q; apply HX, N.mod_lt; lia).
  assert (HD : ∀ q, q < 256 → Rune (hex_digit (q / 16))) by (intros q Hq; apply HX, N.div_lt_upper_bound; lia).
  assert (HE : Forall Rune (escape r)).
  { unfold escape. repeat match goal with |- context [if ?b then _ else _] => let E := fresh in destruct b eqn:E end;
      repeat (first [constructor; [first [apply HM | done | apply rune_ascii; lia | apply HD; apply N.ltb_lt in H5; lia]|] | constructor]). }
  split; [done|]. unfold escaped. destruct (_ || _) eqn:E; [|done].
  rewrite !orb_true_iff, !N.eqb_eq in E.
  destruct E as [[[[->| ->]| ->]| ->]| ->]; vm_compute html_escape; repeat (constructor; [apply rune_ascii; lia|]); constructor.
Qed.
Lemma quoted_runes t : Forall Rune t → Forall Rune (quoted t) ∧ Forall Rune (quotedc t).
Proof.
  intros H. assert (Forall Rune (concat (map escape t)) ∧ Forall Rune (concat (map escaped t))) as [H1 H2].
  { induction H as [|r t Hr _ [IH1 IH2]]; [split; constructor|]. cbn [map concat]. destruct (escape_runes r Hr). split; by apply Forall_app_2. }
  assert (Rune 34) by (apply rune_ascii; lia).
  split; (constructor; [done|]); (apply Forall_app_2; [done|]); by repeat constructor.
Qed.
Lemma joined_runes sp ts : Forall rune_text ts → Forall Rune (joined sp ts).
Proof.
  intros H. induction H as [|t ts Ht Hts IH]; [constructor|]. cbn [joined]. destruct ts as [|t' ts]; [done|].
  apply Forall_app_2; [done|]. apply Forall_app_2; [|done]. destruct sp; repeat (constructor; [apply rune_ascii; lia|]); constructor.
Qed.
Lemma bracket_runes a b t : a < 128 → b < 128 → Forall Rune t → Forall Rune (a :: t ++ [b]).
Proof.
  intros Ha Hb Ht. constructor; [by apply rune_ascii|]. apply Forall_app_2; [done|]. constructor; [by apply rune_ascii|constructor].
Qed.
Lemma print_runes sp j : RealScalars j → (∀ t, StringIn t j → Forall Rune t) → Forall Rune (print sp j) ∧ Forall Rune (printc j).
Proof.
  induction j as [t|t|l IH|l IH] using json_ind'; intros HR HS; cbn [print printc].
  - assert (Forall Rune t); [|done]. eapply Forall_impl; [apply scalar_ascii, HR; constructor|]. intros r. apply rune_ascii.
  - apply quoted_runes, HS. constructor.
  - assert (HP : ∀ j, j ∈ l → Forall Rune (print sp j) ∧ Forall Rune (printc j)).
    { intros j Hj. rewrite Forall_forall in IH. apply (IH j Hj).
      - intros t Ht. apply HR. by eapply RawIn_arr.
      - intros t Ht. apply HS. by eapply StringIn_arr. }
    split; (apply bracket_runes; [lia|lia|]); apply joined_runes, Forall_forall; intros x Hx; apply elem_of_list_fmap in Hx as (j & -> & Hj); by apply HP.
  - assert (HP : ∀ kj, kj ∈ l → Forall Rune (print sp kj.2) ∧ Forall Rune (printc kj.2)).
    { intros [k j] Hj. rewrite Forall_forall in IH. apply (IH (k, j) Hj).
      - intros t Ht. apply HR. by eapply RawIn_val.
      - intros t Ht. apply HS. by eapply StringIn_val. }
    assert (HK : ∀ kj, kj ∈ l → Forall Rune (quoted kj.1) ∧ Forall Rune (quotedc kj.1)).
    { intros [k j] Hj. apply quoted_runes, HS. by eapply StringIn_key. }
    assert (Rune 58) by (apply rune_ascii; lia).
    split; (apply bracket_runes; [lia|lia|]); apply joined_runes, Forall_forall; intros x Hx; apply elem_of_list_fmap in Hx as (kj & -> & Hj);
      destruct (HP kj Hj), (HK kj Hj); (apply Forall_app_2; [done|]); by constructor.
Qed.
Lemma tree_runes sp v : Writable v → Forall Rune (print sp (tree v)) ∧ Forall Rune (sent_text sp (tree v)).
Proof.
  intros HW. pose proof (tree_scalars v HW) as HR.
  assert (HS : ∀ t, StringIn t (tree v) → Forall Rune t).
  { intros t Ht. destruct (tree_strings v t HW Ht) as (s & _ & _ & ->). apply runes_ok. }
  rewrite (sent_text_printc sp (tree v) (real_good _ HR)). by apply print_runes.
Qed.

(** ** Requests *)
Lemma client_read {M} (read : jv → option M) empty sp l rest : Writable (JDict l) →
  gateway_bytes read empty (client_bytes sp (JDict l) +:+ rest) = read (JDict l).
Proof.
  intros HW. unfold gateway_bytes, client_bytes. rewrite dec_enc by (by apply tree_runes).
  rewrite (body_rest_ignored _ (tree (JDict l))).
  - by rewrite tree_value.
  - apply value_text, printed_value, tree_scalars, HW.
  - by intros t.
Qed.
Lemma begins_iff s j : BeginsWith s j ↔ ∃ t rest, s = utf8_enc t +:+ rest ∧ Forall Rune t ∧ JsonText t j.
Proof.
  unfold BeginsWith. split.
  - intros (t & b & rest & E & Hu & Hj). apply utf8_unique in Hu as [Ht ->]. exists t, (bytes rest). split; [|done].
    rewrite <-(bytes_byte_list s), E, bytes_app. done.
  - intros (t & rest & -> & Ht & Hj). exists t, (concat (map rune_bytes t)), (byte_list rest). split; [|split; [by apply utf8_enc_ok|done]].
    assert (A : ∀ a b, byte_list (a +:+ b) = byte_list a ++ byte_list b).
    { intros a b. unfold byte_list. by rewrite list_ascii_app, map_app. }
    rewrite A. f_equal. unfold utf8_enc. by apply byte_list_bytes, enc_bytes_bound.
Qed.
Lemma rune_app t1 t2 : Forall Rune (t1 ++ t2) → Forall Rune t1 ∧ Forall Rune t2.
Proof. apply Forall_app. Qed.
Lemma accepted {M} (read : jv → option M) empty s m : ObjectsOnly read →
  gateway_bytes read empty s = Some m ↔
  m = empty ∧ (∃ t, Utf8 t (byte_list s) ∧ Ws t) ∨ ∃ j, BeginsWith s j ∧ read (value j) = Some m.
Proof.
  intros HO. unfold gateway_bytes. destruct (utf8_dec s) as [t w] eqn:Ed. destruct (dec_sound s) as [Hr (rest & Es & Hw)].
  rewrite Ed in Hr, Es, Hw. cbn [fst snd] in Hr, Es, Hw.
  assert (HB : ∀ t' rest' j, s = utf8_enc t' +:+ rest' → Forall Rune t' → JsonText t' j → Closed j → read_body t = Body j).
  { intros t' rest' j -> Ht' Hj Hc. rewrite dec_enc in Ed by done. injection Ed as <- _. by apply body_rest_ignored. }
  assert (HC : ∀ j, read (value j) = Some m → Closed j).
  { intros j Hj x ->. destruct (HO _ _ Hj) as (l & E). cbn [value] in E. repeat case_bool_decide; done. }
  split.
  - destruct (read_body t) as [|j|] eqn:Eb; [|intros H|done].
    + destruct w; [|done]. intros [= <-]. left. split; [done|]. exists t. apply read_body_none in Eb. split; [|done]. apply utf8_iff.
      split; [by rewrite <-dec_valid, Ed|]. unfold runes. by rewrite Ed.
    + right. exists j. split; [|done]. apply begins_iff. apply bodies in Eb as (w1 & v & r & -> & Hws & Hv & _).
      rewrite app_assoc, utf8_enc_app, app_assoc_s in Es. exists (w1 ++ v), (utf8_enc r +:+ rest). split; [done|].
      rewrite app_assoc in Hr. apply rune_app in Hr as [Hr _]. split; [done|]. exists w1, v, []. split; [by rewrite app_nil_r|].
      split; [done|]. split; [done|constructor].
  - intros [[-> (t' & Hu & Hws)]|(j & Hb & Hj)].
    + apply utf8_iff in Hu as [Hv ->]. unfold runes in Hws. rewrite Ed in Hws. cbn [fst] in Hws. rewrite (proj2 (read_body_none t) Hws).
      rewrite <-dec_valid, Ed in Hv. cbn in Hv. by rewrite Hv.
    + apply begins_iff in Hb as (t' & rest' & E & Ht' & Hj'). rewrite (HB t' rest' j E Ht' Hj' (HC j Hj)). done.
Qed.
Lemma objects_only {M} canon (step : N → jv → M → option M) init : ObjectsOnly (read_object canon step init).
Proof. intros v m H. destruct v; try done. by eexists. Qed.

(** ** Streams *)
Lemma stream_runes ts : Forall rune_text ts → Forall Rune (stream_of ts).
Proof.
  intros H. unfold stream_of. induction H as [|t ts Ht _ IH]; [constructor|]. cbn [map concat]. apply Forall_app_2; [|done].
  unfold result_line, result_open. repeat (apply Forall_app_2 || (constructor; [apply rune_ascii; lia|]) || exact Ht || constructor).
Qed.
Lemma stream_read {M} (read : jv → option M) sp vs : Forall Writable vs → Forall NoSpaces vs →
  example_result read (stream_bytes sp vs) = Some (map read vs).
Proof.
  intros HW HS. unfold example_result, stream_bytes, runes. rewrite dec_enc_whole.
  2:{ apply stream_runes, Forall_forall. intros t Ht. apply elem_of_list_fmap in Ht as (v & -> & Hv). rewrite Forall_forall in HW.
      by apply tree_runes, HW. }
  cbn [fst]. destruct (example_decodes sp (map tree vs)) as (ts & E & Hts).
  - apply Forall_forall. intros j Hj. apply elem_of_list_fmap in Hj as (v & -> & Hv). rewrite Forall_forall in HW. by apply tree_scalars, HW.
  - apply Forall_forall. intros j Hj. apply elem_of_list_fmap in Hj as (v & -> & Hv). rewrite Forall_forall in HW, HS.
    apply spaces_iff; [by apply HW|by apply HS].
  - rewrite map_map in E. rewrite E. f_equal. rewrite map_map in Hts.
    transitivity (map (λ x : option json, j ← x; read (value j)) (map read_text ts)); [by rewrite map_map|]. rewrite Hts, map_map.
    apply map_ext_in. intros v Hv. apply elem_of_list_In in Hv. rewrite Forall_forall in HW. cbn [mbind option_bind]. by rewrite tree_value by (by apply HW).
Qed.
Lemma stream_fatal {M} (read : jv → option M) sp vs1 v vs2 : Forall Writable (vs1 ++ v :: vs2) → Forall NoSpaces vs1 →
  (∃ s, TextIn s v ∧ SpaceInText s) →
  example_result read (stream_bytes sp (vs1 ++ v :: vs2)) = None.
Proof.
  intros HW H1 HS. unfold example_result, stream_bytes, runes. rewrite dec_enc_whole.
  2:{ apply stream_runes, Forall_forall. intros t Ht. apply elem_of_list_fmap in Ht as (x & -> & Hv). rewrite Forall_forall in HW.
      by apply tree_runes, HW. }
  cbn [fst]. rewrite <-(map_map tree (sent_text sp)), (map_app tree). cbn [map]. rewrite Forall_forall in HW.
  assert (HWv : ∀ x, x ∈ vs1 ++ v :: vs2 → GoodScalars (tree x)) by (intros x Hx; by apply real_good, tree_scalars, HW).
  rewrite reads_printed_fatal; [done| | |].
  - change (tree v :: map tree vs2) with (map tree (v :: vs2)). rewrite <-map_app. apply Forall_forall. intros j Hj.
    apply elem_of_list_fmap in Hj as (x & -> & Hx). by apply HWv.
  - apply Forall_forall. intros j Hj. apply elem_of_list_fmap in Hj as (x & -> & Hx). apply spaces_iff.
    + apply HW, elem_of_app. by left.
    + rewrite Forall_forall in H1. by apply H1.
  - destruct HS as (s & Hs & t & r & Ht & Hr). apply utf8_iff in Ht as [_ ->]. exists (runes s), r. split; [by apply text_in_tree|done].
Qed.

(** ** What the messages become can be written *)
Definition FieldW (f : jfield) : Prop := ∀ j, f = Some (Some j) → Writable j.
Definition WriterW {A} (w : A → option jv) : Prop := ∀ a j, w a = Some j → Writable j.
Lemma ascii_valid s : Forall (λ r, r < 128) (codes s) → utf8_valid s = true.
Proof. intros H. by rewrite <-dec_valid, ascii_dec. Qed.
Lemma format_number z : JsonNumber (codes (format_Z z)).
Proof.
  assert (HN : ∀ n, Digits (codes (format_N n)) ∧ (codes (format_N n) = [48] ∨ ∀ r, codes (format_N n) ≠ 48 :: r)).
  { intros n. split.
    - split; [pose proof (format_N_nonempty n); by destruct (format_N n)|]. pose proof (format_N_digits n) as H.
      apply all_digits_spec in H. unfold codes, AllDigits in *. apply Forall_map. eapply Forall_impl; [exact H|].
      intros c Hc. apply is_digit_Digit in Hc. unfold is_digit in Hc. apply andb_true_iff in Hc. rewrite !N.leb_le in Hc. exact Hc.
    - pose proof (format_plain (Z.of_N n)) as (ds & m & _ & Hp & H). assert (E : format_Z (Z.of_N n) = format_N n).
      { rewrite format_Z_nonneg by lia. by rewrite N2Z.id. }
      rewrite E in H. pose proof (format_N_digits n) as Hd.
      destruct H as [[[H|H] _]|[H _]]; [|rewrite H in Hd; discriminate Hd..]. rewrite <-H in Hp. destruct Hp as [->|Hp]; [by left|]. right.
      intros r Hr. destruct (format_N n) as [|c s]; [done|]. unfold codes in Hr. cbn [list_ascii_of_string map] in Hr. injection Hr as Hc _.
      apply (Hp s). f_equal. rewrite <-(ascii_N_embedding c), Hc. reflexivity. }
  unfold format_Z. destruct (z <? 0)%Z.
  - destruct (HN (Z.to_N (- z))) as [Hd Hp]. exists [45], (codes (format_N (Z.to_N (- z)))), [], [].
    split; [rewrite !app_nil_r; reflexivity|]. split; [by right|]. split; [|split; by left]. destruct Hp; [by left|by right].
  - destruct (HN (Z.to_N z)) as [Hd Hp]. exists [], (codes (format_N (Z.to_N z))), [], [].
    split; [by rewrite !app_nil_r|]. split; [by left|]. split; [|split; by left]. destruct Hp; [by left|by right].
Qed.
Lemma fw_left eu j : Writable j → FieldW (Some (if eu : bool then Some j else None)).
Proof. intros Hj x E. destruct eu; [by injection E as <-|done]. Qed.
Lemma jw_text : WriterW j_text.
Proof. intros s j. unfold j_text. destruct (utf8_valid s) eqn:E; [|done]. intros [= <-]. by constructor. Qed.
Lemma fw_text eu s : FieldW (w_text eu s).
Proof.
  unfold w_text. destruct (String.eqb s ""); [apply fw_left; by constructor|]. intros j. destruct (j_text s) as [v|] eqn:E; [|done].
  cbn. intros [= <-]. by eapply jw_text.
Qed.
Lemma fw_int eu z : FieldW (w_int eu z).
Proof.
  unfold w_int. destruct (z =? 0)%Z; [apply fw_left; constructor; exact (format_number 0)|]. intros j [= <-]. constructor. apply format_number.
Qed.
Lemma fw_enum eu name z : (∀ n, name z = Some n → utf8_valid n = true) → FieldW (w_enum eu name z).
Proof.
  intros Hn. unfold w_enum. assert (HW : Writable (match name z with Some n => JsonMsg.JText n | None => JNum (format_Z z) end)).
  { destruct (name z) as [n|] eqn:E; constructor; [by apply Hn|apply format_number]. }
  destruct (z =? 0)%Z; [by apply fw_left|]. by intros j [= <-].
Qed.
Lemma fw_opt {A} eu (w : A → option jv) x : WriterW w → FieldW (w_opt eu w x).
Proof.
  intros Hw. unfold w_opt. destruct x as [a|]; [|apply fw_left; constructor]. intros j. destruct (w a) as [v|] eqn:E; [|done].
  cbn. intros [= <-]. by eapply Hw.
Qed.
Lemma mapM_written {A} (w : A → option jv) l js : WriterW w → mapM w l = Some js → ∀ j, j ∈ js → Writable j.
Proof.
  intros Hw H. apply mapM_Some_1 in H. induction H as [|a j l js Ha _ IH]; [intros x Hx; by apply elem_of_nil in Hx|].
  intros x Hx. apply elem_of_cons in Hx as [->|Hx]; [by eapply Hw|by apply IH].
Qed.
Lemma fw_list {A} eu (w : A → option jv) l : WriterW w → FieldW (w_list eu w l).
Proof.
  intros Hw. unfold w_list. destruct l as [|a l]; [apply fw_left; constructor; intros x Hx; by apply elem_of_nil in Hx|].
  intros j. destruct (mapM w (a :: l)) as [js|] eqn:E; [|done]. cbn [mbind option_bind]. intros [= <-]. constructor.
  by apply (mapM_written w (a :: l)).
Qed.
Lemma fw_map {A} eu (w : A → option jv) (m : gmap string A) : WriterW w → FieldW (w_map eu w m).
Proof.
  intros Hw. unfold w_map. destruct (sorted_entries m) as [|a l]; [apply fw_left; constructor; intros k x Hx; by apply elem_of_nil in Hx|].
  intros j. destruct (mapM _ (a :: l)) as [js|] eqn:E; [|done]. cbn [mbind option_bind]. intros [= <-]. constructor.
  apply mapM_Some_1 in E. intros k v Hkv. revert Hkv. revert E. generalize (a :: l). intros l' E.
  induction E as [|[k' a'] y l' js Ha _ IH]; [intros Hx; by apply elem_of_nil in Hx|]. intros Hx. apply elem_of_cons in Hx as [<-|Hx]; [|by apply IH].
  cbn [fst snd] in Ha. destruct (utf8_valid k') eqn:Ek; [|done]. destruct (w a') as [v'|] eqn:Ew; [|done]. cbn in Ha. injection Ha as <- <-.
  split; [done|by eapply Hw].
Qed.
Lemma jw_msg fs j : Forall (λ nf, utf8_valid nf.1 = true ∧ FieldW nf.2) fs → w_msg fs = Some j → Writable j.
Proof.
  intros H. unfold w_msg. destruct (build fs) as [l|] eqn:E; [|done]. cbn. intros [= <-]. constructor. revert l E.
  induction H as [|[n f] fs [Hn Hf] _ IH]; intros l E k v Hkv; cbn [build] in E.
  - injection E as <-. by apply elem_of_nil in Hkv.
  - destruct f as [[x|]|]; destruct (build fs) as [l'|] eqn:E'; try done.
    + injection E as <-. apply elem_of_cons in Hkv as [[= -> ->]|Hkv]; [|by apply (IH l')]. split; [done|]. by apply Hf.
    + injection E as <-. by apply (IH l').
Qed.
Ltac names := match goal with |- utf8_valid _ = true => vm_compute; reflexivity end.
Section writers.
  Context (c : codec) (HC : WritesJson c).
  Lemma jw_double x : Writable (j_double c x).
  Proof.
    unfold j_double. destruct (f64_val x) as [|[]|z] eqn:E; constructor; try (vm_compute; reflexivity). destruct HC as [H _]. by eapply H.
  Qed.
  Lemma fw_double eu x : FieldW (w_double c eu x).
  Proof. unfold w_double. destruct (x =? 0)%N; [apply fw_left, jw_double|]. intros j [= <-]. apply jw_double. Qed.
  Lemma jw_time : WriterW (j_time c).
  Proof.
    intros t j. unfold j_time. destruct (ts_is_valid (Some t)) eqn:E; [|done]. intros [= <-]. constructor. destruct HC as (_ & H & _). by apply H.
  Qed.
  Lemma jw_any : WriterW (j_any c).
  Proof.
    intros a j. unfold j_any. destruct (String.eqb (any_url a) "").
    - destruct (String.eqb (any_value a) ""); [|done]. intros [= <-]. constructor. intros k v Hx. by apply elem_of_nil in Hx.
    - destruct (utf8_valid (any_url a)) eqn:Eu; [|done]. destruct (jc_types c (any_url a)) as [e|] eqn:Et; [|done].
      destruct (em_write e (any_value a)) as [l|] eqn:Ew; [|done]. cbn. intros [= <-]. destruct HC as (_ & _ & H).
      specialize (H _ _ _ _ Et Ew). inversion H as [| | | | |l' Hl]; subst. constructor. intros k v Hx.
      apply elem_of_cons in Hx as [[= -> ->]|Hx]; [|by apply Hl]. split; [done|by constructor].
  Qed.
  Lemma fw_ext eu m : FieldW (w_ext c eu m).
  Proof. apply fw_map, jw_any. Qed.
  Lemma jw_double' : WriterW (λ x, Some (j_double c x)).
  Proof. intros x j [= <-]. apply jw_double. Qed.
  Ltac fields := apply jw_msg; repeat (constructor; [split; [vm_compute; reflexivity|]|]); [..|constructor]; cbn [snd].
  Lemma jw_filterable eu : WriterW (j_filterable c eu).
  Proof.
    intros x j. unfold j_filterable. fields.
    - apply fw_list, jw_text.
    - apply fw_map, jw_text.
    - apply fw_map, jw_double'.
    - apply fw_opt, jw_time.
  Qed.
  Lemma jw_ticket eu : WriterW (j_ticket c eu).
  Proof.
    intros x j. unfold j_ticket. fields; [apply fw_text|apply fw_opt, jw_time|apply fw_opt, jw_filterable|apply fw_ext].
  Qed.
  Lemma jw_assignment eu : WriterW (j_assignment c eu).
  Proof. intros x j. unfold j_assignment. fields; [apply fw_text|apply fw_ext]. Qed.
  Lemma jw_roster eu : WriterW (j_roster c eu).
  Proof.
    intros x j. unfold j_roster. fields; [apply fw_text|apply fw_opt, jw_assignment|apply fw_list, jw_ticket|apply fw_ext].
  Qed.
  Lemma bounds_valid z n : bounds_name z = Some n → utf8_valid n = true.
  Proof. unfold bounds_name. destruct z as [|[[]|[]|]|]; intros [= <-]; reflexivity. Qed.
  Lemma type_valid z n : type_name z = Some n → utf8_valid n = true.
  Proof. unfold type_name. destruct z as [|[]|]; intros [= <-]; reflexivity. Qed.
  Lemma jw_tag_filter eu : WriterW (j_tag_filter eu).
  Proof. intros x j. unfold j_tag_filter. fields; apply fw_text. Qed.
  Lemma jw_string_filter eu : WriterW (j_string_filter eu).
  Proof. intros x j. unfold j_string_filter. fields; apply fw_text. Qed.
  Lemma jw_double_filter eu : WriterW (j_double_filter c eu).
  Proof.
    intros x j. unfold j_double_filter. fields; [apply fw_text|apply fw_double|apply fw_double|apply fw_enum, bounds_valid].
  Qed.
  Lemma jw_time_filter eu : WriterW (j_time_filter c eu).
  Proof. intros x j. unfold j_time_filter. fields; [apply fw_opt, jw_time|apply fw_opt, jw_time|apply fw_enum, bounds_valid]. Qed.
  Lemma jw_pool eu : WriterW (j_pool c eu).
  Proof.
    intros x j. unfold j_pool. fields; [apply fw_text|apply fw_list, jw_tag_filter|apply fw_list, jw_string_filter|apply fw_list, jw_double_filter|
      apply fw_opt, jw_time_filter|apply fw_opt, jw_roster|apply fw_ext].
  Qed.
  Lemma jw_profile eu : WriterW (j_profile c eu).
  Proof. intros x j. unfold j_profile. fields; [apply fw_text|apply fw_map, jw_pool|apply fw_ext]. Qed.
  Lemma jw_match eu : WriterW (j_match c eu).
  Proof. intros x j. unfold j_match. fields; [apply fw_text|apply fw_map, jw_roster|apply fw_ext]. Qed.
  Lemma jw_spec eu : WriterW (j_spec eu).
  Proof. intros x j. unfold j_spec. fields; [apply fw_text|apply fw_text|apply fw_int|apply fw_enum, type_valid]. Qed.
  Lemma jw_request eu : WriterW (j_request c eu).
  Proof. intros x j. unfold j_request. fields; [apply fw_opt, jw_profile|apply fw_list, jw_spec]. Qed.
  Lemma jw_result eu : WriterW (j_result c eu).
  Proof. intros x j. unfold j_result. fields. apply fw_opt, jw_match. Qed.
  Lemma jw_create eu : WriterW (j_create c eu).
  Proof. intros x j. unfold j_create. fields. apply fw_opt, jw_ticket. Qed.
  Lemma jw_ids eu : WriterW (j_ids eu).
  Proof. intros x j. unfold j_ids. fields. apply fw_list, jw_text. Qed.
  Lemma jw_assign eu : WriterW (j_assign c eu).
  Proof. intros x j. unfold j_assign. fields. apply fw_opt, jw_roster. Qed.
  Lemma jw_watch eu : WriterW (j_watch c eu).
  Proof. intros x j. unfold j_watch. fields; [apply fw_opt, jw_assignment|apply fw_text]. Qed.
End writers.
Lemma msg_object fs j : w_msg fs = Some j → ∃ l, j = JDict l.
Proof. unfold w_msg. destruct (build fs) as [l|]; [|done]. cbn. intros [= <-]. by exists l. Qed.

(** ** From message to bytes and back *)
Lemma bytes_back {M} (w : M → option jv) (read : jv → option M) empty m v : w m = Some v → WriterW w → (∃ l, v = JDict l) →
  read v = Some m → ∀ sp rest, gateway_bytes read empty (client_bytes sp v +:+ rest) = Some m.
Proof. intros Hv Hw [l ->] Hr sp rest. rewrite client_read; [done|]. by eapply Hw. Qed.
Lemma requests_as_bytes c d eu : Agree c d → WritesJson c →
  (∀ t, AllOpt (AllTicket (kept c d)) t →
    ∃ v, j_create c eu t = Some v ∧ ∀ sp rest, gateway_bytes (r_create d) None (client_bytes sp v +:+ rest) = Some t) ∧
  (∀ ids, AllList (λ s, utf8_valid s = true) ids →
    ∃ v, j_ids eu ids = Some v ∧ ∀ sp rest, gateway_bytes r_ids [] (client_bytes sp v +:+ rest) = Some ids) ∧
  (∀ r, AllRequest (kept c d) r → AllList PlainType (rq_mmfs r) →
    ∃ v, j_request c eu r = Some v ∧ ∀ sp rest, gateway_bytes (r_request d) (Request None []) (client_bytes sp v +:+ rest) = Some r) ∧
  (∀ r, AllOpt (AllRoster (kept c d)) r →
    ∃ v, j_assign c eu r = Some v ∧ ∀ sp rest, gateway_bytes (r_assign d) None (client_bytes sp v +:+ rest) = Some r).
Proof.
  intros HA HC. destruct (same_request c d eu HA) as (H1 & H2 & H3 & H4). split_and!.
  - intros t Ht. destruct (H1 t Ht) as (v & Ev & Hr). exists v. split; [done|].
    apply (bytes_back (j_create c eu) (r_create d) None t v Ev (jw_create c HC eu)); [by apply msg_object in Ev|done].
  - intros t Ht. destruct (H2 t Ht) as (v & Ev & Hr). exists v. split; [done|].
    apply (bytes_back (j_ids eu) r_ids [] t v Ev (jw_ids eu)); [by apply msg_object in Ev|done].
  - intros t Ht Hp. destruct (H3 t Ht Hp) as (v & Ev & Hr). exists v. split; [done|].
    apply (bytes_back (j_request c eu) (r_request d) (Request None []) t v Ev (jw_request c HC eu)); [by apply msg_object in Ev|done].
  - intros t Ht. destruct (H4 t Ht) as (v & Ev & Hr). exists v. split; [done|].
    apply (bytes_back (j_assign c eu) (r_assign d) None t v Ev (jw_assign c HC eu)); [by apply msg_object in Ev|done].
Qed.
Lemma stream_as_bytes c d sp ms vs : Agree c d → WritesJson c → Forall (AllOpt (AllMatch (kept c d))) ms →
  mapM (j_result c true) ms = Some vs → Forall NoSpaces vs → example_result (r_result d) (stream_bytes sp vs) = Some (map Some ms).
Proof.
  intros HA HC HM E HS. rewrite stream_read; [|apply Forall_forall; by apply (mapM_written (j_result c true) ms vs (jw_result c HC true))|done].
  f_equal. apply mapM_Some_1 in E. clear HS. induction E as [|m v ms vs Ev _ IH]; [done|]. apply Forall_cons in HM as [Hm HM]. cbn [map].
  f_equal; [|by apply IH]. destruct (rt_result c d HA true m Hm) as (v' & Ev' & Hr). rewrite Ev in Ev'. injection Ev' as <-. apply Hr.
Qed.
Lemma stream_all_writable c d ms : Agree c d → Forall (AllOpt (AllMatch (kept c d))) ms → is_Some (mapM (j_result c true) ms).
Proof.
  intros HA HM. apply mapM_some. intros m Hm. rewrite Forall_forall in HM. destruct (rt_result c d HA true m (HM m Hm)) as (v & Ev & _). by eexists.
Qed.
Lemma stream_stops c d sp ms1 m ms2 vs1 v vs2 : WritesJson c →
  mapM (j_result c true) ms1 = Some vs1 → j_result c true m = Some v → mapM (j_result c true) ms2 = Some vs2 →
  Forall NoSpaces vs1 → (∃ s, TextIn s v ∧ SpaceInText s) →
  example_result (r_result d) (stream_bytes sp (vs1 ++ v :: vs2)) = None.
Proof.
  intros HC E1 Ev E2 HS Hs. apply stream_fatal; [|done|done]. apply Forall_app_2; [|constructor].
  - apply Forall_forall, (mapM_written (j_result c true) ms1 vs1 (jw_result c HC true) E1).
  - by eapply jw_result.
  - apply Forall_forall, (mapM_written (j_result c true) ms2 vs2 (jw_result c HC true) E2).
Qed.
Lemma api_readers c : ObjectsOnly (r_create c) ∧ ObjectsOnly r_ids ∧ ObjectsOnly (r_request c) ∧ ObjectsOnly (r_assign c).
Proof. split_and!; apply objects_only. Qed.
