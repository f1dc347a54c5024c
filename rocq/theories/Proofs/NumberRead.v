(** Lemmas for C143: reading and writing whole numbers in JSON. *)
From Coq Require Import Ascii String ZArith NArith Lia.
From stdpp Require Import prelude strings.
From Verif.Model Require Import GoStrings Types Wire HttpStream JsonText JsonBytes Calendar JsonNumber.
From Verif.Spec Require Import CalendarSpec HttpSpec JsonSpec JsonTextSpec JsonBytesSpec NumberSpec.
From Verif.Proofs Require Import StringLemmas WatchLemmas HttpLemmas Utf8TextLemmas SettingsLemmas JsonBytesLemmas CalendarText CalendarWrite CalendarStamp NumberScan NumberInt.
Local Open Scope string_scope.
Local Open Scope Z_scope.
Local Arguments String.append _ _ : simpl nomatch.

Lemma number_parts t neg ip ds x : NumberText t neg ip ds x → first_nonzero ip ∧ all_digits ds = true.
Proof.
  intros [sg neg' ip' fp es ep x' Hsg Hip Hfp Hep]. split; [by apply int_text_iff|]. destruct Hfp as [|w n ds' Hn]; [done|].
  by apply num_iff in Hn as (_ & ? & _).
Qed.
Lemma mantissa_value t neg ip ds x m : NumberText t neg ip ds x → Mantissa ip ds m ↔ m = value 0 (ip +:+ ds).
Proof.
  intros H. apply number_parts in H as [H1 H2]. apply first_nonzero_digits in H1 as [H1 _]. unfold Mantissa. split.
  - intros (w & Hn). by apply num_iff in Hn as (_ & _ & <-).
  - intros ->. eexists. apply num_iff. rewrite all_digits_app, H1, H2. done.
Qed.
Lemma int_number t neg ip ds x m z : NumberText t neg ip ds x → Mantissa ip ds m →
  read_int t = Some z ↔
  IsDecimal z (WithSign neg m) (Places ds x) ∧ Fits32 z ∧ (m = 0 ∨ Fits32 x ∧ (ip = "0" → x <= 20)).
Proof.
  intros H Hm. pose proof H as [H1 H2]%number_parts. apply (mantissa_value _ _ _ _ _ _ H) in Hm as ->.
  destruct (number_alone _ _ _ _ _ H) as (e & Ht & He). rewrite read_int_core, Ht. cbn [mbind option_bind]. by apply int_core_spec.
Qed.
Lemma ends_space_iff s : utf8_valid s = true → ends_in_space s = true ↔ EndsInSpace s.
Proof.
  intros Hv. unfold ends_in_space, EndsInSpace. split.
  - destruct (last (runes s)) as [r|] eqn:E; [|done]. intros Hr. apply last_Some in E as (t & E). exists t, r.
    split; [apply utf8_iff; by split|by apply is_space_spec].
  - intros (t & r & H & Hr). apply utf8_iff in H as [_ <-]. rewrite last_snoc. by apply is_space_spec.
Qed.
Lemma lonely_core neg ip ds : int_core (Token neg ip ds (Some ("", ""))) = int_core (Token neg ip ds None).
Proof. done. Qed.
Lemma int_text s z : utf8_valid s = true →
  read_int s = Some z ↔ ¬ EndsInSpace s ∧ ∃ t, (NumberFirst s t ∨ LonelyE s t) ∧ read_int t = Some z.
Proof.
  intros Hv. rewrite read_int_core. unfold number_in. rewrite <- (ends_space_iff s Hv). destruct (ends_in_space s); [naive_solver|].
  split.
  - intros H. split; [done|]. destruct (scan_number s) as [[tok rest]|] eqn:E; [|done]. cbn [fmap option_fmap option_map mbind option_bind fst] in H.
    apply scan_iff in E as (t & Es & Ht & Hr & Hne). inversion Ht as [sg neg ip fp ds e ep Hsg Hip Hfp Hep]; subst tok t.
    destruct (exp_of e) as [x|] eqn:Ee.
    + assert (NumberText (sg +:+ ip +:+ fp +:+ ep) neg ip ds x) as HN by (apply number_token; by exists e).
      exists (sg +:+ ip +:+ fp +:+ ep). split; [left; by exists rest, neg, ip, ds, x|].
      destruct (number_alone _ _ _ _ _ HN) as (e' & Hn & He'). rewrite read_int_core, Hn. cbn [mbind option_bind].
      pose proof (number_parts _ _ _ _ _ HN) as [P1 P2]. apply (int_core_spec neg ip ds e' x z P1 P2 He'). by apply (int_core_spec neg ip ds e x z P1 P2 Ee).
    + destruct e as [[sg' es]|]; [|done]. cbn in Ee. destruct es as [|? ?]; [|done]. cbn in H. destruct sg'; [|done].
      inversion Hep as [|c ? ? Hc Hs Hd]; subst. cbn [nt_exp] in Hne.
      exists (sg +:+ ip +:+ fp). split.
      * right. exists sg, neg, ip, fp, ds, c, rest. split_and!; [done|by apply int_text_iff|done|done|done|by apply (Hne "")|done|by rewrite !app_assoc_s].
      * assert (NumberText (sg +:+ ip +:+ fp) neg ip ds 0) as HN.
        { rewrite <- (app_nil_r_s fp). constructor; [done|by apply int_text_iff|done|constructor]. }
        destruct (number_alone _ _ _ _ _ HN) as (e' & Hn & He'). rewrite read_int_core, Hn. cbn [mbind option_bind].
        pose proof (number_parts _ _ _ _ _ HN) as [P1 P2]. apply (int_core_spec neg ip ds e' 0 z P1 P2 He').
        apply (int_core_spec neg ip ds None 0 z P1 P2 eq_refl). exact H.
  - intros (_ & t & [(rest & neg & ip & ds & x & -> & HN & Hr)|(sg & neg & ip & fp & ds & c & rest & Hsg & Hip & Hfp & -> & Hc & Hne & Hr & ->)] & H).
    + destruct (number_scan _ _ _ _ _ _ HN Hr) as (e & -> & He). cbn [fmap option_fmap option_map mbind option_bind fst].
      destruct (number_alone _ _ _ _ _ HN) as (e' & Hn & He'). rewrite read_int_core, Hn in H. cbn [mbind option_bind] in H.
      pose proof (number_parts _ _ _ _ _ HN) as [P1 P2]. apply (int_core_spec neg ip ds e x z P1 P2 He). by apply (int_core_spec neg ip ds e' x z P1 P2 He').
    + assert (scan_number ((sg +:+ ip +:+ fp) +:+ String c rest) = Some (Token neg ip ds (Some ("", "")), rest)) as ->.
      { apply scan_iff. exists (sg +:+ ip +:+ fp +:+ String c ("" +:+ "")). split_and!; [by rewrite !app_assoc_s| |done|done].
        constructor; [done|by apply int_text_iff|done|]. constructor; [done|by left|done]. }
      cbn [fmap option_fmap option_map mbind option_bind fst]. rewrite lonely_core.
      assert (NumberText (sg +:+ ip +:+ fp) neg ip ds 0) as HN.
      { rewrite <- (app_nil_r_s fp). constructor; [done|done|done|constructor]. }
      destruct (number_alone _ _ _ _ _ HN) as (e' & Hn & He'). rewrite read_int_core, Hn in H. cbn [mbind option_bind] in H.
      pose proof (number_parts _ _ _ _ _ HN) as [P1 P2]. apply (int_core_spec neg ip ds None 0 z P1 P2 eq_refl). by apply (int_core_spec neg ip ds e' 0 z P1 P2 He').
Qed.

(** What is written is read. *)
Lemma format_first n : first_nonzero (format_N n) ∧ value 0 (format_N n) = Z.of_N n ∧ (n ≠ 0%N → format_N n ≠ "0").
Proof.
  assert (value 0 (format_N n) = Z.of_N n) as Hv by (change 0 with (Z.of_N 0); by rewrite value_dv, dv_format_N).
  split_and!; [|done|intros Hn E; rewrite E in Hv; change (value 0 "0") with 0 in Hv; lia].
  destruct (decide (n = 0%N)) as [-> |Hn]; [by left|]. right. split; [apply format_N_digits|]. split; [apply format_N_nonempty|].
  intros s E. destruct (fmt_head (S (N.size_nat n)) n "") as (c & s' & E' & Hc); [lia|apply size_bound|].
  fold (format_N n) in E'. rewrite E' in E. by injection E as -> ->.
Qed.
Lemma format_int z : ∃ ip, NumberText (format_Z z) (z <? 0) ip "" 0 ∧ value 0 ip = Z.abs z.
Proof.
  unfold format_Z. destruct (Z.ltb_spec z 0) as [Hz|Hz].
  - destruct (format_first (Z.to_N (- z))) as (H1 & H2 & _). exists (format_N (Z.to_N (- z))). split; [|lia].
    pose proof (NT "-" true (format_N (Z.to_N (- z))) "" "" "" 0 ltac:(constructor) ltac:(by apply int_text_iff) ltac:(constructor) ltac:(constructor)) as H.
    rewrite !app_nil_r_s in H. exact H.
  - destruct (format_first (Z.to_N z)) as (H1 & H2 & _). exists (format_N (Z.to_N z)). split; [|lia].
    pose proof (NT "" false (format_N (Z.to_N z)) "" "" "" 0 ltac:(constructor) ltac:(by apply int_text_iff) ltac:(constructor) ltac:(constructor)) as H.
    rewrite !app_nil_r_s in H. exact H.
Qed.
Lemma int_written z : Fits32 z → read_int (format_Z z) = Some z.
Proof.
  intros Hz. destruct (format_int z) as (ip & HN & Hv). apply (int_number _ _ _ _ _ (Z.abs z) z HN).
  - apply (mantissa_value _ _ _ _ _ _ HN). by rewrite app_nil_r_s.
  - split; [|split; [done|]].
    + change (Places "" 0) with 0. unfold IsDecimal, WithSign. change (10 ^ Z.max 0 (- 0)) with 1. change (10 ^ Z.max 0 0) with 1. destruct (Z.ltb_spec z 0); lia.
    + right. split; [unfold Fits32; lia|lia].
Qed.
