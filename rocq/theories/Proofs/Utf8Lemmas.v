(** The check of the model accepts exactly UTF-8 text. *)
From Coq Require Import Ascii String ZArith NArith Lia ZifyBool ZifyN ZifyNat.
From stdpp Require Import prelude strings.
From Verif.Model Require Import Wire.
From Verif.Spec Require Import Utf8Spec.
From Verif.Proofs Require Import StringLemmas WireLemmas.
Local Open Scope N_scope.
Ltac Zify.zify_post_hook ::= Z.div_mod_to_equations.

Lemma in_range_spec lo hi c : in_range lo hi c = true ↔ lo ≤ N_of_ascii c ≤ hi.
Proof. unfold in_range. lia. Qed.

Lemma in_range_b lo hi b : b < 256 →
  in_range lo hi (ascii_of_N b) = (lo <=? b) && (b <=? hi).
Proof. intros H. unfold in_range. by rewrite N_ascii_small. Qed.

Lemma string_of_bytes_app l l' :
  string_of_bytes (l ++ l') = (string_of_bytes l +:+ string_of_bytes l').
Proof. induction l as [|b l IH]; simpl; [done|]. by rewrite IH. Qed.

(** One character in front. *)
Lemma utf8_valid_char c s : scalar c →
  utf8_valid (string_of_bytes (char_bytes c ++ s)) = utf8_valid (string_of_bytes s).
Proof.
  intros Hc. unfold scalar in Hc. unfold char_bytes.
  destruct (c <? 0x80) eqn:E1; [|destruct (c <? 0x800) eqn:E2; [|destruct (c <? 0x10000) eqn:E3]].
  - cbn [app string_of_bytes utf8_valid]. rewrite in_range_b by lia.
    assert ((0 <=? c) && (c <=? 127) = true) as -> by lia. done.
  - cbn [app string_of_bytes utf8_valid]. unfold cont_byte. rewrite !in_range_b by lia.
    assert ((0 <=? 0xC0 + c / 64) && (0xC0 + c / 64 <=? 127) = false) as -> by lia.
    assert ((194 <=? 0xC0 + c / 64) && (0xC0 + c / 64 <=? 223) = true) as -> by lia.
    assert ((128 <=? 0x80 + c mod 64) && (0x80 + c mod 64 <=? 191) = true) as -> by lia. done.
  - cbn [app string_of_bytes utf8_valid]. unfold cont_byte.
    set (a := 0xE0 + c / 4096). set (b := 0x80 + (c / 64) mod 64). set (d := 0x80 + c mod 64).
    assert (Ha : 224 ≤ a ≤ 239) by lia. assert (Hb : 128 ≤ b ≤ 191) by lia.
    assert (Hd : 128 ≤ d ≤ 191) by lia.
    assert (H0 : a = 224 → 160 ≤ b) by lia.
    assert (H1 : a = 237 → b ≤ 159) by lia.
    clearbody a b d. rewrite !in_range_b by lia.
    destruct ((0 <=? a) && (a <=? 127)) eqn:F1; [lia|].
    destruct ((194 <=? a) && (a <=? 223)) eqn:F2; [lia|].
    destruct ((224 <=? a) && (a <=? 239)) eqn:F3; [|lia].
    destruct ((224 <=? a) && (a <=? 224)) eqn:F4;
      [|destruct ((237 <=? a) && (a <=? 237)) eqn:F5];
      match goal with |- ?x && ?y && _ = _ =>
        assert (x = true) as -> by lia; assert (y = true) as -> by lia end; done.
  - cbn [app string_of_bytes utf8_valid]. unfold cont_byte.
    set (a := 0xF0 + c / 262144). set (b := 0x80 + (c / 4096) mod 64).
    set (d := 0x80 + (c / 64) mod 64). set (e := 0x80 + c mod 64).
    assert (Ha : 240 ≤ a ≤ 244) by lia. assert (Hb : 128 ≤ b ≤ 191) by lia.
    assert (Hd : 128 ≤ d ≤ 191) by lia. assert (He : 128 ≤ e ≤ 191) by lia.
    assert (H0 : a = 240 → 144 ≤ b) by lia.
    assert (H1 : a = 244 → b ≤ 143) by lia.
    clearbody a b d e. rewrite !in_range_b by lia.
    destruct ((0 <=? a) && (a <=? 127)) eqn:F1; [lia|].
    destruct ((194 <=? a) && (a <=? 223)) eqn:F2; [lia|].
    destruct ((224 <=? a) && (a <=? 239)) eqn:F3; [lia|].
    destruct ((240 <=? a) && (a <=? 244)) eqn:F6; [|lia].
    destruct ((240 <=? a) && (a <=? 240)) eqn:F4;
      [|destruct ((244 <=? a) && (a <=? 244)) eqn:F5];
      match goal with |- ?x && ?y && ?z && _ = _ =>
        assert (x = true) as -> by lia; assert (y = true) as -> by lia;
        assert (z = true) as -> by lia end; done.
Qed.

Lemma utf8_text_valid s : Utf8Text s → utf8_valid s = true.
Proof.
  intros (cs & Hcs & ->). induction cs as [|c cs IH]; [done|].
  apply Forall_cons in Hcs as [Hc Hcs]. cbn [map concat].
  rewrite utf8_valid_char by done. by apply IH.
Qed.

Lemma utf8_text_char c s t : scalar c → Utf8Text s →
  t = (string_of_bytes (char_bytes c) +:+ s) → Utf8Text t.
Proof.
  intros Hc (cs & Hcs & ->) ->. exists (c :: cs). split; [by constructor|].
  cbn [map concat]. by rewrite string_of_bytes_app.
Qed.

Lemma ascii_byte c : c = ascii_of_N (N_of_ascii c).
Proof. symmetry. apply ascii_N_embedding. Qed.

Lemma utf8_valid_text_len n s : (String.length s <= n)%nat → utf8_valid s = true → Utf8Text s.
Proof.
  revert s. induction n as [|n IH]; intros s Hn Hv.
  { destruct s; [|simpl in Hn; lia]. by exists []. }
  destruct s as [|c s1]; [by exists []|]. cbn [utf8_valid] in Hv.
  destruct (in_range 0 127 c) eqn:E0.
  { apply in_range_spec in E0. eapply (utf8_text_char (N_of_ascii c)); [left; lia| |].
    - apply IH; [|exact Hv]. simpl in Hn. lia.
    - unfold char_bytes. destruct (N_of_ascii c <? 0x80) eqn:E; [|lia].
      cbn. by rewrite <-ascii_byte. }
  destruct s1 as [|c1 s2]; [done|].
  destruct (in_range 194 223 c) eqn:E1.
  { apply andb_true_iff in Hv as [H1 Hv]. apply in_range_spec in E1, H1.
    set (a := N_of_ascii c) in *. set (b := N_of_ascii c1) in *.
    assert (Hk : ∃ k, k = (a - 192) * 64 + (b - 128)) by eauto. destruct Hk as [k Hk].
    eapply (utf8_text_char k); [left; lia| |].
    - apply IH; [|exact Hv]. simpl in Hn. lia.
    - unfold char_bytes. destruct (k <? 0x80) eqn:F1; [lia|].
      destruct (k <? 0x800) eqn:F2; [|lia]. cbn [string_of_bytes].
      assert (0xC0 + k / 64 = a) as -> by lia.
      assert (0x80 + k mod 64 = b) as -> by lia.
      unfold a, b. cbn. by rewrite <-!ascii_byte. }
  destruct s2 as [|c2 s3]; [done|].
  destruct (in_range 224 239 c) eqn:E2.
  { apply andb_true_iff in Hv as [Hv1 Hv]. apply andb_true_iff in Hv1 as [Hv1 H2].
    assert (H1 : 128 ≤ N_of_ascii c1 ≤ 191 ∧ (N_of_ascii c = 224 → 160 ≤ N_of_ascii c1) ∧
                 (N_of_ascii c = 237 → N_of_ascii c1 ≤ 159)).
    { destruct (in_range 224 224 c) eqn:F1; [apply in_range_spec in F1, Hv1; lia|].
      destruct (in_range 237 237 c) eqn:F2; [apply in_range_spec in F2, Hv1; lia|].
      apply in_range_spec in Hv1. unfold in_range in F1, F2. lia. }
    destruct H1 as (H1 & H1a & H1b). apply in_range_spec in E2, H2. clear Hv1.
    set (a := N_of_ascii c) in *. set (b := N_of_ascii c1) in *. set (d := N_of_ascii c2) in *.
    assert (Hk : ∃ k, k = (a - 224) * 4096 + (b - 128) * 64 + (d - 128)) by eauto.
    destruct Hk as [k Hk].
    eapply (utf8_text_char k); [unfold scalar; lia| |].
    - apply IH; [|exact Hv]. simpl in Hn. lia.
    - unfold char_bytes. destruct (k <? 0x80) eqn:F1; [lia|].
      destruct (k <? 0x800) eqn:F2; [lia|]. destruct (k <? 0x10000) eqn:F3; [|lia].
      cbn [string_of_bytes].
      assert (0xE0 + k / 4096 = a) as -> by lia.
      assert (0x80 + (k / 64) mod 64 = b) as -> by lia.
      assert (0x80 + k mod 64 = d) as -> by lia.
      unfold a, b, d. cbn. by rewrite <-!ascii_byte. }
  destruct s3 as [|c3 s4]; [done|].
  destruct (in_range 240 244 c) eqn:E3; [|done].
  apply andb_true_iff in Hv as [Hv1 Hv]. apply andb_true_iff in Hv1 as [Hv1 H3].
  apply andb_true_iff in Hv1 as [Hv1 H2].
  assert (H1 : 128 ≤ N_of_ascii c1 ≤ 191 ∧ (N_of_ascii c = 240 → 144 ≤ N_of_ascii c1) ∧
               (N_of_ascii c = 244 → N_of_ascii c1 ≤ 143)).
  { destruct (in_range 240 240 c) eqn:F1; [apply in_range_spec in F1, Hv1; lia|].
    destruct (in_range 244 244 c) eqn:F2; [apply in_range_spec in F2, Hv1; lia|].
    apply in_range_spec in Hv1. unfold in_range in F1, F2. lia. }
  destruct H1 as (H1 & H1a & H1b). apply in_range_spec in E3, H2, H3. clear Hv1.
  set (a := N_of_ascii c) in *. set (b := N_of_ascii c1) in *. set (d := N_of_ascii c2) in *.
  set (e := N_of_ascii c3) in *.
  assert (Hk : ∃ k, k = (a - 240) * 262144 + (b - 128) * 4096 + (d - 128) * 64 + (e - 128))
    by eauto.
  destruct Hk as [k Hk].
  eapply (utf8_text_char k); [unfold scalar; lia| |].
  - apply IH; [|exact Hv]. simpl in Hn. lia.
  - unfold char_bytes. destruct (k <? 0x80) eqn:F1; [lia|].
    destruct (k <? 0x800) eqn:F2; [lia|]. destruct (k <? 0x10000) eqn:F3; [lia|].
    cbn [string_of_bytes].
    assert (0xF0 + k / 262144 = a) as -> by lia.
    assert (0x80 + (k / 4096) mod 64 = b) as -> by lia.
    assert (0x80 + (k / 64) mod 64 = d) as -> by lia.
    assert (0x80 + k mod 64 = e) as -> by lia.
    unfold a, b, d, e. cbn. by rewrite <-!ascii_byte.
Qed.

Lemma utf8_valid_iff s : utf8_valid s = true ↔ Utf8Text s.
Proof. split; [by eapply utf8_valid_text_len|apply utf8_text_valid]. Qed.
