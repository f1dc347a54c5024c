(** Lemmas about UTF-8 in Model/JsonBytes.v. *)
From Coq Require Import Ascii String ZArith NArith Lia.
From stdpp Require Import prelude strings.
From Verif.Model Require Import Wire JsonMsg HttpStream JsonText JsonBytes.
From Verif.Spec Require Import HttpSpec JsonTextSpec JsonBytesSpec.
From Verif.Proofs Require Import StringLemmas.
Local Open Scope N_scope.

Lemma in_range_iff lo hi c : in_range lo hi c = true ↔ lo <= N_of_ascii c <= hi.
Proof. unfold in_range. by rewrite andb_true_iff, !N.leb_le. Qed.
Lemma in_range_not lo hi c : in_range lo hi c = false ↔ ¬ lo <= N_of_ascii c <= hi.
Proof. rewrite <-in_range_iff. by destruct (in_range lo hi c). Qed.
Lemma byte_bound c : N_of_ascii c < 256.
Proof. apply N_ascii_bounded. Qed.
Lemma byte_id n : n < 256 → N_of_ascii (ascii_of_N n) = n.
Proof. apply N_ascii_embedding. Qed.
Lemma bytes_app a b : bytes (a ++ b) = bytes a +:+ bytes b.
Proof.
  unfold bytes. rewrite map_app. induction (map ascii_of_N a) as [|c l IH]; [done|].
  cbn [app string_of_list_ascii]. rewrite IH. done.
Qed.
Lemma byte_list_bytes l : Forall (λ n, n < 256) l → byte_list (bytes l) = l.
Proof.
  induction 1 as [|n l Hn _ IH]; [done|]. unfold byte_list, bytes in *. cbn [map list_ascii_of_string string_of_list_ascii].
  by rewrite byte_id, IH.
Qed.
Lemma bytes_byte_list s : bytes (byte_list s) = s.
Proof.
  induction s as [|c s IH]; [done|]. unfold byte_list, bytes in *. cbn [map list_ascii_of_string string_of_list_ascii].
  by rewrite ascii_N_embedding, IH.
Qed.
Lemma utf8_enc_cons r t : utf8_enc (r :: t) = bytes (rune_bytes r) +:+ utf8_enc t.
Proof. unfold utf8_enc. cbn [map concat]. apply bytes_app. Qed.
Lemma utf8_enc_app a b : utf8_enc (a ++ b) = utf8_enc a +:+ utf8_enc b.
Proof. unfold utf8_enc. rewrite map_app, concat_app. apply bytes_app. Qed.

Lemma rune_test r : Rune r → ((r <? 0xd800) || (0xe000 <=? r) && (r <? 0x110000)) = true.
Proof. unfold Rune. intros H. destruct (N.ltb_spec r 0xd800), (N.leb_spec 0xe000 r), (N.ltb_spec r 0x110000); cbn; (done || lia). Qed.
Lemma rune_bytes_of r : Rune r → rune_bytes r =
  if r <? 128 then [r]
  else if r <? 2048 then [192 + r / 64; 128 + r mod 64]
  else if r <? 65536 then [224 + r / 4096; 128 + (r / 64) mod 64; 128 + r mod 64]
  else [240 + r / 262144; 128 + (r / 4096) mod 64; 128 + (r / 64) mod 64; 128 + r mod 64].
Proof. intros H. unfold rune_bytes. by rewrite (rune_test r H). Qed.

(** The encoder writes UTF-8. *)
Lemma split2 r : r = r / 64 * 64 + r mod 64 ∧ r mod 64 < 64.
Proof. pose proof (N.div_mod r 64). pose proof (N.mod_lt r 64). lia. Qed.
Lemma split3 r : r = (r / 4096 * 64 + (r / 64) mod 64) * 64 + r mod 64.
Proof.
  pose proof (split2 r) as [H _]. pose proof (split2 (r / 64)) as [H' _]. rewrite N.div_div in H' by lia. change (64 * 64) with 4096 in H'. lia.
Qed.
Lemma split4 r : r = ((r / 262144 * 64 + (r / 4096) mod 64) * 64 + (r / 64) mod 64) * 64 + r mod 64.
Proof.
  pose proof (split3 r) as H. pose proof (split2 (r / 4096)) as [H' _]. rewrite N.div_div in H' by lia. change (4096 * 64) with 262144 in H'. lia.
Qed.
Lemma rune_bytes_ok r : Rune r → RuneBytes r (rune_bytes r).
Proof.
  intros Hr. rewrite rune_bytes_of by done. pose proof (split2 r) as [_ B0]. pose proof (split2 (r / 64)) as [_ B1].
  pose proof (split2 (r / 4096)) as [_ B2].
  destruct (N.ltb_spec r 128); [by constructor|]. destruct (N.ltb_spec r 2048).
  { destruct (split2 r) as [E _]. rewrite E at 1. constructor; lia. }
  destruct (N.ltb_spec r 65536).
  { pose proof (split3 r) as E. rewrite E at 1. constructor; try done; [lia|lia|]. by rewrite <-E. }
  pose proof (split4 r) as E. rewrite E at 1. unfold Rune in Hr. constructor; try done; lia.
Qed.
Lemma rune_bytes_unique r b : RuneBytes r b → Rune r ∧ b = rune_bytes r.
Proof.
  assert (D : ∀ x y, y < 64 → (x * 64 + y) / 64 = x ∧ (x * 64 + y) mod 64 = y).
  { intros x y Hy. split; [rewrite N.div_add_l by lia; rewrite N.div_small by done; lia|].
    rewrite N.add_comm, N.mod_add by lia. by apply N.mod_small. }
  destruct 1 as [r H|x y Hx Hy|x y z Hx Hy Hz H1 H2|x y z w Hx Hy Hz Hw H].
  - assert (Rune r) by (unfold Rune; lia). split; [done|]. rewrite rune_bytes_of by done. destruct (N.ltb_spec r 128); [done|lia].
  - assert (Hr : Rune (x * 64 + y)) by (unfold Rune; lia). split; [done|]. rewrite rune_bytes_of by done.
    destruct (D x y Hy) as [-> ->]. destruct (N.ltb_spec (x * 64 + y) 128); [lia|]. destruct (N.ltb_spec (x * 64 + y) 2048); [done|lia].
  - split; [done|]. rewrite rune_bytes_of by done. set (r := (x * 64 + y) * 64 + z) in *.
    assert (E1 : r / 64 = x * 64 + y) by apply D, Hz. assert (E2 : r mod 64 = z) by apply D, Hz.
    assert (E3 : r / 4096 = x) by (change 4096 with (64 * 64); rewrite <-N.div_div by lia; rewrite E1; apply D, Hy).
    rewrite E3, E1, E2. destruct (D x y Hy) as [_ ->].
    destruct (N.ltb_spec r 128); [lia|]. destruct (N.ltb_spec r 2048); [lia|]. destruct (N.ltb_spec r 65536); [done|lia].
  - set (r := ((x * 64 + y) * 64 + z) * 64 + w) in *. assert (Hr : Rune r) by (unfold Rune; lia). split; [done|]. rewrite rune_bytes_of by done.
    assert (E1 : r / 64 = (x * 64 + y) * 64 + z) by apply D, Hw. assert (E2 : r mod 64 = w) by apply D, Hw.
    assert (E3 : r / 4096 = x * 64 + y) by (change 4096 with (64 * 64); rewrite <-N.div_div by lia; rewrite E1; apply D, Hz).
    assert (E4 : r / 262144 = x) by (change 262144 with (4096 * 64); rewrite <-N.div_div by lia; rewrite E3; apply D, Hy).
    rewrite E4, E3, E1, E2. destruct (D x y Hy) as [_ ->]. destruct (D (x * 64 + y) z Hz) as [_ ->].
    destruct (N.ltb_spec r 128); [lia|]. destruct (N.ltb_spec r 2048); [lia|]. destruct (N.ltb_spec r 65536); [lia|done].
Qed.

Lemma app_cons_s c a b : String c a +:+ b = String c (a +:+ b).
Proof. reflexivity. Qed.
Lemma app_empty_s b : ""%string +:+ b = b.
Proof. reflexivity. Qed.

(** The decoder on a code point. *)
Lemma dec_rune r b s : RuneBytes r b → utf8_dec (bytes b +:+ s) = rune_then r (utf8_dec s).
Proof.
  destruct 1 as [r H|x y Hx Hy|x y z Hx Hy Hz H1 H2|x y z w Hx Hy Hz Hw H]; unfold bytes;
    cbn [map string_of_list_ascii]; rewrite ?app_cons_s, app_empty_s; cbn [utf8_dec].
  - rewrite (proj2 (in_range_iff _ _ _)) by (rewrite byte_id; lia). by rewrite byte_id by lia.
  - rewrite (proj2 (in_range_not 0 127 _)) by (rewrite byte_id; lia). rewrite (proj2 (in_range_iff 194 223 _)) by (rewrite byte_id; lia).
    unfold cont_byte. rewrite (proj2 (in_range_iff 128 191 _)) by (rewrite byte_id; lia). unfold tail_bits. rewrite !byte_id by lia.
    f_equal. lia.
  - rewrite (proj2 (in_range_not 0 127 _)) by (rewrite byte_id; lia). rewrite (proj2 (in_range_not 194 223 _)) by (rewrite byte_id; lia).
    rewrite (proj2 (in_range_iff 224 239 _)) by (rewrite byte_id; lia). unfold Rune in H2.
    assert (C : ((if in_range 224 224 (ascii_of_N (224 + x)) then in_range 160 191 (ascii_of_N (128 + y))
       else if in_range 237 237 (ascii_of_N (224 + x)) then in_range 128 159 (ascii_of_N (128 + y)) else cont_byte (ascii_of_N (128 + y))) &&
       cont_byte (ascii_of_N (128 + z))) = true).
    { apply andb_true_iff. split; [|apply in_range_iff; rewrite byte_id; lia].
      destruct (in_range 224 224 _) eqn:E1; [apply in_range_iff in E1; rewrite byte_id in E1 by lia; apply in_range_iff; rewrite byte_id; lia|].
      destruct (in_range 237 237 _) eqn:E2; [apply in_range_iff in E2; rewrite byte_id in E2 by lia; apply in_range_iff; rewrite byte_id; lia|].
      apply in_range_iff; rewrite byte_id; lia. }
    rewrite C. unfold tail_bits. rewrite !byte_id by lia. f_equal. lia.
  - rewrite (proj2 (in_range_not 0 127 _)) by (rewrite byte_id; lia). rewrite (proj2 (in_range_not 194 223 _)) by (rewrite byte_id; lia).
    rewrite (proj2 (in_range_not 224 239 _)) by (rewrite byte_id; lia). rewrite (proj2 (in_range_iff 240 244 _)) by (rewrite byte_id; lia).
    assert (C : ((if in_range 240 240 (ascii_of_N (240 + x)) then in_range 144 191 (ascii_of_N (128 + y))
       else if in_range 244 244 (ascii_of_N (240 + x)) then in_range 128 143 (ascii_of_N (128 + y)) else cont_byte (ascii_of_N (128 + y))) &&
       cont_byte (ascii_of_N (128 + z)) && cont_byte (ascii_of_N (128 + w))) = true).
    { apply andb_true_iff. split; [|apply in_range_iff; rewrite byte_id; lia]. apply andb_true_iff. split; [|apply in_range_iff; rewrite byte_id; lia].
      destruct (in_range 240 240 _) eqn:E1; [apply in_range_iff in E1; rewrite byte_id in E1 by lia; apply in_range_iff; rewrite byte_id; lia|].
      destruct (in_range 244 244 _) eqn:E2; [apply in_range_iff in E2; rewrite byte_id in E2 by lia; apply in_range_iff; rewrite byte_id; lia|].
      apply in_range_iff; rewrite byte_id; lia. }
    rewrite C. unfold tail_bits. rewrite !byte_id by lia. f_equal. lia.
Qed.
Lemma dec_enc t s : Forall Rune t → utf8_dec (utf8_enc t +:+ s) = (t ++ (utf8_dec s).1, (utf8_dec s).2).
Proof.
  induction 1 as [|r t Hr _ IH]; [change (utf8_enc [] +:+ s) with s; by destruct (utf8_dec s)|].
  rewrite utf8_enc_cons, app_assoc_s, (dec_rune r) by (by apply rune_bytes_ok). rewrite IH. done.
Qed.
Lemma dec_enc_whole t : Forall Rune t → utf8_dec (utf8_enc t) = (t, true).
Proof. intros H. rewrite <-(app_nil_r_s (utf8_enc t)), dec_enc by done. cbn. by rewrite app_nil_r. Qed.

(** One step of the decoder, the other way round. *)
Lemma dec_step c s1 : (∃ r b s', RuneBytes r b ∧ String c s1 = bytes b +:+ s' ∧ utf8_dec (String c s1) = rune_then r (utf8_dec s') ∧
    (String.length s' < String.length (String c s1))%nat) ∨ utf8_dec (String c s1) = ([], false).
Proof.
  assert (B : ∀ c, ascii_of_N (N_of_ascii c) = c) by apply ascii_N_embedding.
  cbn [utf8_dec]. destruct (in_range 0 127 c) eqn:E0.
  { apply in_range_iff in E0. left. exists (N_of_ascii c), [N_of_ascii c], s1. split; [constructor; lia|]. unfold bytes. cbn [map string_of_list_ascii String.length]. rewrite app_cons_s, app_empty_s, B.
    split; [done|]. split; [done|lia]. }
  destruct s1 as [|c1 s2]; [by right|]. destruct (in_range 194 223 c) eqn:E1.
  { destruct (cont_byte c1) eqn:C1; [|by right]. apply in_range_iff in E1, C1. left.
    exists ((N_of_ascii c - 192) * 64 + tail_bits c1), [192 + (N_of_ascii c - 192); 128 + tail_bits c1], s2. unfold tail_bits.
    split; [constructor; lia|]. unfold bytes. cbn [map string_of_list_ascii String.length]. rewrite ?app_cons_s, app_empty_s.
    replace (192 + (N_of_ascii c - 192)) with (N_of_ascii c) by lia. replace (128 + (N_of_ascii c1 - 128)) with (N_of_ascii c1) by lia.
    rewrite !B. split; [done|]. split; [done|lia]. }
  destruct s2 as [|c2 s3]; [by right|]. destruct (in_range 224 239 c) eqn:E2.
  { destruct ((if in_range 224 224 c then _ else _) && cont_byte c2) eqn:C; [|by right]. apply andb_true_iff in C as [C1 C2].
    apply in_range_iff in E2, C2. left.
    exists (((N_of_ascii c - 224) * 64 + tail_bits c1) * 64 + tail_bits c2), [224 + (N_of_ascii c - 224); 128 + tail_bits c1; 128 + tail_bits c2], s3.
    unfold tail_bits.
    assert (H1 : 128 <= N_of_ascii c1 <= 191 ∧ (N_of_ascii c = 224 → 160 <= N_of_ascii c1) ∧ (N_of_ascii c = 237 → N_of_ascii c1 <= 159)).
    { destruct (in_range 224 224 c) eqn:D1; [apply in_range_iff in D1, C1; lia|]. apply in_range_not in D1.
      destruct (in_range 237 237 c) eqn:D2; [apply in_range_iff in D2, C1; lia|]. apply in_range_not in D2. apply in_range_iff in C1. lia. }
    split; [constructor; unfold Rune; lia|]. unfold bytes. cbn [map string_of_list_ascii String.length]. rewrite ?app_cons_s, app_empty_s.
    replace (224 + (N_of_ascii c - 224)) with (N_of_ascii c) by lia. replace (128 + (N_of_ascii c1 - 128)) with (N_of_ascii c1) by lia.
    replace (128 + (N_of_ascii c2 - 128)) with (N_of_ascii c2) by lia.
    rewrite !B. split; [done|]. split; [f_equal; lia|lia]. }
  destruct s3 as [|c3 s4]; [by right|]. destruct (in_range 240 244 c) eqn:E3; [|by right].
  destruct ((if in_range 240 240 c then _ else _) && cont_byte c2 && cont_byte c3) eqn:C; [|by right].
  apply andb_true_iff in C as [C C3]. apply andb_true_iff in C as [C1 C2].
  apply in_range_iff in E3, C2, C3. left.
  exists ((((N_of_ascii c - 240) * 64 + tail_bits c1) * 64 + tail_bits c2) * 64 + tail_bits c3),
    [240 + (N_of_ascii c - 240); 128 + tail_bits c1; 128 + tail_bits c2; 128 + tail_bits c3], s4.
  unfold tail_bits.
  assert (H1 : 128 <= N_of_ascii c1 <= 191 ∧ (N_of_ascii c = 240 → 144 <= N_of_ascii c1) ∧ (N_of_ascii c = 244 → N_of_ascii c1 <= 143)).
  { destruct (in_range 240 240 c) eqn:D1; [apply in_range_iff in D1, C1; lia|]. apply in_range_not in D1.
    destruct (in_range 244 244 c) eqn:D2; [apply in_range_iff in D2, C1; lia|]. apply in_range_not in D2. apply in_range_iff in C1. lia. }
  split; [constructor; lia|]. unfold bytes. cbn [map string_of_list_ascii String.length]. rewrite ?app_cons_s, app_empty_s.
  replace (240 + (N_of_ascii c - 240)) with (N_of_ascii c) by lia. replace (128 + (N_of_ascii c1 - 128)) with (N_of_ascii c1) by lia.
  replace (128 + (N_of_ascii c2 - 128)) with (N_of_ascii c2) by lia. replace (128 + (N_of_ascii c3 - 128)) with (N_of_ascii c3) by lia.
  rewrite !B. split; [done|]. split; [f_equal; lia|lia].
Qed.
Lemma dec_sound_n n : ∀ s, (String.length s <= n)%nat → Forall Rune (utf8_dec s).1 ∧
  ∃ rest, s = utf8_enc (utf8_dec s).1 +:+ rest ∧ ((utf8_dec s).2 = true ↔ rest = "")%string.
Proof.
  induction n as [|n IH]; intros s Hn; destruct s as [|c s1]; try (cbn in Hn; lia); try (split; [constructor|by exists ""%string]).
  destruct (dec_step c s1) as [(r & b & s' & Hb & E & -> & Hl)| ->].
  - destruct (IH s' ltac:(cbn [String.length] in *; lia)) as [Hf (rest & E' & Hw)]. destruct (rune_bytes_unique r b Hb) as [Hr ->].
    cbn [rune_then fst snd]. split; [by constructor|]. exists rest. split; [|done]. by rewrite utf8_enc_cons, app_assoc_s, <-E'.
  - split; [constructor|]. exists (String c s1). done.
Qed.
Lemma dec_sound s : Forall Rune (utf8_dec s).1 ∧
  ∃ rest, s = utf8_enc (utf8_dec s).1 +:+ rest ∧ ((utf8_dec s).2 = true ↔ rest = "")%string.
Proof. by apply (dec_sound_n (String.length s)). Qed.
Lemma dec_valid_n n : ∀ s, (String.length s <= n)%nat → (utf8_dec s).2 = utf8_valid s.
Proof.
  induction n as [|n IH]; intros s Hn; destruct s as [|c s1]; try (cbn in Hn; lia); try done. cbn [String.length] in Hn.
  cbn [utf8_dec utf8_valid]. destruct (in_range 0 127 c); [apply IH; lia|].
  destruct s1 as [|c1 s2]; [done|]. cbn [String.length] in Hn. destruct (in_range 194 223 c).
  { destruct (cont_byte c1); [|done]. cbn [rune_then snd andb]. apply IH. lia. }
  destruct s2 as [|c2 s3]; [done|]. cbn [String.length] in Hn. destruct (in_range 224 239 c).
  { destruct ((if in_range 224 224 c then _ else _) && cont_byte c2); [|done]. cbn [rune_then snd andb]. apply IH. lia. }
  destruct s3 as [|c3 s4]; [done|]. cbn [String.length] in Hn. destruct (in_range 240 244 c); [|done].
  destruct ((if in_range 240 240 c then _ else _) && cont_byte c2 && cont_byte c3); [|done]. cbn [rune_then snd andb]. apply IH. lia.
Qed.
Lemma dec_valid s : (utf8_dec s).2 = utf8_valid s.
Proof. by apply (dec_valid_n (String.length s)). Qed.

(** Texts and strings. *)
Lemma enc_runes s : utf8_valid s = true → utf8_enc (runes s) = s.
Proof.
  intros H. rewrite <-dec_valid in H. destruct (dec_sound s) as [_ (rest & E & Hw)]. apply Hw in H as ->. rewrite app_nil_r_s in E. by symmetry.
Qed.
Lemma runes_ok s : Forall Rune (runes s).
Proof. apply dec_sound. Qed.
Lemma enc_valid t : Forall Rune t → utf8_valid (utf8_enc t) = true.
Proof. intros H. by rewrite <-dec_valid, dec_enc_whole. Qed.
Lemma utf8_unique t bs : Utf8 t bs → Forall Rune t ∧ bs = concat (map rune_bytes t).
Proof.
  induction 1 as [|r t b bs Hb _ [IH ->]]; [done|]. destruct (rune_bytes_unique r b Hb) as [Hr ->]. split; [by constructor|done].
Qed.
Lemma utf8_enc_ok t : Forall Rune t → Utf8 t (concat (map rune_bytes t)).
Proof. induction 1 as [|r t Hr _ IH]; [constructor|]. cbn [map concat]. constructor; [by apply rune_bytes_ok|done]. Qed.
Lemma rune_bytes_bound r b : RuneBytes r b → Forall (λ n, n < 256) b.
Proof. destruct 1; repeat constructor; lia. Qed.
Lemma enc_bytes_bound t : Forall Rune t → Forall (λ n, n < 256) (concat (map rune_bytes t)).
Proof.
  induction 1 as [|r t Hr _ IH]; [constructor|]. cbn [map concat]. apply Forall_app_2; [|done]. by eapply rune_bytes_bound, rune_bytes_ok.
Qed.
(** A string is UTF-8 for one text at most, and [utf8_valid] says for which strings there is one. *)
Lemma utf8_iff s t : Utf8 t (byte_list s) ↔ utf8_valid s = true ∧ t = runes s.
Proof.
  split.
  - intros H. apply utf8_unique in H as [Ht E]. assert (Es : s = utf8_enc t) by (rewrite <-(bytes_byte_list s), E; done).
    rewrite Es. split; [by apply enc_valid|]. unfold runes. by rewrite dec_enc_whole.
  - intros [H ->]. assert (E : byte_list s = concat (map rune_bytes (runes s))).
    { rewrite <-(enc_runes s H) at 1. unfold utf8_enc. apply byte_list_bytes, enc_bytes_bound, runes_ok. }
    rewrite E. apply utf8_enc_ok, runes_ok.
Qed.
