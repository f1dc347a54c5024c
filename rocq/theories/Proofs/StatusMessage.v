(** Lemmas about the trailers of Model/StatusWire.v. *)
From Coq Require Import Ascii String ZArith NArith Lia.
From stdpp Require Import prelude strings.
From Verif.Model Require Import GoStrings Types Wire JsonMsg HttpStream JsonText JsonBytes StatusWire.
From Verif.Spec Require Import HttpSpec JsonTextSpec JsonBytesSpec StatusSpec.
From Verif.Proofs Require Import StringLemmas Utf8TextLemmas.
Local Open Scope N_scope.

(** ** Code points *)
Lemma len_rune r b s : RuneBytes r b → rune_len (bytes b +:+ s) = length b.
Proof.
  destruct 1 as [r H|x y Hx Hy|x y z Hx Hy Hz H1 H2|x y z w Hx Hy Hz Hw H]; unfold bytes;
    cbn [map string_of_list_ascii]; rewrite ?app_cons_s, app_empty_s; cbn [rune_len length].
  - by rewrite (proj2 (in_range_iff _ _ _)) by (rewrite byte_id; lia).
  - rewrite (proj2 (in_range_not 0 127 _)) by (rewrite byte_id; lia). rewrite (proj2 (in_range_iff 194 223 _)) by (rewrite byte_id; lia).
    unfold cont_byte. by rewrite (proj2 (in_range_iff 128 191 _)) by (rewrite byte_id; lia).
  - rewrite (proj2 (in_range_not 0 127 _)) by (rewrite byte_id; lia). rewrite (proj2 (in_range_not 194 223 _)) by (rewrite byte_id; lia).
    rewrite (proj2 (in_range_iff 224 239 _)) by (rewrite byte_id; lia). unfold Rune in H2.
    assert (C : ((if in_range 224 224 (ascii_of_N (224 + x)) then in_range 160 191 (ascii_of_N (128 + y))
       else if in_range 237 237 (ascii_of_N (224 + x)) then in_range 128 159 (ascii_of_N (128 + y)) else cont_byte (ascii_of_N (128 + y))) &&
       cont_byte (ascii_of_N (128 + z))) = true).
    { apply andb_true_iff. split; [|apply in_range_iff; rewrite byte_id; lia].
      destruct (in_range 224 224 _) eqn:E1; [apply in_range_iff in E1; rewrite byte_id in E1 by lia; apply in_range_iff; rewrite byte_id; lia|].
      destruct (in_range 237 237 _) eqn:E2; [apply in_range_iff in E2; rewrite byte_id in E2 by lia; apply in_range_iff; rewrite byte_id; lia|].
      apply in_range_iff; rewrite byte_id; lia. }
    by rewrite C.
  - rewrite (proj2 (in_range_not 0 127 _)) by (rewrite byte_id; lia). rewrite (proj2 (in_range_not 194 223 _)) by (rewrite byte_id; lia).
    rewrite (proj2 (in_range_not 224 239 _)) by (rewrite byte_id; lia). rewrite (proj2 (in_range_iff 240 244 _)) by (rewrite byte_id; lia).
    assert (C : ((if in_range 240 240 (ascii_of_N (240 + x)) then in_range 144 191 (ascii_of_N (128 + y))
       else if in_range 244 244 (ascii_of_N (240 + x)) then in_range 128 143 (ascii_of_N (128 + y)) else cont_byte (ascii_of_N (128 + y))) &&
       cont_byte (ascii_of_N (128 + z)) && cont_byte (ascii_of_N (128 + w))) = true).
    { apply andb_true_iff. split; [|apply in_range_iff; rewrite byte_id; lia]. apply andb_true_iff. split; [|apply in_range_iff; rewrite byte_id; lia].
      destruct (in_range 240 240 _) eqn:E1; [apply in_range_iff in E1; rewrite byte_id in E1 by lia; apply in_range_iff; rewrite byte_id; lia|].
      destruct (in_range 244 244 _) eqn:E2; [apply in_range_iff in E2; rewrite byte_id in E2 by lia; apply in_range_iff; rewrite byte_id; lia|].
      apply in_range_iff; rewrite byte_id; lia. }
    by rewrite C.
Qed.
Lemma len_bad c s : utf8_dec (String c s) = ([], false) → rune_len (String c s) = 0%nat.
Proof.
  cbn [utf8_dec rune_len]. destruct (in_range 0 127 c); [done|]. destruct s as [|c1 s]; [done|].
  destruct (in_range 194 223 c); [by destruct (cont_byte c1)|]. destruct s as [|c2 s]; [done|].
  destruct (in_range 224 239 c); [by destruct (_ && _)|]. destruct s as [|c3 s]; [done|].
  destruct (in_range 240 244 c); [by destruct (_ && _)|done].
Qed.
Lemma rune_cases c s : (∃ r b s', RuneBytes r b ∧ String c s = bytes b +:+ s' ∧ rune_len (String c s) = length b ∧ utf8_dec (String c s) = rune_then r (utf8_dec s')) ∨
  rune_len (String c s) = 0%nat ∧ utf8_dec (String c s) = ([], false) ∧ ∀ r b s', RuneBytes r b → String c s ≠ bytes b +:+ s'.
Proof.
  destruct (dec_step c s) as [(r & b & s' & Hb & E & Hd & _)|Hd].
  - left. exists r, b, s'. split_and!; [done|done| |done]. rewrite E. by apply (len_rune r).
  - right. split_and!; [by apply len_bad|done|]. intros r b s' Hb E. rewrite E, (dec_rune r) in Hd by done. done.
Qed.
Lemma rune_bytes_bound r b : RuneBytes r b → Forall (λ n, n < 256) b.
Proof. destruct 1; repeat constructor; try lia. Qed.
Lemma rune_high r b n : RuneBytes r b → (1 < length b)%nat → n ∈ b → 128 <= n < 256.
Proof. destruct 1; cbn [length]; intros Hl Hn; [lia|..]; rewrite !elem_of_cons, elem_of_nil in Hn; intuition (subst; lia). Qed.

(** ** Escapes *)
Lemma hex_read d : d < 16 → hex_value (N_of_ascii (hex_upper d)) = Some d.
Proof.
  intros H. unfold hex_upper, hex_value. destruct (N.ltb_spec d 10); rewrite byte_id by lia.
  - destruct (N.leb_spec 48 (48 + d)), (N.leb_spec (48 + d) 57); cbn [andb]; try lia. f_equal. lia.
  - destruct (N.leb_spec 48 (55 + d)), (N.leb_spec (55 + d) 57); cbn [andb]; try lia.
    destruct (N.leb_spec 97 (55 + d)), (N.leb_spec (55 + d) 102); cbn [andb]; try lia;
    destruct (N.leb_spec 65 (55 + d)), (N.leb_spec (55 + d) 70); cbn [andb]; try lia; f_equal; lia.
Qed.
Lemma byte_split c : N_of_ascii c / 16 < 16 ∧ N_of_ascii c mod 16 < 16 ∧ 16 * (N_of_ascii c / 16) + N_of_ascii c mod 16 = N_of_ascii c.
Proof.
  pose proof (byte_bound c). pose proof (N.div_mod (N_of_ascii c) 16 ltac:(lia)). pose proof (N.mod_lt (N_of_ascii c) 16 ltac:(lia)).
  split_and!; [apply N.div_lt_upper_bound; lia|done|lia].
Qed.
Lemma decode_percent c s : decode_message (percent c +:+ s) = String c (decode_message s).
Proof.
  destruct (byte_split c) as (H1 & H2 & H3). unfold percent. rewrite !app_cons_s, app_empty_s. cbn [decode_message].
  rewrite !hex_read by done. change (Ascii.eqb "%" "%") with true. cbv iota beta. rewrite H3, ascii_N_embedding. done.
Qed.
Lemma decode_plain c s : plain_byte c = true → decode_message (String c s) = String c (decode_message s).
Proof.
  intros H. cbn [decode_message]. destruct s as [|a [|b s]]; [done|done|]. destruct (Ascii.eqb_spec c "%") as [->|]; [done|]. done.
Qed.
Lemma decode_all_plain s : all_plain s = true → decode_message s = s.
Proof.
  induction s as [|c s IH]; [done|]. cbn [all_plain]. intros [H1 H2]%andb_true_iff. rewrite decode_plain by done. by rewrite IH.
Qed.
Lemma encode_more b s : (∀ n, n ∈ b → n < 256) → decode_message (encode_runes (length b) (bytes b +:+ s)) = bytes b +:+ decode_message (encode_runes 0 s).
Proof.
  induction b as [|n b IH]; intros Hb; [done|]. unfold bytes. cbn [map string_of_list_ascii length]. rewrite !app_cons_s. cbn [encode_runes].
  rewrite decode_percent. fold (bytes b). rewrite IH; [done|]. intros x Hx. apply Hb. by right.
Qed.
Definition fffd : string := bytes [0xEF; 0xBF; 0xBD].
Lemma encode_step c s :
  (∃ r b s', RuneBytes r b ∧ String c s = bytes b +:+ s' ∧ decode_message (encode_runes 0 (String c s)) = bytes b +:+ decode_message (encode_runes 0 s')) ∨
  (∀ r b s', RuneBytes r b → String c s ≠ bytes b +:+ s') ∧ decode_message (encode_runes 0 (String c s)) = fffd +:+ decode_message (encode_runes 0 s).
Proof.
  destruct (rune_cases c s) as [(r & b & s' & Hb & E & Hl & _)|(Hl & _ & Hn)].
  - left. exists r, b, s'. split_and!; [done|done|]. cbn [encode_runes]. rewrite Hl.
    destruct b as [|n [|n' b]]; [inversion Hb| |].
    + cbn [length]. cbn in E. injection E as E1 E2. subst s. change (bytes [n] +:+ ?x) with (String (ascii_of_N n) x). rewrite <- E1.
      destruct (plain_byte c) eqn:Ep; [change (String c "" +:+ ?x) with (String c x); by rewrite decode_plain|by rewrite decode_percent].
    + cbn [length]. rewrite decode_percent. unfold bytes in E |- *. cbn [map string_of_list_ascii] in E |- *. rewrite !app_cons_s in *.
      injection E as E1 E2. rewrite E1. f_equal. rewrite E2. fold (bytes b).
      pose proof (rune_bytes_bound r _ Hb) as HB. rewrite Forall_forall in HB.
      apply (encode_more (n' :: b) s'). intros x Hx. apply HB. by right.
  - right. split; [done|]. cbn [encode_runes]. rewrite Hl. unfold fffd.
    change "%EF%BF%BD"%string with (percent (ascii_of_N 0xEF) +:+ percent (ascii_of_N 0xBF) +:+ percent (ascii_of_N 0xBD)).
    rewrite !app_assoc_s, !decode_percent. done.
Qed.
Lemma byte_list_app a b : byte_list (a +:+ b) = byte_list a ++ byte_list b.
Proof. induction a as [|c a IH]; [done|]. rewrite app_cons_s. unfold byte_list in *. cbn [list_ascii_of_string map app]. by rewrite IH. Qed.
Lemma byte_list_cons c s : byte_list (String c s) = N_of_ascii c :: byte_list s.
Proof. done. Qed.
Lemma encode_runes_mended n : ∀ s, (String.length s <= n)%nat → Mended (byte_list s) (byte_list (decode_message (encode_runes 0 s))).
Proof.
  induction n as [|n IH]; intros s Hs; destruct s as [|c s]; [constructor|cbn in Hs; lia|constructor|].
  destruct (encode_step c s) as [(r & b & s' & Hb & E & ->)|[Hn ->]].
  - rewrite E, !byte_list_app, byte_list_bytes by (by eapply rune_bytes_bound). econstructor; [exact Hb|]. apply IH.
    apply (f_equal String.length) in E. rewrite app_length_s in E. cbn in E, Hs. enough (0 < String.length (bytes b))%nat by lia.
    destruct Hb; cbn; lia.
  - rewrite byte_list_app, byte_list_cons. change (byte_list fffd) with [0xEF; 0xBF; 0xBD]. constructor; [|apply IH; cbn in Hs; lia].
    intros r b s' Hb E. apply (Hn r b (bytes s') Hb). rewrite <- (bytes_byte_list (String c s)), byte_list_cons, E. apply bytes_app.
Qed.
Lemma plain_mended s : all_plain s = true → Mended (byte_list s) (byte_list s).
Proof.
  induction s as [|c s IH]; [constructor|]. cbn [all_plain]. intros [H1 H2]%andb_true_iff. rewrite byte_list_cons.
  change (Mended ([N_of_ascii c] ++ byte_list s) ([N_of_ascii c] ++ byte_list s)). econstructor; [|by apply IH]. constructor.
  unfold plain_byte in H1. apply andb_true_iff in H1 as [[_ H1]%andb_true_iff _]. apply N.leb_le in H1. lia.
Qed.
Lemma message_mended s : Mended (byte_list s) (byte_list (decode_message (encode_message s))).
Proof.
  unfold encode_message. destruct (all_plain s) eqn:E; [rewrite decode_all_plain by done; by apply plain_mended|]. by apply (encode_runes_mended (String.length s)).
Qed.

(** ** What mending does *)
Lemma mended_utf8 t bs bs' : Utf8 t bs → Mended bs bs' → bs' = bs.
Proof.
  intros Ht. revert bs'. induction Ht as [|r t b bs Hb _ IH]; intros bs' HM.
  - inversion HM as [|r b s u Hb|]; subst; [done|]. destruct b; [inversion Hb|done].
  - inversion HM as [E|r' b' s u Hb' HM' E|c s u Hn HM' E]; subst.
    + destruct b; [inversion Hb|done].
    + pose proof (dec_rune r b (bytes bs) Hb) as D1. pose proof (dec_rune r' b' (bytes s) Hb') as D2. rewrite <- bytes_app in D1, D2.
      rewrite E, D1 in D2. assert (r = r') as <- by (unfold rune_then in D2; congruence).
      destruct (rune_bytes_unique r b Hb) as [_ ->]. destruct (rune_bytes_unique r b' Hb') as [_ ->].
      apply app_inv_head in E as ->. by rewrite (IH u).
    + exfalso. by apply (Hn r b bs Hb).
Qed.
Lemma mended_valid bs bs' : Mended bs bs' → ∃ t, Utf8 t bs'.
Proof.
  induction 1 as [|r b s t Hb _ [u IH]|c s t _ _ [u IH]]; [exists []; constructor|exists (r :: u); by constructor|].
  exists (0xFFFD :: u). constructor; [|done]. apply (RB3 15 63 61); [lia..|]. unfold Rune. lia.
Qed.
Lemma mended_same s : IsUtf8 s → decode_message (encode_message s) = s.
Proof.
  intros [t Ht]. pose proof (message_mended s) as HM. apply (mended_utf8 t _ _ Ht) in HM.
  rewrite <- (bytes_byte_list (decode_message _)), HM. apply bytes_byte_list.
Qed.

(** ** Headers *)
Lemma percent_header c s : HeaderText s → HeaderText (percent c +:+ s).
Proof.
  intros H. destruct (byte_split c) as (H1 & H2 & _). unfold percent, HeaderText in *. rewrite byte_list_app. apply Forall_app_2; [|done].
  assert (∀ d, d < 16 → 32 <= N_of_ascii (hex_upper d) <= 126) as HX.
  { intros d Hd. unfold hex_upper. destruct (N.ltb_spec d 10); rewrite byte_id; lia. }
  unfold byte_list. cbn [list_ascii_of_string map]. repeat constructor; try (by apply HX); done.
Qed.
Lemma plain_header c : plain_byte c = true → 32 <= N_of_ascii c <= 126.
Proof. unfold plain_byte. intros [[H1 H2]%andb_true_iff _]%andb_true_iff. apply N.leb_le in H1. apply N.leb_le in H2. lia. Qed.
Lemma encode_runes_header s : ∀ k, HeaderText (encode_runes k s).
Proof.
  induction s as [|c s IH]; intros k; [constructor|]. cbn [encode_runes]. destruct k as [|k]; [|by apply percent_header].
  destruct (rune_len (String c s)) as [|[|k]]; [| |by apply percent_header].
  - change "%EF%BF%BD"%string with (percent (ascii_of_N 0xEF) +:+ percent (ascii_of_N 0xBF) +:+ percent (ascii_of_N 0xBD)).
    rewrite !app_assoc_s. by do 3 apply percent_header.
  - destruct (plain_byte c) eqn:E; [|by apply percent_header]. constructor; [by apply plain_header|apply IH].
Qed.
Lemma message_header s : HeaderText (encode_message s).
Proof.
  unfold encode_message. destruct (all_plain s) eqn:E; [|apply encode_runes_header].
  revert E. induction s as [|c s IH]; intros E; [constructor|]. cbn [all_plain] in E. apply andb_true_iff in E as [E1 E2].
  constructor; [by apply plain_header|by apply IH].
Qed.

(** ** Base64 *)
Lemma sextet_range n : n < 64 → 43 <= N_of_ascii (sextet n) <= 122.
Proof.
  intros H. unfold sextet. destruct (N.ltb_spec n 26); [rewrite byte_id; lia|]. destruct (N.ltb_spec n 52); [rewrite byte_id; lia|].
  destruct (N.ltb_spec n 62); [rewrite byte_id; lia|]. destruct (N.eqb_spec n 62); rewrite byte_id; lia.
Qed.
Lemma unsextet_sextet n : n < 64 → unsextet (sextet n) = Some n.
Proof.
  intros H. unfold sextet, unsextet. destruct (N.ltb_spec n 26) as [H1|H1].
  { rewrite byte_id by lia. destruct (N.leb_spec 65 (65 + n)), (N.leb_spec (65 + n) 90); cbn [andb]; try lia. f_equal. lia. }
  destruct (N.ltb_spec n 52) as [H2|H2].
  { rewrite byte_id by lia. destruct (N.leb_spec 65 (71 + n)), (N.leb_spec (71 + n) 90); cbn [andb]; try lia.
    destruct (N.leb_spec 97 (71 + n)), (N.leb_spec (71 + n) 122); cbn [andb]; try lia. f_equal. lia. }
  destruct (N.ltb_spec n 62) as [H3|H3].
  { rewrite byte_id by lia. destruct (N.leb_spec 65 (n - 4)); [lia|]. destruct (N.leb_spec 97 (n - 4)); [lia|]. cbn [andb].
    destruct (N.leb_spec 48 (n - 4)), (N.leb_spec (n - 4) 57); cbn [andb]; try lia. f_equal. lia. }
  destruct (N.eqb_spec n 62) as [->|]; [done|]. assert (n = 63) as -> by lia. done.
Qed.
Lemma three_bytes x y : x < 256 → y < 256 → x / 4 < 64 ∧ x mod 4 * 16 < 64 ∧ x mod 4 * 16 + y / 16 < 64 ∧ y mod 16 * 4 < 64 ∧ y mod 16 * 4 + y / 64 < 64 ∧ y mod 64 < 64 ∧
  x / 4 * 4 + (x mod 4 * 16 + y / 16) / 16 = x ∧ x / 4 * 4 + (x mod 4 * 16) / 16 = x ∧ (x mod 4 * 16 + y / 16) mod 16 = y / 16.
Proof.
  intros Hx Hy. pose proof (N.div_mod x 4 ltac:(lia)). pose proof (N.mod_lt x 4 ltac:(lia)). pose proof (N.mod_lt y 16 ltac:(lia)).
  assert (x / 4 < 64) by (apply N.div_lt_upper_bound; lia). assert (y / 16 < 16) by (apply N.div_lt_upper_bound; lia).
  assert (y / 64 < 4) by (apply N.div_lt_upper_bound; lia).
  rewrite !N.div_add_l, N.div_mul, (N.div_small (y / 16) 16) by lia. rewrite (N.add_comm _ (y / 16)), N.mod_add, (N.mod_small (y / 16)) by lia.
  pose proof (N.mod_lt y 64 ltac:(lia)). split_and!; lia.
Qed.
Lemma last_bytes y z : y < 256 → z < 256 →
  y / 16 * 16 + (y mod 16 * 4 + z / 64) / 4 = y ∧ y / 16 * 16 + (y mod 16 * 4) / 4 = y ∧ (y mod 16 * 4 + z / 64) mod 4 * 64 + z mod 64 = z ∧ y mod 16 * 4 + z / 64 < 64.
Proof.
  intros Hy Hz. pose proof (N.div_mod y 16 ltac:(lia)). pose proof (N.mod_lt y 16 ltac:(lia)). pose proof (N.div_mod z 64 ltac:(lia)).
  assert (z / 64 < 4) by (apply N.div_lt_upper_bound; lia).
  rewrite N.div_add_l, N.div_mul, (N.div_small (z / 64) 4) by lia. rewrite (N.add_comm _ (z / 64)), N.mod_add, (N.mod_small (z / 64)) by lia.
  split_and!; lia.
Qed.
Lemma bin_round_n n : ∀ s, (String.length s <= n)%nat → decode_bin (encode_bin s) = Some s.
Proof.
  induction n as [|n IH]; intros s Hs; destruct s as [|a s]; [done|cbn in Hs; lia|done|]. pose proof (byte_bound a) as Ba.
  destruct s as [|b s].
  { cbn [encode_bin decode_bin]. destruct (three_bytes _ 0 Ba ltac:(lia)) as (T1 & T2 & _ & _ & _ & _ & _ & T8 & _).
    rewrite !unsextet_sextet by done. cbn. rewrite T8, ascii_N_embedding. done. }
  pose proof (byte_bound b) as Bb. destruct (three_bytes _ _ Ba Bb) as (T1 & _ & T3 & T4 & _ & _ & T7 & _ & T9).
  destruct s as [|c s].
  { cbn [encode_bin decode_bin]. rewrite !unsextet_sextet by done. destruct (last_bytes _ 0 Bb ltac:(lia)) as (_ & L2 & _).
    cbn. rewrite T7, T9, L2, !ascii_N_embedding. done. }
  pose proof (byte_bound c) as Bc. destruct (last_bytes _ _ Bb Bc) as (L1 & _ & L3 & L4).
  cbn [encode_bin decode_bin]. rewrite !unsextet_sextet by (done || apply N.mod_lt; lia). cbn [mbind option_bind].
  rewrite IH by (cbn in Hs; lia). cbn [mbind option_bind]. by rewrite T7, T9, L1, L3, !ascii_N_embedding.
Qed.
Lemma bin_round s : decode_bin (encode_bin s) = Some s.
Proof. by apply (bin_round_n (String.length s)). Qed.
Lemma bin_header_n n : ∀ s, (String.length s <= n)%nat → HeaderText (encode_bin s).
Proof.
  assert (∀ m, m < 64 → 32 <= N_of_ascii (sextet m) <= 126) as HX by (intros m Hm; pose proof (sextet_range m Hm); lia).
  induction n as [|n IH]; intros s Hs; destruct s as [|a s]; [constructor|cbn in Hs; lia|constructor|]. pose proof (byte_bound a) as Ba.
  destruct s as [|b s].
  { destruct (three_bytes _ 0 Ba ltac:(lia)) as (T1 & T2 & _). repeat constructor; by apply HX. }
  pose proof (byte_bound b) as Bb. destruct (three_bytes _ _ Ba Bb) as (T1 & _ & T3 & T4 & _).
  destruct s as [|c s]; [repeat constructor; by apply HX|].
  pose proof (byte_bound c) as Bc. destruct (last_bytes _ _ Bb Bc) as (_ & _ & _ & L4).
  cbn [encode_bin]. unfold HeaderText. rewrite !byte_list_cons. repeat (constructor; [apply HX; (done || apply N.mod_lt; lia)|]).
  apply IH. cbn in Hs; lia.
Qed.
Lemma bin_header s : HeaderText (encode_bin s).
Proof. by apply (bin_header_n (String.length s)). Qed.
