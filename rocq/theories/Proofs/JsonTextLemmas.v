(** Lemmas about Model/JsonText.v. *)
From Coq Require Import ZArith NArith Lia.
From stdpp Require Import prelude strings.
From Verif.Model Require Import HttpStream JsonText.
From Verif.Spec Require Import HttpSpec JsonTextSpec.
From Verif.Proofs Require Import HttpLemmas.
Local Open Scope N_scope.

(** ** White space *)
Lemma ws_iff c : json_space c = true ↔ c = 32 ∨ c = 9 ∨ c = 10 ∨ c = 13.
Proof. unfold json_space. rewrite !orb_true_iff, !N.eqb_eq. tauto. Qed.
Lemma skip_ws_split t : ∃ w, t = w ++ skip_ws t ∧ Ws w.
Proof.
  induction t as [|c t (w & IH & Hw)]; [exists []; split; [done|constructor]|]. cbn [skip_ws].
  destruct (json_space c) eqn:E; [|exists []; split; [done|constructor]].
  exists (c :: w). split; [cbn [app]; by rewrite <-IH|]. constructor; [by apply ws_iff|done].
Qed.
Definition nospace (t : text) : Prop := match t with [] => True | c :: _ => json_space c = false end.
Lemma skip_ws_nospace t : nospace (skip_ws t).
Proof. induction t as [|c t IH]; [done|]. cbn [skip_ws]. by destruct (json_space c) eqn:E. Qed.
Lemma skip_ws_app w t : Ws w → skip_ws (w ++ t) = skip_ws t.
Proof.
  induction 1 as [|c w Hc _ IH]; [done|]. cbn [app skip_ws]. by rewrite (proj2 (ws_iff c) Hc).
Qed.
Lemma skip_ws_id t : nospace t → skip_ws t = t.
Proof. destruct t as [|c t]; [done|]. cbn. by intros ->. Qed.
Lemma skip_ws_nil w : Ws w → skip_ws w = [].
Proof. intros H. rewrite <-(app_nil_r w), skip_ws_app by done. done. Qed.
Lemma skip_ws_nil_iff t : skip_ws t = [] ↔ Ws t.
Proof.
  split; [|apply skip_ws_nil]. intros H. destruct (skip_ws_split t) as (w & E & Hw). rewrite H, app_nil_r in E. by subst.
Qed.
Lemma ws_app a b : Ws a → Ws b → Ws (a ++ b).
Proof. apply Forall_app_2. Qed.

(** ** Strings *)
Lemma hex_value_iff c v : hex_value c = Some v ↔ HexDigit c v.
Proof.
  unfold hex_value, HexDigit.
  destruct (N.leb_spec 48 c), (N.leb_spec c 57), (N.leb_spec 97 c), (N.leb_spec c 102), (N.leb_spec 65 c), (N.leb_spec c 70); cbn [andb];
    (split; intros Hx; [first [discriminate Hx | injection Hx as <-; lia] | first [f_equal; lia | exfalso; lia]]).
Qed.
Lemma hex4_iff a b c d v : hex4 a b c d = Some v ↔ Hex4 [a; b; c; d] v.
Proof.
  unfold hex4, Hex4. split.
  - destruct (hex_value a) as [x|] eqn:Ea; [|done]. destruct (hex_value b) as [y|] eqn:Eb; [|done].
    destruct (hex_value c) as [z|] eqn:Ec; [|done]. destruct (hex_value d) as [w|] eqn:Ed; [|done]. cbn [mbind option_bind].
    intros Hx. apply (inj Some) in Hx. subst v. exists a, b, c, d, x, y, z, w. apply hex_value_iff in Ea, Eb, Ec, Ed.
    split; [done|]. do 4 (split; [done|]). lia.
  - intros (a' & b' & c' & d' & x & y & z & w & [= <- <- <- <-] & Ea & Eb & Ec & Ed & ->).
    apply hex_value_iff in Ea, Eb, Ec, Ed. rewrite Ea, Eb, Ec, Ed. cbn [mbind option_bind]. f_equal. lia.
Qed.
Lemma hex4_shape h v : Hex4 h v → ∃ a b c d, h = [a; b; c; d] ∧ hex4 a b c d = Some v.
Proof.
  intros H. pose proof H as (a & b & c & d & x & y & z & w & -> & _). exists a, b, c, d. split; [done|]. by apply hex4_iff.
Qed.
Lemma unescape_iff e r : unescape e = Some r ↔ (e, r) ∈ short_escapes.
Proof.
  unfold unescape, short_escapes. rewrite !elem_of_cons, elem_of_nil. split.
  - intros H. destruct (N.eqb_spec e 34) as [->|_]; [cbn in H; injection H as <-; tauto|].
    destruct (N.eqb_spec e 92) as [->|_]; [cbn in H; injection H as <-; tauto|].
    destruct (N.eqb_spec e 47) as [->|_]; [cbn in H; injection H as <-; tauto|]. cbn [orb] in H.
    destruct (N.eqb_spec e 98) as [->|_]; [injection H as <-; tauto|].
    destruct (N.eqb_spec e 102) as [->|_]; [injection H as <-; tauto|].
    destruct (N.eqb_spec e 110) as [->|_]; [injection H as <-; tauto|].
    destruct (N.eqb_spec e 114) as [->|_]; [injection H as <-; tauto|].
    destruct (N.eqb_spec e 116) as [->|_]; [injection H as <-; tauto|done].
  - intros [H|[H|[H|[H|[H|[H|[H|[H|[]]]]]]]]]; injection H as -> ->; reflexivity.
Qed.
Lemma surrogate_iff v : surrogate v = true ↔ 0xd800 <= v <= 0xdfff.
Proof. unfold surrogate. rewrite andb_true_iff, N.leb_le, N.ltb_lt. lia. Qed.
Lemma pair_of_iff v w r : 0xd800 <= v <= 0xdfff → pair_of v w = Some r ↔
  v <= 0xdbff ∧ 0xdc00 <= w <= 0xdfff ∧ r = 0x10000 + (v - 0xd800) * 1024 + (w - 0xdc00).
Proof.
  intros Hv. unfold pair_of. destruct (N.ltb_spec v 0xdc00), (N.leb_spec 0xdc00 w), (N.ltb_spec w 0xe000); cbn [andb];
    (split; intros Hx; [first [discriminate Hx | apply (inj Some) in Hx; lia] | first [apply (f_equal Some); lia | exfalso; lia]]).
Qed.
Lemma push_some r x s rest : push r x = Some (s, rest) ↔ ∃ s', x = Some (s', rest) ∧ s = r :: s'.
Proof.
  unfold push. destruct x as [[s' r']|]; split; [intros [= <- <-]; eauto|intros (s'' & [= -> ->] & ->); done|done|by intros (? & ? & _)].
Qed.

Lemma read_string_complete b t rest : StringBody b t → read_string (b ++ 34 :: rest) = Some (t, rest).
Proof.
  induction 1 as [|r b t H1 H2 H3 _ IH|e r b t He _ IH|h v b t Hh Hv _ IH|h v h' v' b t Hh Hv Hh' Hv' _ IH].
  - done.
  - cbn [app read_string]. apply N.eqb_neq in H2, H3. rewrite H2, H3. destruct (N.ltb_spec r 32); [lia|]. by rewrite IH.
  - cbn [app read_string]. change (92 =? 34) with false. change (92 =? 92) with true. cbv iota.
    apply unescape_iff in He. destruct (N.eqb_spec e 117) as [->|_]; [done|]. rewrite He. by rewrite IH.
  - apply hex4_shape in Hh as (a & b' & c & d & -> & Hh). cbn [app read_string]. change (92 =? 34) with false.
    change (92 =? 92) with true. change (117 =? 117) with true. cbv iota. rewrite Hh.
    destruct (surrogate v) eqn:Es; [by apply surrogate_iff in Es|]. by rewrite IH.
  - apply hex4_shape in Hh as (a & b1 & c & d & -> & Hh). apply hex4_shape in Hh' as (a' & b1' & c' & d' & -> & Hh').
    cbn [app read_string]. change (92 =? 34) with false.
    change (92 =? 92) with true. change (117 =? 117) with true. cbv iota. rewrite Hh.
    rewrite (proj2 (surrogate_iff v)) by lia. cbn [andb]. rewrite Hh'.
    rewrite (proj2 (pair_of_iff v v' (0x10000 + (v - 0xd800) * 1024 + (v' - 0xdc00)) ltac:(lia))); [by rewrite IH|].
    split; [lia|]. split; [lia|done].
Qed.
Lemma read_string_sound_n n : ∀ x t rest, (length x <= n)%nat → read_string x = Some (t, rest) → ∃ b, x = b ++ 34 :: rest ∧ StringBody b t.
Proof.
  induction n as [|n IH]; intros x t rest Hn H; destruct x as [|c x]; [done|cbn in Hn; lia|done|].
  cbn [length] in Hn. cbn [read_string] in H.
  destruct (N.eqb_spec c 34) as [->|N34]; [injection H as <- <-; exists []; split; [done|constructor]|].
  destruct (N.eqb_spec c 92) as [->|N92].
  - destruct x as [|e x]; [done|]. cbn [length] in Hn. destruct (N.eqb_spec e 117) as [->|Ne].
    + destruct x as [|a [|b [|c [|d x]]]]; try done. cbn [length] in Hn. destruct (hex4 a b c d) as [v|] eqn:Eh; [|done].
      apply hex4_iff in Eh. destruct (surrogate v) eqn:Es.
      * apply surrogate_iff in Es. destruct x as [|q [|u [|a' [|b' [|c' [|d' x]]]]]]; try done. cbn [length] in Hn.
        destruct (N.eqb_spec q 92) as [->|]; [|done]. destruct (N.eqb_spec u 117) as [->|]; [|done]. cbn [andb] in H.
        destruct (hex4 a' b' c' d') as [w|] eqn:Eh'; [|done]. apply hex4_iff in Eh'.
        destruct (pair_of v w) as [r|] eqn:Ep; [|done]. apply pair_of_iff in Ep as (Hv & Hw & ->); [|done].
        apply push_some in H as (s' & H & ->). apply IH in H as (b0 & -> & Hb); [|lia].
        exists (92 :: 117 :: [a; b; c; d] ++ 92 :: 117 :: [a'; b'; c'; d'] ++ b0). split; [done|].
        apply SB_pair; try done. lia.
      * apply push_some in H as (s' & H & ->). apply IH in H as (b0 & -> & Hb); [|lia].
        exists (92 :: 117 :: [a; b; c; d] ++ b0). split; [done|]. apply SB_unicode; try done.
        intros Hv. by apply surrogate_iff in Hv; rewrite Hv in Es.
    + destruct (unescape e) as [r|] eqn:Ee; [|done]. apply unescape_iff in Ee.
      apply push_some in H as (s' & H & ->). apply IH in H as (b0 & -> & Hb); [|lia].
      exists (92 :: e :: b0). split; [done|]. by apply SB_escape.
  - destruct (N.ltb_spec c 32); [done|]. apply push_some in H as (s' & H & ->). apply IH in H as (b0 & -> & Hb); [|lia].
    exists (c :: b0). split; [done|]. by apply SB_plain.
Qed.
Lemma read_string_sound x t rest : read_string x = Some (t, rest) → ∃ b, x = b ++ 34 :: rest ∧ StringBody b t.
Proof. apply (read_string_sound_n (length x)). done. Qed.

(** ** Scalars *)
Lemma digit_iff c : digit c = true ↔ 48 <= c <= 57.
Proof. unfold digit. by rewrite andb_true_iff, !N.leb_le. Qed.
Lemma digits_split t : ∃ a b, digits t = (a, b) ∧ t = a ++ b ∧ Forall (λ c, 48 <= c <= 57) a ∧
  match b with [] => True | c :: _ => digit c = false end.
Proof.
  induction t as [|c t (a & b & E & -> & Ha & Hb)]; [by exists [], []|]. cbn [digits]. destruct (digit c) eqn:Ec.
  - rewrite E. exists (c :: a), b. split_and!; try done. constructor; [by apply digit_iff|done].
  - exists [], (c :: a ++ b). by split_and!.
Qed.
Lemma digits_app a b : Forall (λ c, 48 <= c <= 57) a → match b with [] => True | c :: _ => digit c = false end → digits (a ++ b) = (a, b).
Proof.
  intros Ha Hb. induction Ha as [|c a Hc _ IH].
  - cbn [app]. destruct b as [|c b]; [done|]. cbn [digits]. by rewrite Hb.
  - cbn [app digits]. rewrite (proj2 (digit_iff c) Hc). by rewrite IH.
Qed.
Lemma delim_digit rest : delimited rest = true → match rest with [] => True | c :: _ => digit c = false end.
Proof.
  destruct rest as [|c rest]; [done|]. cbn [delimited]. unfold not_delim. rewrite negb_true_iff, !orb_false_iff. tauto.
Qed.
Lemma delim_char c rest : delimited (c :: rest) = true → c ≠ 46 ∧ c ≠ 101 ∧ c ≠ 69 ∧ digit c = false.
Proof.
  cbn [delimited]. unfold not_delim. rewrite negb_true_iff, !orb_false_iff, !andb_false_iff, !N.eqb_neq, !N.leb_gt. intros H.
  destruct H as [[[[[[H1 H2] H3] H4] H5] H6] H7]. split_and!; [done|lia|lia|done].
Qed.

Lemma read_exp_complete ep rest : delimited rest = true →
  (ep = [] ∨ ∃ e s ds, (e = 101 ∨ e = 69) ∧ (s = [] ∨ s = [43] ∨ s = [45]) ∧ Digits ds ∧ ep = e :: s ++ ds) →
  read_exp (ep ++ rest) = Some (ep, rest).
Proof.
  intros Hr [->|(e & s & ds & He & Hs & (Hne & Hd) & ->)].
  - cbn [app]. destruct rest as [|c rest]; [done|]. apply delim_char in Hr as (_ & H1 & H2 & _). cbn [read_exp].
    apply N.eqb_neq in H1, H2. by rewrite H1, H2.
  - cbn [app read_exp]. assert ((e =? 101) || (e =? 69) = true) as -> by (by destruct He as [-> | ->]).
    rewrite <-app_assoc. destruct ds as [|d ds]; [done|]. pose proof (Forall_inv Hd) as Hd0. cbn beta in Hd0.
    assert (E : digits ((d :: ds) ++ rest) = (d :: ds, rest)) by (apply digits_app; [done|by apply delim_digit]).
    destruct Hs as [->|[->| ->]].
    + cbn [app]. assert ((d =? 43) || (d =? 45) = false) as -> by (apply orb_false_iff; rewrite !N.eqb_neq; lia).
      cbn [app] in E. by rewrite E.
    + cbn [app] in *. change ((43 =? 43) || (43 =? 45)) with true. cbv iota beta. by rewrite E.
    + cbn [app] in *. change ((45 =? 43) || (45 =? 45)) with true. cbv iota beta. by rewrite E.
Qed.
Lemma read_exp_sound t ep rest : read_exp t = Some (ep, rest) → t = ep ++ rest ∧
  (ep = [] ∨ ∃ e s ds, (e = 101 ∨ e = 69) ∧ (s = [] ∨ s = [43] ∨ s = [45]) ∧ Digits ds ∧ ep = e :: s ++ ds).
Proof.
  destruct t as [|e t]; cbn [read_exp]; [intros [= <- <-]; split; [done|by left]|].
  destruct ((e =? 101) || (e =? 69)) eqn:Ee; [|intros [= <- <-]; split; [done|by left]].
  apply orb_true_iff in Ee. rewrite !N.eqb_eq in Ee.
  assert (S : ∃ s t2, (match t with s :: t2 => if (s =? 43) || (s =? 45) then ([s], t2) else ([], t) | [] => ([], t) end) = (s, t2) ∧ t = s ++ t2 ∧
    (s = [] ∨ s = [43] ∨ s = [45])).
  { destruct t as [|s t2]; [exists [], []; split_and!; try done; by left|].
    destruct (N.eqb_spec s 43) as [->|]; [exists [43], t2; cbn [orb]; split_and!; try done; tauto|].
    destruct (N.eqb_spec s 45) as [->|]; [exists [45], t2; cbn [orb]; split_and!; try done; tauto|].
    exists [], (s :: t2). cbn [orb]. split_and!; try done. by left. }
  destruct S as (s & t2 & -> & -> & Hs). destruct (digits_split t2) as (a & b & -> & -> & Ha & _). destruct a as [|d a]; [done|].
  intros [= <- <-]. split; [cbn [app]; by rewrite <-app_assoc|]. right. exists e, s, (d :: a). by split_and!.
Qed.

Lemma read_frac_complete fp rest : (fp = [] ∨ ∃ ds, Digits ds ∧ fp = 46 :: ds) →
  match rest with [] => True | c :: _ => c ≠ 46 ∧ digit c = false end → read_frac (fp ++ rest) = (fp, rest).
Proof.
  intros [->|(ds & (Hne & Hd) & ->)] Hr.
  - cbn [app]. destruct rest as [|c [|d rest]]; [done|done|]. cbn [read_frac]. destruct Hr as [H _]. apply N.eqb_neq in H. by rewrite H.
  - destruct ds as [|d ds]; [done|]. pose proof (Forall_inv Hd) as Hd0. cbn beta in Hd0. cbn [app read_frac].
    change (46 =? 46) with true. rewrite (proj2 (digit_iff d) Hd0). cbn [andb].
    change (d :: ds ++ rest) with ((d :: ds) ++ rest). rewrite digits_app; [done|done|]. destruct rest; [done|]. by destruct Hr.
Qed.
Lemma read_frac_sound t fp rest : read_frac t = (fp, rest) → t = fp ++ rest ∧ (fp = [] ∨ ∃ ds, Digits ds ∧ fp = 46 :: ds).
Proof.
  unfold read_frac. destruct t as [|p [|d t]]; [intros [= <- <-]; split; [done|by left]|intros [= <- <-]; split; [done|by left]|].
  destruct (N.eqb_spec p 46) as [->|]; cbn [andb]; [|intros [= <- <-]; split; [done|by left]].
  destruct (digit d) eqn:Ed; [|intros [= <- <-]; split; [done|by left]].
  destruct (digits_split (d :: t)) as (a & b & E & Et & Ha & _). rewrite E. intros [= <- <-]. rewrite Et. split; [done|]. right.
  exists a. split; [|done]. split; [|done]. intros ->. cbn [digits] in E. rewrite Ed in E. by destruct (digits t).
Qed.
Lemma read_int_complete ip rest : (ip = [48] ∨ Digits ip ∧ ∀ r, ip ≠ 48 :: r) →
  match rest with [] => True | c :: _ => digit c = false end → read_int (ip ++ rest) = Some (ip, rest).
Proof.
  intros [->|[[Hne Hd] H0]] Hr; [done|]. destruct ip as [|c ip]; [done|]. pose proof (Forall_inv Hd) as Hc. cbn beta in Hc.
  cbn [app read_int]. destruct (N.eqb_spec c 48) as [->|_]; [by destruct (H0 ip)|]. rewrite (proj2 (digit_iff c) Hc).
  change (c :: ip ++ rest) with ((c :: ip) ++ rest). by rewrite digits_app.
Qed.
Lemma read_int_sound t ip rest : read_int t = Some (ip, rest) → t = ip ++ rest ∧ (ip = [48] ∨ Digits ip ∧ ∀ r, ip ≠ 48 :: r).
Proof.
  destruct t as [|c t]; [done|]. cbn [read_int]. destruct (N.eqb_spec c 48) as [->|Hc]; [intros [= <- <-]; split; [done|by left]|].
  destruct (digit c) eqn:Ec; [|done]. destruct (digits_split (c :: t)) as (a & b & E & Et & Ha & _). rewrite E. intros [= <- <-].
  rewrite Et. split; [done|]. right. destruct a as [|d a].
  - cbn [digits] in E. rewrite Ec in E. by destruct (digits t).
  - cbn [app] in Et. injection Et as <- ->. split; [by split|]. by intros r [= -> _].
Qed.
Lemma read_sign_complete sg rest : (sg = [] ∨ sg = [45]) → match rest with [] => True | c :: _ => c ≠ 45 end → read_sign (sg ++ rest) = (sg, rest).
Proof.
  intros [->| ->] Hr; [|done]. cbn [app]. destruct rest as [|c rest]; [done|]. cbn [read_sign]. apply N.eqb_neq in Hr. by rewrite Hr.
Qed.
Lemma read_sign_sound t sg rest : read_sign t = (sg, rest) → t = sg ++ rest ∧ (sg = [] ∨ sg = [45]).
Proof.
  destruct t as [|c t]; cbn [read_sign]; [intros [= <- <-]; split; [done|by left]|].
  destruct (N.eqb_spec c 45) as [->|]; intros [= <- <-]; (split; [done|]); [by right|by left].
Qed.
Lemma read_number_complete t rest : JsonNumber t → delimited rest = true → read_number (t ++ rest) = Some (t, rest).
Proof.
  intros (sg & ip & fp & ep & -> & Hs & Hi & Hf & He) Hr. unfold read_number. rewrite <-!app_assoc.
  assert (D1 : ∀ c x, ep ++ rest = c :: x → c ≠ 46 ∧ digit c = false).
  { intros c x E. destruct He as [->|(e & s & ds & He & _ & _ & ->)].
    - cbn [app] in E. subst rest. apply delim_char in Hr. tauto.
    - cbn [app] in E. injection E as <- _. destruct He as [-> | ->]; done. }
  assert (D2 : ∀ c x, fp ++ ep ++ rest = c :: x → digit c = false).
  { intros c x E. destruct Hf as [->|(ds & _ & ->)]; [by apply (D1 c x)|]. cbn [app] in E. by injection E as <- _. }
  rewrite (read_sign_complete sg); [|done|].
  2:{ destruct Hi as [->|[[Hne Hd] _]]; [done|]. destruct ip as [|c ip]; [done|]. pose proof (Forall_inv Hd) as H. cbn in H |- *. lia. }
  rewrite (read_int_complete ip); [|done|].
  2:{ destruct (fp ++ ep ++ rest) as [|c x] eqn:E; [done|]. by apply (D2 c x). }
  cbn [mbind option_bind]. rewrite (read_frac_complete fp); [|done|].
  2:{ destruct (ep ++ rest) as [|c x] eqn:E; [done|]. by apply (D1 c x). }
  rewrite (read_exp_complete ep rest Hr He). cbn [mbind option_bind]. by rewrite Hr.
Qed.
Lemma read_number_sound t x rest : read_number t = Some (x, rest) → t = x ++ rest ∧ JsonNumber x ∧ delimited rest = true.
Proof.
  unfold read_number. destruct (read_sign t) as [sg t1] eqn:E1. apply read_sign_sound in E1 as [-> H1].
  destruct (read_int t1) as [[ip t2]|] eqn:E2; [|done]. apply read_int_sound in E2 as [-> H2]. cbn [mbind option_bind].
  destruct (read_frac t2) as [fp t3] eqn:E3. apply read_frac_sound in E3 as [-> H3].
  destruct (read_exp t3) as [[ep t4]|] eqn:E4; [|done]. apply read_exp_sound in E4 as [-> H4]. cbn [mbind option_bind].
  destruct (delimited t4) eqn:E5; [|done]. intros [= <- <-]. split; [by rewrite <-!app_assoc|]. split; [|done].
  by exists sg, ip, fp, ep.
Qed.
Lemma strip_app p rest : strip p (p ++ rest) = Some rest.
Proof. induction p as [|x p IH]; [done|]. cbn [app strip]. by rewrite N.eqb_refl. Qed.
Lemma strip_some p t rest : strip p t = Some rest → t = p ++ rest.
Proof.
  revert t. induction p as [|x p IH]; intros t H; [by injection H as ->|]. destruct t as [|y t]; [done|]. cbn [strip] in H.
  destruct (N.eqb_spec x y) as [->|]; [|done]. cbn [app]. f_equal. by apply IH.
Qed.
Lemma read_literal_sound ls t x rest : read_literal ls t = Some (x, rest) → x ∈ ls ∧ t = x ++ rest ∧ delimited rest = true.
Proof.
  induction ls as [|l ls IH]; [done|]. cbn [read_literal]. destruct (strip l t) as [r|] eqn:E.
  - apply strip_some in E as ->. destruct (delimited r) eqn:Ed; [|done]. intros [= <- <-]. split; [left|done].
  - intros H. apply IH in H as [H1 H2]. split; [by right|done].
Qed.
Lemma number_no_literal t rest : JsonNumber t → read_literal literals (t ++ rest) = None.
Proof.
  intros (sg & ip & fp & ep & -> & Hs & Hi & _). assert (H : ∃ c x, (sg ++ ip ++ fp ++ ep) ++ rest = c :: x ∧ (c = 45 ∨ 48 <= c <= 57)).
  { destruct Hs as [->| ->]; [|eexists _, _; split; [reflexivity|by left]]. destruct Hi as [->|[[Hne Hd] _]]; [eexists _, _; split; [reflexivity|lia]|].
    destruct ip as [|c ip]; [done|]. eexists _, _. split; [reflexivity|]. right. exact (Forall_inv Hd). }
  destruct H as (c & x & -> & Hc). unfold literals. cbn [read_literal strip].
  destruct (N.eqb_spec 110 c); [lia|]. destruct (N.eqb_spec 116 c); [lia|]. destruct (N.eqb_spec 102 c); [lia|]. done.
Qed.
Lemma read_scalar_complete t rest : JsonScalar t → delimited rest = true → read_scalar (t ++ rest) = Some (t, rest).
Proof.
  intros H Hr. unfold read_scalar. destruct H as [->|[->|[->|H]]].
  - change (codes "null"%string) with [110; 117; 108; 108]. unfold literals. cbn [app read_literal strip N.eqb Pos.eqb]. by rewrite Hr.
  - change (codes "true"%string) with [116; 114; 117; 101]. unfold literals. cbn [app read_literal strip N.eqb Pos.eqb]. by rewrite Hr.
  - change (codes "false"%string) with [102; 97; 108; 115; 101]. unfold literals. cbn [app read_literal strip N.eqb Pos.eqb]. by rewrite Hr.
  - rewrite number_no_literal by done. by apply read_number_complete.
Qed.
Lemma read_scalar_sound t x rest : read_scalar t = Some (x, rest) → t = x ++ rest ∧ JsonScalar x ∧ delimited rest = true.
Proof.
  unfold read_scalar. destruct (read_literal literals t) as [[l r]|] eqn:E.
  - intros [= <- <-]. apply read_literal_sound in E as (H & -> & Hd). split; [done|]. split; [|done].
    unfold literals in H. rewrite !elem_of_cons, elem_of_nil in H. destruct H as [->|[->|[->|[]]]]; [by left|by right; left|by right; right; left].
  - intros H. apply read_number_sound in H as (-> & H & Hd). split; [done|]. split; [by do 3 right|done].
Qed.

(** ** Values *)
Scheme json_value_ind := Minimality for JsonValue Sort Prop
  with json_items_ind := Minimality for JsonItems Sort Prop
  with json_members_ind := Minimality for JsonMembers Sort Prop.
Combined Scheme json_syntax_ind from json_value_ind, json_items_ind, json_members_ind.

Definition starts (t : text) : Prop := ∃ c x, t = c :: x ∧ json_space c = false ∧ c ≠ 93 ∧ c ≠ 125 ∧ c ≠ 44.
Lemma scalar_start t : JsonScalar t → ∃ c x, t = c :: x ∧ (c = 45 ∨ 48 <= c <= 57 ∨ 97 <= c <= 122).
Proof.
  intros [->|[->|[->|(sg & ip & fp & ep & -> & Hs & Hi & _)]]].
  1: exists 110, [117; 108; 108]. 2: exists 116, [114; 117; 101]. 3: exists 102, [97; 108; 115; 101].
  1-3: split; [reflexivity|lia].
  destruct Hs as [->| ->]; [|eexists _, _; split; [reflexivity|by left]].
  destruct Hi as [->|[[Hne Hd] _]]; [eexists _, _; split; [reflexivity|lia]|].
  destruct ip as [|c ip]; [done|]. eexists _, _. split; [reflexivity|]. right. left. exact (Forall_inv Hd).
Qed.
Lemma value_start v j : JsonValue v j → starts v.
Proof.
  destruct 1 as [t H| | | | |]; [|by eexists _, _..]. destruct (scalar_start t H) as (c & x & -> & Hc). exists c, x.
  split; [done|]. split; [|lia]. destruct (json_space c) eqn:E; [|done]. apply ws_iff in E. lia.
Qed.
Lemma skip_value w v j r : Ws w → JsonValue v j → skip_ws (w ++ v ++ r) = v ++ r.
Proof.
  intros Hw Hv. rewrite skip_ws_app by done. apply skip_ws_id. destruct (value_start v j Hv) as (c & x & -> & Hc & _). exact Hc.
Qed.
Lemma delim_ws w c r : Ws w → c ∈ [44; 93; 125] → delimited (w ++ c :: r) = true.
Proof.
  intros Hw Hc. destruct Hw as [|d w Hd _].
  - rewrite !elem_of_cons, elem_of_nil in Hc. destruct Hc as [->|[->|[->|[]]]]; done.
  - cbn [app delimited]. unfold not_delim, digit. rewrite negb_true_iff, !orb_false_iff, !andb_false_iff, !N.eqb_neq, !N.leb_gt. lia.
Qed.
Lemma delim_ws_end w : Ws w → delimited w = true.
Proof.
  destruct 1 as [|d w Hd _]; [done|]. cbn [delimited]. unfold not_delim, digit.
  rewrite negb_true_iff, !orb_false_iff, !andb_false_iff, !N.eqb_neq, !N.leb_gt. lia.
Qed.
Lemma items_skip i l r : JsonItems i l → ∃ c x, skip_ws (i ++ r) = c :: x ∧ c ≠ 93 ∧ (length (c :: x) <= length (i ++ r))%nat.
Proof.
  intros H. assert (S : ∃ w v j i', i = w ++ v ++ i' ∧ Ws w ∧ JsonValue v j).
  { destruct H; eauto 10. }
  destruct S as (w & v & j & i' & -> & Hw & Hv). rewrite <-!app_assoc, (skip_value w v j) by done.
  destruct (value_start v j Hv) as (c & x & -> & _ & Hc & _). exists c, (x ++ i' ++ r). split; [done|]. split; [done|].
  rewrite !app_length. cbn [length app]. rewrite !app_length. lia.
Qed.
Lemma members_skip m l r : JsonMembers m l → ∃ x, skip_ws (m ++ r) = 34 :: x.
Proof.
  intros H. destruct H as [w1 b k w2 w3 v w4 j Hw|w1 b k w2 w3 v w4 j m l Hw]; rewrite <-app_assoc, skip_ws_app by done; by eexists.
Qed.

(** What [read_value] and the others do with the texts of the syntax. *)
Definition value_ok (v : text) (j : json) : Prop := ∀ fuel rest, (2 * length v <= fuel)%nat → (∀ t, j = JRaw t → delimited rest = true) →
  read_value fuel (v ++ rest) = Some (j, rest).
Definition items_ok (i : text) (l : list json) : Prop := ∀ fuel rest, (2 * length i + 1 <= fuel)%nat →
  read_items fuel (skip_ws (i ++ 93 :: rest)) = Some (l, rest).
Definition members_ok (m : text) (l : list (text * json)) : Prop := ∀ fuel rest, (2 * length m + 1 <= fuel)%nat →
  read_members fuel (skip_ws (m ++ 125 :: rest)) = Some (l, rest).
Lemma complete : (∀ v j, JsonValue v j → value_ok v j) ∧ (∀ i l, JsonItems i l → items_ok i l) ∧ (∀ m l, JsonMembers m l → members_ok m l).
Proof.
  apply json_syntax_ind; unfold value_ok, items_ok, members_ok.
  - (* scalar *)
    intros t Ht fuel rest Hf Hr. destruct (scalar_start t Ht) as (c & x & E & Hc). destruct fuel as [|fuel]; [rewrite E in Hf; cbn in Hf; lia|].
    pose proof (read_scalar_complete t rest Ht (Hr t eq_refl)) as Hs. rewrite E in *. cbn [app read_value] in *.
    destruct (N.eqb_spec c 34); [lia|]. destruct (N.eqb_spec c 91); [lia|]. destruct (N.eqb_spec c 123); [lia|]. by rewrite Hs.
  - intros b t Hb fuel rest Hf _. destruct fuel as [|fuel]; [cbn in Hf; lia|]. cbn [app read_value]. change (34 =? 34) with true. cbv iota.
    rewrite <-app_assoc. cbn [app]. by rewrite (read_string_complete b t rest Hb).
  - intros w Hw fuel rest Hf _. destruct fuel as [|fuel]; [cbn in Hf; lia|]. cbn [app read_value].
    change (91 =? 34) with false. change (91 =? 91) with true. cbv iota. rewrite <-app_assoc, skip_ws_app by done. done.
  - intros i l Hi IH fuel rest Hf _. destruct fuel as [|fuel]; [cbn in Hf; lia|]. cbn [app read_value].
    change (91 =? 34) with false. change (91 =? 91) with true. cbv iota. rewrite <-app_assoc. cbn [app].
    destruct (items_skip i l (93 :: rest) Hi) as (c & x & E & Hc & _). cbn [length] in Hf. rewrite app_length in Hf. cbn [length] in Hf.
    specialize (IH fuel rest ltac:(lia)). rewrite E in *. apply N.eqb_neq in Hc. rewrite Hc, IH. done.
  - intros w Hw fuel rest Hf _. destruct fuel as [|fuel]; [cbn in Hf; lia|]. cbn [app read_value].
    change (123 =? 34) with false. change (123 =? 91) with false. change (123 =? 123) with true. cbv iota. rewrite <-app_assoc, skip_ws_app by done. done.
  - intros m l Hm IH fuel rest Hf _. destruct fuel as [|fuel]; [cbn in Hf; lia|]. cbn [app read_value].
    change (123 =? 34) with false. change (123 =? 91) with false. change (123 =? 123) with true. cbv iota. rewrite <-app_assoc. cbn [app].
    destruct (members_skip m l (125 :: rest) Hm) as (x & E). cbn [length] in Hf. rewrite app_length in Hf. cbn [length] in Hf.
    specialize (IH fuel rest ltac:(lia)). rewrite E in *. change (34 =? 125) with false. cbv iota. by rewrite IH.
  - intros w1 v w2 j Hw1 Hv IH Hw2 fuel rest Hf. destruct fuel as [|fuel]; [lia|]. rewrite !app_length in Hf.
    rewrite <-!app_assoc, (skip_value w1 v j) by done. cbn [read_items]. rewrite IH.
    + cbn [mbind option_bind]. rewrite skip_ws_app by done. done.
    + lia.
    + intros _ _. apply delim_ws; [done|]. right. left.
  - intros w1 v w2 i j l Hw1 Hv IH Hw2 Hi IHi fuel rest Hf. destruct fuel as [|fuel]; [lia|]. rewrite !app_length in Hf. cbn [length] in Hf.
    rewrite <-!app_assoc, (skip_value w1 v j) by done. cbn [read_items]. rewrite IH.
    + cbn [mbind option_bind app]. rewrite skip_ws_app by done. cbn [app skip_ws]. change (json_space 44) with false. cbv iota.
      change (44 =? 93) with false. change (44 =? 44) with true. cbv iota. rewrite IHi by lia. done.
    + lia.
    + intros _ _. cbn [app]. apply delim_ws; [done|]. left.
  - intros w1 b k w2 w3 v w4 j Hw1 Hb Hw2 Hw3 Hv IH Hw4 fuel rest Hf. destruct fuel as [|fuel]; [lia|].
    repeat (rewrite app_length in Hf || cbn [length] in Hf).
    rewrite <-app_assoc, skip_ws_app by done. cbn [app skip_ws]. change (json_space 34) with false. cbv iota. cbn [read_members].
    change (34 =? 34) with true. cbv iota. rewrite <-app_assoc. cbn [app]. rewrite (read_string_complete b k _ Hb). cbn [mbind option_bind].
    rewrite <-app_assoc, skip_ws_app by done. cbn [app skip_ws]. change (json_space 58) with false. cbv iota. change (58 =? 58) with true. cbv iota.
    rewrite <-!app_assoc, (skip_value w3 v j) by done. rewrite IH.
    + cbn [mbind option_bind]. rewrite skip_ws_app by done. done.
    + lia.
    + intros _ _. apply delim_ws; [done|]. right. right. left.
  - intros w1 b k w2 w3 v w4 j m l Hw1 Hb Hw2 Hw3 Hv IH Hw4 Hm IHm fuel rest Hf. destruct fuel as [|fuel]; [lia|].
    repeat (rewrite app_length in Hf || cbn [length] in Hf).
    rewrite <-app_assoc, skip_ws_app by done. cbn [app skip_ws]. change (json_space 34) with false. cbv iota. cbn [read_members].
    change (34 =? 34) with true. cbv iota. rewrite <-app_assoc. cbn [app]. rewrite (read_string_complete b k _ Hb). cbn [mbind option_bind].
    rewrite <-app_assoc, skip_ws_app by done. cbn [app skip_ws]. change (json_space 58) with false. cbv iota. change (58 =? 58) with true. cbv iota.
    rewrite <-!app_assoc, (skip_value w3 v j) by done. rewrite IH.
    + cbn [mbind option_bind app]. rewrite skip_ws_app by done. cbn [app skip_ws]. change (json_space 44) with false. cbv iota.
      change (44 =? 125) with false. change (44 =? 44) with true. cbv iota. rewrite IHm by lia. done.
    + lia.
    + intros _ _. cbn [app]. apply delim_ws; [done|]. left.
Qed.

Lemma items_ws w i l : Ws w → JsonItems i l → JsonItems (w ++ i) l.
Proof.
  intros Hw H. destruct H as [w1 v w2 j Hw1 Hv Hw2|w1 v w2 i j l Hw1 Hv Hw2 Hi]; rewrite app_assoc; constructor; try done; by apply ws_app.
Qed.
Lemma members_ws w m l : Ws w → JsonMembers m l → JsonMembers (w ++ m) l.
Proof.
  intros Hw H. destruct H; rewrite app_assoc; constructor; try done; by apply ws_app.
Qed.

Lemma sound fuel :
  (∀ t j rest, read_value fuel t = Some (j, rest) → ∃ v, t = v ++ rest ∧ JsonValue v j ∧ (∀ x, j = JRaw x → delimited rest = true)) ∧
  (∀ t l rest, read_items fuel t = Some (l, rest) → ∃ i, t = i ++ 93 :: rest ∧ JsonItems i l) ∧
  (∀ t l rest, read_members fuel t = Some (l, rest) → ∃ m, t = m ++ 125 :: rest ∧ JsonMembers m l).
Proof.
  induction fuel as [|fuel (IHv & IHi & IHm)]; [done|]. split; [|split].
  - intros t j rest H. destruct t as [|c t]; [done|]. cbn [read_value] in H.
    destruct (N.eqb_spec c 34) as [->|N1].
    { destruct (read_string t) as [[s r]|] eqn:E; [|done]. cbn in H. injection H as <- <-. apply read_string_sound in E as (b & -> & Hb).
      exists (34 :: b ++ [34]). split; [cbn [app]; by rewrite <-app_assoc|]. split; [by constructor|done]. }
    destruct (N.eqb_spec c 91) as [->|N2].
    { destruct (skip_ws_split t) as (w & Et & Hw). destruct (skip_ws t) as [|c1 r] eqn:E; [done|].
      destruct (N.eqb_spec c1 93) as [->|_].
      - injection H as <- <-. exists (91 :: w ++ [93]). rewrite Et. split; [cbn [app]; by rewrite <-app_assoc|]. split; [by constructor|done].
      - destruct (read_items fuel (c1 :: r)) as [[l r']|] eqn:Ei; [|done]. cbn in H. injection H as <- <-.
        apply IHi in Ei as (i & Ei & Hi). exists (91 :: (w ++ i) ++ [93]). rewrite Et, Ei. split; [cbn [app]; by rewrite <-!app_assoc|].
        split; [|done]. constructor. by apply items_ws. }
    destruct (N.eqb_spec c 123) as [->|N3].
    { destruct (skip_ws_split t) as (w & Et & Hw). destruct (skip_ws t) as [|c1 r] eqn:E; [done|].
      destruct (N.eqb_spec c1 125) as [->|_].
      - injection H as <- <-. exists (123 :: w ++ [125]). rewrite Et. split; [cbn [app]; by rewrite <-app_assoc|]. split; [by constructor|done].
      - destruct (read_members fuel (c1 :: r)) as [[l r']|] eqn:Ei; [|done]. cbn in H. injection H as <- <-.
        apply IHm in Ei as (m & Ei & Hm). exists (123 :: (w ++ m) ++ [125]). rewrite Et, Ei. split; [cbn [app]; by rewrite <-!app_assoc|].
        split; [|done]. constructor. by apply members_ws. }
    destruct (read_scalar (c :: t)) as [[s r]|] eqn:E; [|done]. cbn in H. injection H as <- <-.
    apply read_scalar_sound in E as (-> & Hs & Hd). exists s. split; [done|]. split; [by constructor|done].
  - intros t l rest H. cbn [read_items] in H. destruct (read_value fuel t) as [[j r]|] eqn:Ev; [|done]. cbn [mbind option_bind] in H.
    apply IHv in Ev as (v & -> & Hv & _). destruct (skip_ws_split r) as (w & Er & Hw). destruct (skip_ws r) as [|c r1] eqn:E; [done|].
    destruct (N.eqb_spec c 93) as [->|_].
    { injection H as <- <-. exists ([] ++ v ++ w). rewrite Er. split; [cbn [app]; by rewrite <-!app_assoc|]. constructor; [constructor|done|done]. }
    destruct (N.eqb_spec c 44) as [->|_]; [|done]. destruct (skip_ws_split r1) as (w' & Er1 & Hw').
    destruct (read_items fuel (skip_ws r1)) as [[l' r2]|] eqn:Ei; [|done]. cbn in H. injection H as <- <-.
    apply IHi in Ei as (i & Ei & Hi). rewrite Ei in Er1. exists ([] ++ v ++ w ++ 44 :: w' ++ i). rewrite Er, Er1.
    split; [cbn [app]; rewrite <-!app_assoc; cbn [app]; by rewrite <-!app_assoc|]. apply JI_cons; [constructor|done|done|by apply items_ws].
  - intros t l rest H. cbn [read_members] in H. destruct t as [|q t]; [done|]. destruct (N.eqb_spec q 34) as [->|_]; [|done].
    destruct (read_string t) as [[k r]|] eqn:Es; [|done]. cbn [mbind option_bind] in H. apply read_string_sound in Es as (b & -> & Hb).
    destruct (skip_ws_split r) as (w2 & Er & Hw2). destruct (skip_ws r) as [|c r1] eqn:E; [done|].
    destruct (N.eqb_spec c 58) as [->|_]; [|done]. destruct (skip_ws_split r1) as (w3 & Er1 & Hw3).
    destruct (read_value fuel (skip_ws r1)) as [[j r2]|] eqn:Ev; [|done]. cbn [mbind option_bind] in H.
    apply IHv in Ev as (v & Ev & Hv & _). rewrite Ev in Er1. destruct (skip_ws_split r2) as (w4 & Er2 & Hw4).
    destruct (skip_ws r2) as [|c r3] eqn:E2; [done|]. destruct (N.eqb_spec c 125) as [->|_].
    { injection H as <- <-. exists ([] ++ 34 :: b ++ 34 :: w2 ++ 58 :: w3 ++ v ++ w4). rewrite Er, Er1, Er2. cbn [app]. split.
      - repeat (rewrite <-!app_assoc; cbn [app]). done.
      - apply (JM_one []); try done. constructor. }
    destruct (N.eqb_spec c 44) as [->|_]; [|done]. destruct (skip_ws_split r3) as (w5 & Er3 & Hw5).
    destruct (read_members fuel (skip_ws r3)) as [[l' r4]|] eqn:Em; [|done]. cbn in H. injection H as <- <-.
    apply IHm in Em as (m & Em & Hm). rewrite Em in Er3.
    exists ([] ++ 34 :: b ++ 34 :: w2 ++ 58 :: w3 ++ v ++ w4 ++ 44 :: w5 ++ m). rewrite Er, Er1, Er2, Er3. cbn [app]. split.
    + repeat (rewrite <-!app_assoc; cbn [app]). done.
    + apply (JM_cons []); try done; [constructor|by apply members_ws].
Qed.

(** ** Whole texts *)
Lemma read_text_iff t j : read_text t = Some j ↔ JsonText t j.
Proof.
  unfold read_text, JsonText. destruct (skip_ws_split t) as (w & Et & Hw). split.
  - destruct (read_value _ (skip_ws t)) as [[j' r]|] eqn:E; [|done]. cbn [mbind option_bind].
    destruct (skip_ws r) eqn:Er; [|done]. intros [= <-]. apply (proj1 (sound _)) in E as (v & E & Hv & _).
    exists w, v, r. rewrite Et at 1. rewrite E. split; [done|]. split; [done|]. split; [done|]. by apply skip_ws_nil_iff.
  - intros (w1 & v & w2 & -> & Hw1 & Hv & Hw2). rewrite (skip_value w1 v j) by done.
    rewrite (proj1 complete v j Hv).
    + cbn [mbind option_bind]. by rewrite skip_ws_nil.
    + unfold enough. rewrite app_length. lia.
    + intros _ _. by apply delim_ws_end.
Qed.
Lemma text_unique t j j' : JsonText t j → JsonText t j' → j = j'.
Proof. rewrite <-!read_text_iff. congruence. Qed.

Lemma read_body_none t : read_body t = NoBody ↔ Ws t.
Proof.
  unfold read_body. rewrite <-skip_ws_nil_iff. destruct (skip_ws t) as [|c x]; [done|].
  destruct (read_value _ (c :: x)) as [[j r]|]; done.
Qed.
Lemma read_body_some t j : read_body t = Body j ↔
  ∃ w v rest, t = w ++ v ++ rest ∧ Ws w ∧ JsonValue v j ∧ (∀ x, j = JRaw x → delimited rest = true).
Proof.
  unfold read_body. destruct (skip_ws_split t) as (w & Et & Hw). split.
  - destruct (skip_ws t) as [|c x] eqn:Es; [done|]. destruct (read_value _ (c :: x)) as [[j' r]|] eqn:E; [|done]. intros [= <-].
    apply (proj1 (sound _)) in E as (v & E & Hv & Hd). exists w, v, r. rewrite Et, E. done.
  - intros (w1 & v & rest & -> & Hw1 & Hv & Hd). rewrite (skip_value w1 v j) by done.
    destruct (v ++ rest) as [|c x] eqn:E; [destruct (value_start v j Hv) as (c & x & -> & _); done|]. rewrite <-E.
    rewrite (proj1 complete v j Hv); [done| |done]. unfold enough. rewrite app_length. lia.
Qed.
Lemma delimited_iff rest : delimited rest = true ↔ Delimited rest.
Proof.
  unfold Delimited. destruct rest as [|c r]; [done|]. cbn [delimited]. unfold not_delim, digit.
  rewrite negb_true_iff, !orb_false_iff, !andb_false_iff, !N.eqb_neq, !N.leb_gt. split.
  - intros H c' r' [= <- <-]. lia.
  - intros H. specialize (H c r eq_refl). lia.
Qed.
Lemma bodies t j : read_body t = Body j ↔
  ∃ w v rest, t = w ++ v ++ rest ∧ Ws w ∧ JsonValue v j ∧ (∀ x, j = JRaw x → Delimited rest).
Proof.
  rewrite read_body_some. split; intros (w & v & rest & H1 & H2 & H3 & H4); exists w, v, rest; split_and!; try done;
    intros x Hx; apply delimited_iff, (H4 x Hx).
Qed.
Lemma body_rest_ignored t j rest : JsonText t j → Closed j → read_body (t ++ rest) = Body j.
Proof.
  intros (w1 & v & w2 & -> & Hw1 & Hv & Hw2) Hc. apply read_body_some. exists w1, v, (w2 ++ rest).
  split; [by rewrite <-!app_assoc|]. split; [done|]. split; [done|]. intros x ->. by destruct (Hc x).
Qed.

(** A text that was cut off is not read as something else. *)
Lemma cut_off a b j j' : JsonValue (a ++ b) j → Closed j → b ≠ [] → ¬ JsonText a j'.
Proof.
  intros Hv Hc Hb (w1 & v & w2 & -> & Hw1 & Hv' & Hw2).
  assert (w1 = []) as ->.
  { destruct (value_start _ _ Hv) as (c & x & E & Hs & _). destruct w1 as [|d w1]; [done|]. cbn [app] in E. injection E as <- _.
    apply Forall_inv, ws_iff in Hw1. congruence. }
  cbn [app] in *. assert (Hc' : Closed j').
  { intros t ->. assert (Hs : JsonScalar v) by (by inversion Hv'; subst). destruct (scalar_start v Hs) as (c & x & -> & Hr). cbn [app] in Hv.
    inversion Hv as [t' Hs'| | | | |]; subst; try lia. by destruct (Hc (c :: (x ++ w2) ++ b)). }
  set (f := (2 * length (((v ++ w2) ++ b) ++ []))%nat).
  pose proof (proj1 complete _ _ Hv f [] ltac:(unfold f; rewrite !app_length; lia)) as H1.
  pose proof (proj1 complete _ _ Hv' f (w2 ++ b) ltac:(unfold f; rewrite !app_length; lia)) as H2.
  rewrite app_nil_r, <-app_assoc in H1. rewrite H1 in H2; [|by intros t ->; destruct (Hc t)].
  specialize (H2 ltac:(by intros t ->; destruct (Hc' t))). injection H2 as _ E. symmetry in E. apply app_eq_nil in E as [_ ->]. done.
Qed.

(** ** What is written *)
Lemma escaped_body r : StringBody (escape r) [r] ∧ StringBody (escaped r) [r].
Proof.
  assert (HX : ∀ d, d < 16 → HexDigit (hex_digit d) d).
  { intros d Hd. unfold hex_digit, HexDigit. destruct (N.ltb_spec d 10); lia. }
  assert (HU : ∀ q, q < 256 → StringBody [92; 117; 48; 48; hex_digit (q / 16); hex_digit (q mod 16)] [q]).
  { intros q Hq. apply (SB_unicode [48; 48; hex_digit (q / 16); hex_digit (q mod 16)] q [] []); [|lia|constructor].
    exists 48, 48, (hex_digit (q / 16)), (hex_digit (q mod 16)), 0, 0, (q / 16), (q mod 16). split; [done|].
    split; [unfold HexDigit; lia|]. split; [unfold HexDigit; lia|]. split; [apply HX, N.div_lt_upper_bound; lia|].
    split; [apply HX, N.mod_lt; lia|]. pose proof (N.div_mod q 16). lia. }
  assert (HE : StringBody (escape r) [r]).
  { unfold escape. destruct (N.eqb_spec r 34) as [->|N34]; [apply (SB_escape 34 34 [] []); [|constructor]; by apply unescape_iff|].
    destruct (N.eqb_spec r 92) as [->|N92]; [apply (SB_escape 92 92 [] []); [|constructor]; by apply unescape_iff|]. cbn [orb].
    destruct (N.eqb_spec r 8) as [->|_]; [apply (SB_escape 98 8 [] []); [|constructor]; by apply unescape_iff|].
    destruct (N.eqb_spec r 12) as [->|_]; [apply (SB_escape 102 12 [] []); [|constructor]; by apply unescape_iff|].
    destruct (N.eqb_spec r 10) as [->|_]; [apply (SB_escape 110 10 [] []); [|constructor]; by apply unescape_iff|].
    destruct (N.eqb_spec r 13) as [->|_]; [apply (SB_escape 114 13 [] []); [|constructor]; by apply unescape_iff|].
    destruct (N.eqb_spec r 9) as [->|_]; [apply (SB_escape 116 9 [] []); [|constructor]; by apply unescape_iff|].
    destruct (N.ltb_spec r 32); [apply HU; lia|]. apply SB_plain; try done. constructor. }
  split; [done|]. unfold escaped. destruct (_ || _) eqn:E; [|done].
  rewrite !orb_true_iff, !N.eqb_eq in E. unfold html_escape. destruct E as [[[[->| ->]| ->]| ->]| ->].
  - apply (HU 60). lia.
  - apply (HU 62). lia.
  - apply (HU 38). lia.
  - apply (SB_unicode [50; 48; 50; 56] 0x2028 [] []); [by apply (hex4_iff 50 48 50 56)|lia|constructor].
  - apply (SB_unicode [50; 48; 50; 57] 0x2029 [] []); [by apply (hex4_iff 50 48 50 57)|lia|constructor].
Qed.
Lemma body_app b t b' t' : StringBody b t → StringBody b' t' → StringBody (b ++ b') (t ++ t').
Proof.
  intros H H'. induction H as [|r b t H1 H2 H3 _ IH|e r b t He _ IH|h v b t Hh Hv _ IH|h v h' v' b t Hh Hv Hh' Hv' _ IH].
  - done.
  - cbn [app]. by apply SB_plain.
  - cbn [app]. by apply SB_escape.
  - cbn [app]. rewrite <-app_assoc. by apply SB_unicode.
  - cbn [app]. rewrite <-app_assoc. cbn [app]. rewrite <-app_assoc. by apply SB_pair.
Qed.
Lemma quoted_body t : StringBody (concat (map escape t)) t ∧ StringBody (concat (map escaped t)) t.
Proof.
  induction t as [|r t [IH1 IH2]]; [split; constructor|]. cbn [map concat]. change (r :: t) with ([r] ++ t).
  destruct (escaped_body r). split; by apply body_app.
Qed.
Lemma ws_comma sp : ∃ w, comma sp = 44 :: w ∧ Ws w.
Proof. destruct sp; [exists [32]|exists []]; (split; [done|]); repeat constructor; lia. Qed.
Lemma ws_nil : Ws [].
Proof. constructor. Qed.
Lemma joined_items sp (f : json → text) l : l ≠ [] → Forall (λ j, JsonValue (f j) j) l → JsonItems (joined sp (map f l)) l.
Proof.
  intros Hne H. induction H as [|j l Hj Hl IH]; [done|]. cbn [map joined]. destruct l as [|j' l].
  - cbn [map]. pose proof (JI_one [] (f j) [] j ws_nil Hj ws_nil) as Hx. cbn [app] in Hx. by rewrite app_nil_r in Hx.
  - cbn [map]. destruct (ws_comma sp) as (w & -> & Hw). cbn [app].
    pose proof (JI_cons [] (f j) [] (w ++ joined sp (map f (j' :: l))) j (j' :: l) ws_nil Hj ws_nil) as Hx. cbn [app] in Hx. apply Hx.
    apply items_ws; [done|]. by apply IH.
Qed.
Lemma joined_members sp (f : json → text) (g : text → text) l : l ≠ [] → (∀ k, StringBody (g k) k) → Forall (λ kj, JsonValue (f kj.2) kj.2) l →
  JsonMembers (joined sp (map (λ kj, (34 :: g kj.1 ++ [34]) ++ 58 :: f kj.2) l)) l.
Proof.
  intros Hne Hg H. induction H as [|[k j] l Hj Hl IH]; [done|]. cbn [map joined]. cbn [fst snd] in *. destruct l as [|kj' l].
  - cbn [map]. pose proof (JM_one [] (g k) k [] [] (f j) [] j ws_nil (Hg k) ws_nil ws_nil Hj ws_nil) as Hx. cbn [app] in *.
    rewrite app_nil_r in Hx. rewrite <-app_assoc. exact Hx.
  - specialize (IH ltac:(done)). cbn [map] in *. destruct (ws_comma sp) as (w & -> & Hw). revert IH.
    generalize (joined sp (((34 :: g kj'.1 ++ [34]) ++ 58 :: f kj'.2) :: map (λ kj, (34 :: g kj.1 ++ [34]) ++ 58 :: f kj.2) l)). intros M IH.
    pose proof (JM_cons [] (g k) k [] [] (f j) [] j (w ++ M) (kj' :: l) ws_nil (Hg k) ws_nil ws_nil Hj ws_nil (members_ws w M _ Hw IH)) as Hx.
    repeat (cbn [app] in *; rewrite <-?app_assoc). exact Hx.
Qed.
Lemma printed_value sp j : RealScalars j → JsonValue (print sp j) j ∧ JsonValue (printc j) j.
Proof.
  induction j as [t|t|l IH|l IH] using json_ind'; intros HR; cbn [print printc].
  - split; constructor; apply HR; constructor.
  - split; constructor; apply quoted_body.
  - assert (HR' : ∀ j, j ∈ l → RealScalars j) by (intros j Hj t Ht; apply HR; by eapply RawIn_arr).
    rewrite Forall_forall in IH. destruct l as [|j l]; [split; apply (JV_empty_array [] ws_nil)|].
    split; apply JV_array, joined_items; try done; apply Forall_forall; intros x Hx; by apply IH, HR'.
  - assert (HR' : ∀ kj, kj ∈ l → RealScalars kj.2) by (intros [k j] Hj t Ht; apply HR; by eapply RawIn_val).
    rewrite Forall_forall in IH. destruct l as [|kj l]; [split; apply (JV_empty_object [] ws_nil)|].
    split; apply JV_object.
    + apply (joined_members sp (print sp) (λ k, concat (map escape k))); try done; [intros k; apply quoted_body|].
      apply Forall_forall; intros x Hx; by apply IH, HR'.
    + apply (joined_members false printc (λ k, concat (map escaped k))); try done; [intros k; apply quoted_body|].
      apply Forall_forall; intros x Hx; by apply IH, HR'.
Qed.
Lemma scalar_chars t : JsonScalar t → ∀ r, r ∈ t → ScalarChar r.
Proof.
  unfold ScalarChar. intros [->|[->|[->|(sg & ip & fp & ep & -> & Hs & Hi & Hf & He)]]] r Hr.
  1: change (codes "null"%string) with [110; 117; 108; 108] in Hr.
  2: change (codes "true"%string) with [116; 114; 117; 101] in Hr.
  3: change (codes "false"%string) with [102; 97; 108; 115; 101] in Hr.
  1-3: rewrite !elem_of_cons, elem_of_nil in Hr; lia.
  rewrite !elem_of_app in Hr. destruct Hr as [Hr|[Hr|[Hr|Hr]]].
  - destruct Hs as [->| ->]; [by apply elem_of_nil in Hr|]. apply elem_of_list_singleton in Hr. lia.
  - destruct Hi as [->|[[_ Hd] _]]; [apply elem_of_list_singleton in Hr; lia|]. rewrite Forall_forall in Hd. specialize (Hd r Hr). lia.
  - destruct Hf as [->|(ds & [_ Hd] & ->)]; [by apply elem_of_nil in Hr|]. apply elem_of_cons in Hr as [->|Hr]; [lia|].
    rewrite Forall_forall in Hd. specialize (Hd r Hr). lia.
  - destruct He as [->|(e & s & ds & He & Hsg & [_ Hd] & ->)]; [by apply elem_of_nil in Hr|].
    rewrite elem_of_cons, elem_of_app in Hr. destruct Hr as [->|[Hr|Hr]]; [lia| |rewrite Forall_forall in Hd; specialize (Hd r Hr); lia].
    destruct Hsg as [->|[->| ->]]; [by apply elem_of_nil in Hr|apply elem_of_list_singleton in Hr; lia..].
Qed.
Lemma real_good j : RealScalars j → GoodScalars j.
Proof. intros H t Ht. apply scalar_chars. by apply H. Qed.
Lemma sent_value sp j : RealScalars j → JsonValue (sent_text sp j) j.
Proof. intros H. rewrite (sent_text_printc sp j (real_good j H)). by apply printed_value. Qed.
Lemma value_text v j : JsonValue v j → JsonText v j.
Proof. intros H. exists [], v, []. split; [by rewrite app_nil_r|]. split; [constructor|]. split; [done|constructor]. Qed.
Lemma read_sent sp j : RealScalars j → read_text (print sp j) = Some j ∧ read_text (sent_text sp j) = Some j.
Proof.
  intros H. rewrite !read_text_iff. split; apply value_text; [by apply printed_value|by apply sent_value].
Qed.
Lemma sent_cut_off sp j a b j' : RealScalars j → Closed j → sent_text sp j = a ++ b → b ≠ [] → ¬ JsonText a j'.
Proof. intros HR Hc E Hb. apply (cut_off a b j j'); try done. rewrite <-E. by apply sent_value. Qed.

(** The example's stream: what it decodes is what was sent. *)
Lemma example_decodes sp js : Forall RealScalars js → Forall (λ j, ¬ PlainSpaceIn j) js →
  ∃ ts, example_reads (stream_of (map (sent_text sp) js)) = ReadAll ts ∧ map read_text ts = map Some js.
Proof.
  intros HR HP. exists (map (sent_text sp) js). split.
  - apply reads_printed; [|done]. eapply Forall_impl; [exact HR|]. intros j. apply real_good.
  - rewrite map_map. apply map_ext_in. intros j Hj. rewrite Forall_forall in HR. apply read_sent, HR. by apply elem_of_list_In.
Qed.
