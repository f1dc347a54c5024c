(** time.ParseDuration of Model/NetSettings.v, exactly. *)
From Coq Require Import Ascii String ZArith NArith Lia.
From stdpp Require Import prelude strings.
From Verif.Model Require Import GoStrings Types Settings Dial NetSettings.
From Verif.Spec Require Import StringSpec MiscSpec SettingsSpec DialSpec NetSpec.
From Verif.Proofs Require Import StringLemmas MiscLemmas SettingsLemmas DialLemmas NetLemmas.
Local Open Scope string_scope.
Local Open Scope N_scope.

(** What may follow a part. *)
Definition nstart (r : string) : bool := match r with "" => true | String c _ => number_char c end.

Lemma leading_int_inv acc s n r : leading_int acc s = Some (n, r) →
  ∃ ds, s = ds +:+ r ∧ all_digits ds = true ∧ n = dv acc ds ∧ (∀ c r', r = String c r' → is_digit c = false).
Proof.
  revert acc. induction s as [|c s IH]; intros acc H; cbn [leading_int] in H.
  - injection H as <- <-. exists "". split_and!; try done.
  - destruct (is_digit c) eqn:Hc.
    + destruct (N.ltb_spec (2 ^ 63 / 10) acc); [done|]. cbv zeta in H. destruct (N.ltb_spec (2 ^ 63) (10 * acc + digit_val c)); [done|].
      apply IH in H as (ds & -> & Hd & -> & Hr). exists (String c ds). split; [done|]. split; [cbn [all_digits]; by rewrite Hc|].
      split; [|done]. cbn [dv]. f_equal. lia.
    + injection H as <- <-. exists "". split_and!; try done. by intros c' r' [= <- <-].
Qed.
Lemma span_inv f s a b : span f s = (a, b) → s = a +:+ b ∧ forallb f (list_ascii_of_string a) = true ∧
  (∀ c r, b = String c r → f c = false).
Proof.
  revert a b. induction s as [|c s IH]; intros a b H; cbn [span] in H.
  - injection H as <- <-. done.
  - destruct (f c) eqn:Hc.
    + destruct (span f s) as [a' b'] eqn:E. injection H as <- <-. destruct (IH _ _ eq_refl) as (-> & H1 & H2).
      split; [done|]. split; [cbn [list_ascii_of_string forallb]; by rewrite Hc|done].
    + injection H as <- <-. split; [done|]. split; [done|]. by intros c' r' [= <- <-].
Qed.
Lemma span_ok f a b : forallb f (list_ascii_of_string a) = true → (∀ c r, b = String c r → f c = false) → span f (a +:+ b) = (a, b).
Proof.
  intros Ha Hb. induction a as [|c a IH].
  - change ("" +:+ b) with b. destruct b as [|c b]; [done|]. cbn [span]. by rewrite (Hb c b eq_refl).
  - change (String c a +:+ b) with (String c (a +:+ b)). cbn [list_ascii_of_string forallb span] in *.
    apply andb_true_iff in Ha as [-> Ha]. by rewrite (IH Ha).
Qed.
Lemma digits_forallb s : all_digits s = forallb is_digit (list_ascii_of_string s).
Proof. induction s as [|c s IH]; [done|]. cbn [all_digits list_ascii_of_string forallb]. by rewrite IH. Qed.
Lemma unit_of_iff u k : unit_of u = Some k ↔ (u, Z.of_N k) ∈ duration_units.
Proof.
  split.
  - unfold unit_of. intros H.
    destruct (String.eqb_spec u "ns") as [->|_]; [injection H as <-; left|].
    destruct (String.eqb_spec u "us") as [->|_]; [injection H as <-; right; left|].
    destruct (String.eqb_spec u (String (ascii_of_N 194) (String (ascii_of_N 181) "s"))) as [->|_]; [injection H as <-; right; right; left|].
    destruct (String.eqb_spec u (String (ascii_of_N 206) (String (ascii_of_N 188) "s"))) as [->|_]; [injection H as <-; do 3 right; left|].
    cbn [orb] in H.
    destruct (String.eqb_spec u "ms") as [->|_]; [injection H as <-; do 4 right; left|].
    destruct (String.eqb_spec u "s") as [->|_]; [injection H as <-; do 5 right; left|].
    destruct (String.eqb_spec u "m") as [->|_]; [injection H as <-; do 6 right; left|].
    destruct (String.eqb_spec u "h") as [->|_]; [injection H as <-; do 7 right; left|done].
  - intros H. destruct (unit_facts _ _ H) as (-> & _). by rewrite N2Z.id.
Qed.
Lemma num_neg c : negb (number_char c) = false ↔ number_char c = true.
Proof. by destruct (number_char c). Qed.

(** The parts that are read, in one shape: [ds] and [fs] not both empty. *)
Definition shape (frac : string → N → N) (ds pt fs u : string) (k : N) : Prop :=
  all_digits ds = true ∧ all_digits fs = true ∧ (ds ≠ "" ∨ fs ≠ "") ∧ (pt = "" ∧ fs = "" ∨ pt = ".") ∧ (u, Z.of_N k) ∈ duration_units.
Definition worth (frac : string → N → N) (ds fs : string) (k : N) : N :=
  dv 0 ds * k + (if String.eqb fs "" then 0 else frac fs k).
Lemma part_shape frac p v : DurationPart frac p v ↔
  ∃ ds pt fs u k, shape frac ds pt fs u k ∧ p = ds +:+ pt +:+ fs +:+ u ∧ v = worth frac ds fs k.
Proof.
  unfold shape, worth. split.
  - destruct 1 as [ds n u k (H1 & H2 & <-)%has_value_iff Hu|ds n u k (H1 & H2 & <-)%has_value_iff Hu
      |ds n fs u k (H1 & H2 & <-)%has_value_iff Hf Hne Hu|fs u k Hf Hne Hu].
    + exists ds, "", "", u, k. split_and!; try done; [by left|by left|cbn [String.eqb]; lia].
    + exists ds, ".", "", u, k. split_and!; try done; [by left|by right|cbn [String.eqb]; lia].
    + exists ds, ".", fs, u, k. apply all_digits_spec in Hf. split_and!; try done; [by left|by right|].
      by rewrite (proj2 (String.eqb_neq fs "") Hne).
    + exists "", ".", fs, u, k. apply all_digits_spec in Hf. split_and!; try done; [by right|by right|].
      by rewrite (proj2 (String.eqb_neq fs "") Hne).
  - intros (ds & pt & fs & u & k & (H1 & H2 & H3 & H4 & H5) & -> & ->).
    destruct (String.eqb_spec fs "") as [->|Hne].
    + destruct H3 as [H3|H3]; [|done]. rewrite N.add_0_r. change ("" +:+ u) with u.
      destruct H4 as [[-> _]| ->]; [change ("" +:+ u) with u; apply DPart_whole|apply DPart_point]; try done; by apply has_value_iff.
    + destruct H4 as [[_ ->]| ->]; [done|]. apply all_digits_spec in H2. destruct (String.eqb_spec ds "") as [->|Hd].
      * change (dv 0 "" * k) with 0. rewrite N.add_0_l. by apply DPart_only_frac.
      * apply DPart_frac; try done. by apply has_value_iff.
Qed.

Lemma unit_pos u k : (u, Z.of_N k) ∈ duration_units → 0 < k.
Proof. intros H. destruct (unit_facts _ _ H) as (_ & Hk & _). lia. Qed.
Lemma div_limit v k : 0 < k → (2 ^ 63 / k <? v) = (2 ^ 63 <? v * k).
Proof.
  intros Hk. destruct (N.ltb_spec (2 ^ 63 / k) v) as [H|H]; symmetry.
  - apply N.ltb_lt. apply N.lt_nge. intros H'. rewrite N.mul_comm in H'. apply (N.div_le_lower_bound (2 ^ 63) k v) in H'; lia.
  - apply N.ltb_ge. pose proof (N.mul_div_le (2 ^ 63) k). nia.
Qed.

Lemma part_complete frac p v r : DurationPart frac p v → v <= 2 ^ 63 → nstart r = true → duration_part frac (p +:+ r) = Some (v, r).
Proof.
  intros (ds & pt & fs & u & k & (H1 & H2 & H3 & H4 & H5) & -> & ->)%part_shape Hv Hr.
  destruct (unit_facts _ _ H5) as (U1 & _ & U3 & U4 & U5 & _). rewrite N2Z.id in U1. pose proof (unit_pos _ _ H5) as Hk.
  unfold worth in *. assert (Hds : dv 0 ds <= 2 ^ 63) by nia.
  set (rest := pt +:+ fs +:+ u +:+ r).
  assert (Eall : (ds +:+ pt +:+ fs +:+ u) +:+ r = ds +:+ rest) by (unfold rest; by rewrite !app_assoc_s). rewrite Eall. clear Eall.
  assert (L : leading_int 0 (ds +:+ rest) = Some (dv 0 ds, rest)).
  { apply leading_int_digits; [done|done|]. intros c r'. unfold rest. destruct H4 as [[-> ->]| ->].
    - change ("" +:+ "" +:+ u +:+ r) with (u +:+ r). destruct u as [|d u]; [done|]. intros [= <- _]. by apply (U5 d u).
    - by intros [= <- _]. }
  assert (N0 : ∃ c t, ds +:+ rest = String c t ∧ number_char c = true).
  { destruct ds as [|c ds].
    - destruct H4 as [[-> ->]| ->]; [by destruct H3|]. by eexists _, _.
    - exists c, (ds +:+ rest). split; [done|]. unfold number_char. cbn [all_digits] in H1. by apply andb_true_iff in H1 as [-> _]. }
  destruct N0 as (c & t & Et & Hc). unfold duration_part. rewrite Et. rewrite Hc. rewrite <-Et, L. cbv zeta.
  assert (P : match rest with String d r' => if Ascii.eqb d "." then span is_digit r' else ("", rest) | "" => ("", rest) end = (fs, u +:+ r)).
  { unfold rest. destruct H4 as [[-> ->]| ->].
    - change ("" +:+ "" +:+ u +:+ r) with (u +:+ r). destruct u as [|d u]; [done|]. change (String d u +:+ r) with (String d (u +:+ r)).
      cbv iota beta. by rewrite (proj2 (U5 d u eq_refl)).
    - change ("." +:+ fs +:+ u +:+ r) with (String "." (fs +:+ u +:+ r)). cbv iota beta. change (Ascii.eqb "." ".") with true. cbv iota.
      apply span_ok; [by rewrite <-digits_forallb|]. intros d r'. destruct u as [|e u]; [done|]. intros [= <- _]. by apply (U5 e u). }
  rewrite P. assert (Q : negb (String.eqb rest (ds +:+ rest)) || negb (String.eqb fs "") = true).
  { rewrite string_app_ne; [|unfold rest; destruct H4 as [[-> ->]| ->]; [by destruct u|done]].
    destruct H3 as [H3|H3]; apply String.eqb_neq in H3; rewrite H3; [done|]. by rewrite orb_true_r. }
  rewrite Q. rewrite (span_ok _ u r U4); [|intros d r' ->; apply num_neg; exact Hr].
  rewrite U1, (div_limit _ _ Hk). destruct (N.ltb_spec (2 ^ 63) (dv 0 ds * k)) as [H|_]; [nia|].
  destruct (N.ltb_spec (2 ^ 63) (dv 0 ds * k + (if String.eqb fs "" then 0 else frac fs k))) as [H|_]; [lia|done].
Qed.

Lemma part_sound frac s v r : duration_part frac s = Some (v, r) →
  ∃ p, s = p +:+ r ∧ DurationPart frac p v ∧ v <= 2 ^ 63 ∧ nstart r = true.
Proof.
  unfold duration_part. destruct s as [|c s0] eqn:Es; [done|]. rewrite <-Es. clear Es. destruct (number_char c); [|done].
  destruct (leading_int 0 s) as [[n rest]|] eqn:L; [|done]. apply leading_int_inv in L as (ds & -> & Hd & -> & Hr). cbv zeta.
  destruct (match rest with String d r' => if Ascii.eqb d "." then span is_digit r' else ("", rest) | "" => ("", rest) end) as [fs rest2] eqn:P.
  assert (S : ∃ pt, rest = pt +:+ fs +:+ rest2 ∧ all_digits fs = true ∧ (pt = "" ∧ fs = "" ∨ pt = ".")).
  { destruct rest as [|d r']; [injection P as <- <-; exists ""; split; [done|]; split; [done|by left]|].
    destruct (Ascii.eqb_spec d ".") as [->|_].
    - apply span_inv in P as (-> & H1 & _). exists ".". split; [done|]. split; [by rewrite digits_forallb|by right].
    - injection P as <- <-. exists "". split; [done|]. split; [done|by left]. }
  destruct S as (pt & -> & Hf & Hpt). clear P.
  destruct (negb (String.eqb (pt +:+ fs +:+ rest2) (ds +:+ pt +:+ fs +:+ rest2)) || negb (String.eqb fs "")) eqn:Q; [|done].
  destruct (span (λ c, negb (number_char c)) rest2) as [u r3] eqn:U. apply span_inv in U as (-> & Hu & Hn).
  destruct (unit_of u) as [k|] eqn:Ek; [|done]. apply unit_of_iff in Ek. pose proof (unit_pos _ _ Ek) as Hk.
  rewrite (div_limit _ _ Hk). destruct (N.ltb_spec (2 ^ 63) (dv 0 ds * k)); [done|].
  destruct (N.ltb_spec (2 ^ 63) (dv 0 ds * k + (if String.eqb fs "" then 0 else frac fs k))); [done|]. intros [= <- <-].
  exists (ds +:+ pt +:+ fs +:+ u). split; [by rewrite !app_assoc_s|]. split; [|split; [done|]].
  - apply part_shape. exists ds, pt, fs, u, k. split; [|done]. split_and!; try done.
    apply orb_true_iff in Q as [Q|Q].
    + left. intros ->. by rewrite String.eqb_refl in Q.
    + right. intros ->. done.
  - destruct r3 as [|d r3]; [done|]. apply num_neg. by apply (Hn d r3).
Qed.

Lemma part_start frac p v : DurationPart frac p v → ∃ c t, p = String c t ∧ number_char c = true ∧ t ≠ "".
Proof.
  intros (ds & pt & fs & u & k & (H1 & H2 & H3 & H4 & H5) & -> & ->)%part_shape.
  destruct (unit_facts _ _ H5) as (_ & _ & U3 & _). destruct ds as [|c ds].
  - destruct H4 as [[-> ->]| ->]; [by destruct H3|]. eexists _, _. split; [reflexivity|]. split; [done|]. by destruct fs.
  - exists c, (ds +:+ pt +:+ fs +:+ u). split; [done|]. split.
    + unfold number_char. cbn [all_digits] in H1. by apply andb_true_iff in H1 as [-> _].
    + destruct ds; [|done]. destruct pt; [|done]. destruct fs; [|done]. done.
Qed.
Lemma parts_start frac s v : DurationParts frac s v → ∃ c t, s = String c t ∧ number_char c = true ∧ t ≠ "".
Proof.
  destruct 1 as [p v H|p v s w H _]; destruct (part_start _ _ _ H) as (c & t & -> & Hc & Ht); [eauto|].
  exists c, (t +:+ s). split; [done|]. split; [done|]. by destruct t.
Qed.

Lemma parts_complete frac s v : DurationParts frac s v → ∀ fuel d, (String.length s <= fuel)%nat → d + v <= 2 ^ 63 →
  duration_parts frac fuel d s = Some (d + v).
Proof.
  induction 1 as [p v H|p v s w H Hs IH]; intros fuel d Hf Hd.
  - destruct (part_start _ _ _ H) as (c & t & E & _). destruct fuel as [|fuel]; [rewrite E in Hf; cbn in Hf; lia|].
    pose proof (part_complete frac p v "" H ltac:(lia) eq_refl) as Hp. rewrite app_nil_r_s in Hp.
    rewrite E in *. cbn [duration_parts]. rewrite Hp. destruct (N.ltb_spec (2 ^ 63) (d + v)); [lia|]. by destruct fuel.
  - destruct (part_start _ _ _ H) as (c & t & E & _). destruct fuel as [|fuel].
    { rewrite app_length_s, E in Hf. cbn in Hf. lia. }
    assert (Hn : nstart s = true) by (destruct (parts_start _ _ _ Hs) as (e & t' & -> & He & _); exact He).
    pose proof (part_complete frac p v s H ltac:(lia) Hn) as Hp. rewrite app_length_s, E in Hf. cbn [String.length] in Hf.
    rewrite E in *. change (String c t +:+ s) with (String c (t +:+ s)) in *. cbn [duration_parts]. rewrite Hp.
    destruct (N.ltb_spec (2 ^ 63) (d + v)); [lia|]. rewrite IH; [f_equal; lia|lia|lia].
Qed.
Lemma parts_sound frac fuel d s n : s ≠ "" → duration_parts frac fuel d s = Some n →
  ∃ v, DurationParts frac s v ∧ n = d + v ∧ n <= 2 ^ 63.
Proof.
  revert d s. induction fuel as [|fuel IH]; intros d s Hne H; destruct s as [|c s]; [done|done|done|].
  cbn [duration_parts] in H. destruct (duration_part frac (String c s)) as [[v r]|] eqn:E; [|done].
  apply part_sound in E as (p & E & Hp & Hv & Hr). destruct (N.ltb_spec (2 ^ 63) (d + v)); [done|].
  destruct r as [|e r].
  - rewrite app_nil_r_s in E. rewrite E. exists v. split; [by constructor|]. assert (Some (d + v) = Some n) as [= <-] by (by destruct fuel). done.
  - apply IH in H as (w & Hw & -> & Hle); [|done]. rewrite E. exists (v + w). split; [by apply DParts_cons|]. split; lia.
Qed.

Lemma parse_body frac s n : s ≠ "" → (s = "0" ∧ n = 0 ∨ DurationParts frac s n) → n <= 2 ^ 63 →
  (if String.eqb s "0" then Some 0 else duration_parts frac (String.length s) 0 s) = Some n.
Proof.
  intros Hne H Hn. destruct (String.eqb_spec s "0") as [->|H0].
  - destruct H as [[_ ->]|H]; [done|]. destruct (parts_start _ _ _ H) as (c & t & [= <- <-] & _ & Ht). done.
  - destruct H as [[-> _]|H]; [done|]. by rewrite (parts_complete _ _ _ H).
Qed.
(** The part of [parse_duration] after the sign. *)
Definition parse_rest (frac : string → N → N) (neg : bool) (s : string) : option Z :=
  if String.eqb s "0" then Some 0%Z
  else if String.eqb s "" then None
  else match duration_parts frac (String.length s) 0 s with
       | None => None
       | Some d => if neg then Some (- Z.of_N d)%Z
                   else if (2 ^ 63 - 1 <? d) then None else Some (Z.of_N d)
       end.
Lemma parse_rest_iff frac (neg : bool) s z : parse_rest frac neg s = Some z ↔
  FitsInt64 z ∧ ∃ n, (s = "0" ∧ n = 0 ∨ DurationParts frac s n) ∧ z = (if neg then - Z.of_N n else Z.of_N n)%Z.
Proof.
  unfold parse_rest, FitsInt64. split.
  - destruct (String.eqb_spec s "0") as [->|H0].
    { intros [= <-]. split; [lia|]. exists 0. split; [by left|by destruct neg]. }
    destruct (String.eqb_spec s "") as [|Hne]; [done|].
    destruct (duration_parts frac (String.length s) 0 s) as [d|] eqn:E; [|done].
    apply parts_sound in E as (v & Hv & -> & Hle); [|done]. rewrite N.add_0_l in *. destruct neg.
    + intros [= <-]. split; [lia|]. exists v. split; [by right|done].
    + destruct (N.ltb_spec (2 ^ 63 - 1) v); [done|]. intros [= <-]. split; [lia|]. exists v. split; [by right|done].
  - intros (Hz & n & Hn & ->). destruct (String.eqb_spec s "0") as [->|H0].
    + destruct Hn as [[_ ->]|H]; [by destruct neg|]. destruct (parts_start _ _ _ H) as (c & t & [= <- <-] & _ & Ht). done.
    + destruct Hn as [[-> _]|Hn]; [done|]. destruct (parts_start _ _ _ Hn) as (c & t & E & _).
      destruct (String.eqb_spec s "") as [->|_]; [done|].
      rewrite (parts_complete _ _ _ Hn); [|done|destruct neg; lia]. rewrite N.add_0_l. destruct neg; [done|].
      destruct (N.ltb_spec (2 ^ 63 - 1) n); [lia|done].
Qed.
Lemma parse_duration_split frac s : parse_duration frac s =
  match s with
  | String c s' => if Ascii.eqb c "-" then parse_rest frac true s' else if Ascii.eqb c "+" then parse_rest frac false s' else parse_rest frac false s
  | "" => None
  end.
Proof.
  unfold parse_duration, parse_rest. destruct s as [|c s]; [done|]. destruct (Ascii.eqb c "-"); [done|]. by destruct (Ascii.eqb c "+").
Qed.
Lemma body_start frac t n : t = "0" ∧ n = 0 ∨ DurationParts frac t n → ∃ c t', t = String c t' ∧ Ascii.eqb c "-" = false ∧ Ascii.eqb c "+" = false.
Proof.
  intros [[-> _]|H]; [by eexists _, _|]. destruct (parts_start _ _ _ H) as (c & t' & -> & Hc & _). exists c, t'. split; [done|].
  destruct (Ascii.eqb_spec c "-") as [->|_]; [done|]. by destruct (Ascii.eqb_spec c "+") as [->|_].
Qed.
Lemma parse_duration_iff frac s z : parse_duration frac s = Some z ↔ DurationText frac s z ∧ FitsInt64 z.
Proof.
  rewrite parse_duration_split. unfold DurationText. split.
  - destruct s as [|c s]; [done|]. destruct (Ascii.eqb_spec c "-") as [->|Hm]; [|destruct (Ascii.eqb_spec c "+") as [->|Hp]];
      intros (Hf & n & Hn & ->)%parse_rest_iff; (split; [|done]).
    + exists s, n. split; [done|]. by right.
    + exists s, n. split; [done|]. left. split; [by right|done].
    + exists (String c s), n. split; [done|]. left. split; [by left|done].
  - intros [(t & n & Hn & Hs) Hf]. destruct (body_start _ _ _ Hn) as (c & t' & E & Hm & Hp).
    destruct Hs as [[[->| ->] ->]|[-> ->]].
    + rewrite E, Hm, Hp, <-E. apply parse_rest_iff. eauto.
    + change ("+" +:+ t) with (String "+" t). cbn -[parse_rest]. apply parse_rest_iff. eauto.
    + change ("-" +:+ t) with (String "-" t). cbn -[parse_rest]. apply parse_rest_iff. eauto.
Qed.

Lemma has_unit_iff s : has_unit_char s = true ↔ HasUnitLetter s.
Proof.
  unfold has_unit_char, HasUnitLetter. rewrite existsb_exists. split.
  - intros (c & H1 & H2). exists c. split; [by apply elem_of_list_In|]. apply existsb_exists in H2 as (d & H3 & H4).
    apply Ascii.eqb_eq in H4 as ->. by apply elem_of_list_In.
  - intros (c & H1 & H2). exists c. split; [by apply elem_of_list_In|]. apply existsb_exists. exists c.
    split; [by apply elem_of_list_In|apply Ascii.eqb_refl].
Qed.
Lemma idle_exact frac env s t : env "OM_REDIS_POOL_IDLE_TIMEOUT" = Some s → s ≠ "" → WithUnit s t →
  (∀ z, DurationText frac t z → FitsInt64 z → idle_timeout frac env = z) ∧
  ((∀ z, DurationText frac t z → ¬ FitsInt64 z) → idle_timeout frac env = 0%Z).
Proof.
  intros He Hne Ht. assert (E : idle_timeout frac env = match parse_duration frac t with Some d => d | None => 0%Z end).
  { unfold idle_timeout. rewrite (proj2 (env_value_some _ _ _) (conj He Hne)). unfold to_duration. f_equal.
    destruct Ht as [[Hu ->]|[Hu ->]]; [by rewrite (proj2 (has_unit_iff s) Hu)|].
    destruct (has_unit_char s) eqn:E; [|done]. by apply has_unit_iff in E. }
  rewrite E. split.
  - intros z H1 H2. by rewrite (proj2 (parse_duration_iff frac t z) (conj H1 H2)).
  - intros H. destruct (parse_duration frac t) as [z|] eqn:Ez; [|done]. apply parse_duration_iff in Ez as [H1 H2]. by destruct (H z).
Qed.
Lemma idle_default frac env : NotGiven env "OM_REDIS_POOL_IDLE_TIMEOUT" → idle_timeout frac env = 0%Z.
Proof. intros [H|H]; unfold idle_timeout, env_value; by rewrite H. Qed.

(** Waits. *)
Lemma wait_exact d : (0 <= d → waits_for d = d)%Z ∧ (d <= 0 → waits_for d = 0)%Z.
Proof. unfold waits_for. lia. Qed.
