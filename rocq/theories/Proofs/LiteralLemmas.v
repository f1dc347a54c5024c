(** What strconv.ParseInt with base 0 reads: the integer literals of Go. *)
From Coq Require Import Ascii String ZArith NArith Lia.
From stdpp Require Import prelude strings.
From Verif.Model Require Import GoStrings ParseBase0.
From Verif.Spec Require Import IdTimeSpec.
From Verif.Proofs Require Import StringLemmas WatchLemmas IdTimeLemmas.
Local Open Scope string_scope.
Local Open Scope N_scope.

(** What may follow when the number read so far is [a]. *)
Inductive tail (b : N) : string → N → N → Prop :=
| tail_nil a : tail b "" a a
| tail_digit c v s a n : v < b → DigitVal c v → tail b s (a * b + v) n → tail b (String c s) a n
| tail_under c v s a n : v < b → DigitVal c v → tail b s (a * b + v) n → tail b (String "_" (String c s)) a n.

Lemma string_app_assoc (a b c : string) : (a +:+ b) +:+ c = a +:+ (b +:+ c).
Proof. induction a as [|x a IH]; [done|]. exact (f_equal (String x) IH). Qed.
Lemma string_app_nil (a : string) : a +:+ "" = a.
Proof. induction a as [|x a IH]; [done|]. exact (f_equal (String x) IH). Qed.

Lemma tail_app b s1 s2 a m n : tail b s1 a m → tail b s2 m n → tail b (s1 +:+ s2) a n.
Proof.
  induction 1 as [a|c v s a m Hv Hd _ IH|c v s a m Hv Hd _ IH]; intros H2; [done| |].
  - change (tail b (String c (s +:+ s2)) a n). eapply tail_digit; eauto.
  - change (tail b (String "_" (String c (s +:+ s2))) a n). eapply tail_under; eauto.
Qed.

Lemma digits_tail b s n : Digits b s n → ∃ c v s', s = String c s' ∧ v < b ∧ DigitVal c v ∧ tail b s' v n.
Proof.
  induction 1 as [c v Hv Hd|s n c v _ (c0 & v0 & s' & -> & Hv0 & Hd0 & IH) Hv Hd|s n c v _ (c0 & v0 & s' & -> & Hv0 & Hd0 & IH) Hv Hd].
  - exists c, v, "". do 3 (split; [done|]). constructor.
  - exists c0, v0, (s' +:+ String c ""). do 3 (split; [done|]). eapply tail_app; [done|].
    eapply tail_digit; [done|done|constructor].
  - exists c0, v0, (s' +:+ "_" +:+ String c ""). do 3 (split; [done|]). eapply tail_app; [done|].
    eapply tail_under; [done|done|constructor].
Qed.

Lemma tail_digits b s a n : tail b s a n → ∀ p, Digits b p a → Digits b (p +:+ s) n.
Proof.
  induction 1 as [a|c v s a m Hv Hd _ IH|c v s a m Hv Hd _ IH]; intros p Hp.
  - by rewrite string_app_nil.
  - replace (p +:+ String c s) with ((p +:+ String c "") +:+ s) by (rewrite string_app_assoc; done).
    apply IH. by apply Digits_next.
  - replace (p +:+ String "_" (String c s)) with ((p +:+ "_" +:+ String c "") +:+ s) by (rewrite string_app_assoc; done).
    apply IH. by apply Digits_under.
Qed.

Lemma tail_ge b s a n : 1 <= b → tail b s a n → a <= n.
Proof. intros Hb. induction 1; nia. Qed.

(** ** From literals to the parser *)
Lemma parse_one_more b acc c v s : 2 <= b <= 16 → v < b → DigitVal c v → acc * b + v <= max_u64 →
  parse_digits b acc (String c s) = parse_digits b (acc * b + v) s.
Proof.
  intros Hb Hv Hd Hm. change (String c s) with (String c "" +:+ s). rewrite parse_digits_app.
  by rewrite (parse_one b acc c v).
Qed.
Lemma tail_parse b s a n : 2 <= b <= 16 → tail b s a n → n <= max_u64 → parse_digits b a s = PRok n.
Proof.
  intros Hb. induction 1 as [a|c v s a n Hv Hd Ht IH|c v s a n Hv Hd Ht IH]; intros Hn; [done| |];
    pose proof (tail_ge b s (a * b + v) n ltac:(lia) Ht).
  - rewrite (parse_one_more b a c v) by (done || lia). by apply IH.
  - change (parse_digits b a (String "_" (String c s))) with (parse_digits b a (String c s)).
    rewrite (parse_one_more b a c v) by (done || lia). by apply IH.
Qed.
(** A literal too large is out of range. *)
Lemma tail_range b s a n : 2 <= b <= 16 → tail b s a n → a <= max_u64 → max_u64 < n → parse_digits b a s = PRrange max_u64.
Proof.
  intros Hb. assert (∀ c v s a n, v < b → DigitVal c v → (a * b + v <= max_u64 → max_u64 < n → parse_digits b (a * b + v) s = PRrange max_u64) →
    max_u64 < n → parse_digits b a (String c s) = PRrange max_u64) as Hone.
  { intros c v s1 a1 n1 Hv Hd IH Hn. destruct (N.le_gt_cases (a1 * b + v) max_u64) as [Hle|Hgt].
    - rewrite (parse_one_more b a1 c v) by done. by apply IH.
    - destruct (digit_any_val c v Hd) as (E1 & E2 & _); [lia|]. cbn [parse_digits]. rewrite E1, E2.
      destruct (N.leb_spec b v); [lia|]. destruct (_ <=? a1); [done|]. cbv zeta.
      destruct (N.ltb_spec max_u64 (a1 * b + v)); [done|lia]. }
  induction 1 as [a|c v s a n Hv Hd Ht IH|c v s a n Hv Hd Ht IH]; intros Ha Hn; [lia| |].
  - by apply (Hone c v s a n).
  - change (parse_digits b a (String "_" (String c s))) with (parse_digits b a (String c s)). by apply (Hone c v s a n).
Qed.

Definition hex_of (b : N) : bool := b =? 16.
Lemma digit_in_loop b c v : (b <= 10 ∨ b = 16) → v < b → DigitVal c v →
  is_digit c || (hex_of b && ((97 <=? lower_bit c) && (lower_bit c <=? 102)))%N = true.
Proof.
  intros Hb Hv Hd. destruct (N.le_gt_cases v 9) as [H9|H9].
  - destruct (digit_any_val c v Hd) as (_ & _ & _ & E); [lia|]. by rewrite (proj1 (E H9)).
  - destruct Hb as [Hb| ->]; [lia|]. change (hex_of 16) with true.
    pose proof (digit_cases c v Hd Hv) as Hc.
    assert (v = 10 ∨ v = 11 ∨ v = 12 ∨ v = 13 ∨ v = 14 ∨ v = 15) as Hcase by lia.
    destruct Hc as [[-> Hc]|[[-> Hc]|[-> Hc]]]; [lia| |];
      repeat (destruct Hcase as [Hcase|Hcase]; [subst v; reflexivity|]); subst v; reflexivity.
Qed.
Lemma tail_spaced b s a n : (b <= 10 ∨ b = 16) → tail b s a n → underscore_loop (hex_of b) PvDigit s = true.
Proof.
  intros Hb. induction 1 as [a|c v s a n Hv Hd Ht IH|c v s a n Hv Hd Ht IH]; [done| |].
  - cbn [underscore_loop]. by rewrite (digit_in_loop b c v).
  - cbn [underscore_loop]. change (is_digit "_") with false. change (Ascii.eqb "_" "_") with true.
    change (97 <=? lower_bit "_") with true. change (lower_bit "_" <=? 102) with false.
    rewrite andb_false_r. change (false || false) with false. cbv iota.
    by rewrite (digit_in_loop b c v).
Qed.

(** ** From the parser to literals *)
Lemma digit_val_of c v b : 2 <= b <= 16 → digit_any c = Some v → (b <=? v) = false → v < b ∧ DigitVal c v.
Proof.
  intros Hb E Hv. apply N.leb_gt in Hv. split; [done|].
  unfold digit_any in E. destruct (is_digit c) eqn:Ed.
  - injection E as <-. left. unfold is_digit in Ed. apply andb_true_iff in Ed as [E1 E2].
    apply N.leb_le in E1, E2. unfold digit_val. lia.
  - destruct (_ && _) eqn:El in E; [|done]. injection E as <-. apply andb_true_iff in El as [E1 E2].
    apply N.leb_le in E1, E2. right. split; [lia|].
    destruct c as [[] [] [] [] [] [] [] []]; vm_compute in E1, E2, Ed, Hv |- *; try done;
      first [exfalso; lia | left; reflexivity | right; reflexivity].
Qed.

Lemma digit_not_underscore c v : v < 16 → DigitVal c v → c ≠ "_"%char.
Proof. intros Hv Hd ->. destruct (digit_any_val "_" v Hd Hv) as (_ & E & _). discriminate E. Qed.

Lemma loop_digit b i c v s : (b <= 10 ∨ b = 16) → v < b → DigitVal c v →
  underscore_loop (hex_of b) i (String c s) = underscore_loop (hex_of b) PvDigit s.
Proof. intros Hb Hv Hd. cbn [underscore_loop]. by rewrite (digit_in_loop b c v). Qed.
Lemma loop_under h i s : underscore_loop h i (String "_" s) =
  match i with PvDigit => underscore_loop h PvUnder s | _ => false end.
Proof. destruct h; reflexivity. Qed.

Lemma parse_digit_inv b a c s n : 2 <= b <= 16 → Ascii.eqb c "_" = false → parse_digits b a (String c s) = PRok n →
  ∃ v, v < b ∧ DigitVal c v ∧ parse_digits b (a * b + v) s = PRok n ∧ a * b + v <= max_u64.
Proof.
  intros Hb Hc E. cbn [parse_digits] in E. rewrite Hc in E.
  destruct (digit_any c) as [v|] eqn:Ev; [|done]. destruct (b <=? v) eqn:Eb; [done|].
  destruct (_ <=? a); [done|]. cbv zeta in E. destruct (N.ltb_spec max_u64 (a * b + v)); [done|].
  destruct (digit_val_of c v b Hb Ev Eb) as [Hv Hd]. by exists v.
Qed.

Lemma parse_tail b s : 2 <= b <= 16 → (b <= 10 ∨ b = 16) → ∀ a n, parse_digits b a s = PRok n →
  (has_underscore s = false ∨ underscore_loop (hex_of b) PvDigit s = true → tail b s a n) ∧
  (underscore_loop (hex_of b) PvUnder s = true → tail b (String "_" s) a n).
Proof.
  intros Hb Hb'. induction s as [|c s IH]; intros a n E.
  - injection E as <-. split; [intros _; constructor|done].
  - destruct (Ascii.eqb_spec c "_") as [-> |Hc].
    + destruct (IH a n E) as [_ IH2]. split; [|rewrite loop_under; done].
      rewrite loop_under. intros [Hf|Hl]; [discriminate Hf|]. by apply IH2.
    + apply Ascii.eqb_neq in Hc. destruct (parse_digit_inv b a c s n Hb Hc E) as (v & Hv & Hd & E' & _).
      destruct (IH _ _ E') as [IH1 _]. split; rewrite (loop_digit b _ c v) by done.
      * cbn [has_underscore]. rewrite Hc. intros H. eapply tail_digit; [done|done|]. by apply IH1.
      * intros H. eapply tail_under; [done|done|]. apply IH1. by right.
Qed.

Lemma parse_le b s : ∀ a n, 2 <= b <= 16 → a <= max_u64 → parse_digits b a s = PRok n → n <= max_u64.
Proof.
  induction s as [|c s IH]; intros a n Hb Ha E; [by injection E as <-|].
  destruct (Ascii.eqb_spec c "_") as [-> |Hc]; [by apply (IH a n)|].
  apply Ascii.eqb_neq in Hc. destruct (parse_digit_inv b a c s n Hb Hc E) as (v & _ & _ & E' & Hle). by apply (IH _ n Hb Hle).
Qed.

(** ** The shape of a literal *)
Lemma tail_first b c s n : tail b (String c s) 0 n → c ≠ "_"%char → Digits b (String c s) n.
Proof.
  intros H Hc. inversion H as [|c' v s' a n' Hv Hd Ht|]; subst; [|done].
  apply (tail_digits b s v n) with (p := String c ""); [|by apply Digits_one].
  replace v with (0 * b + v) by lia. done.
Qed.
Lemma tail_open b s n : tail b s 0 n → s ≠ "" → ∃ u s', MayUnderscore u ∧ s = u +:+ s' ∧ Digits b s' n.
Proof.
  intros H Hs. inversion H as [|c v s' a n' Hv Hd Ht|c v s' a n' Hv Hd Ht]; subst; [done| |].
  - exists "", (String c s'). split; [by left|]. split; [done|].
    apply (tail_digits b s' v n) with (p := String c ""); [|by apply Digits_one].
    replace v with (0 * b + v) by lia. done.
  - exists "_", (String c s'). split; [by right|]. split; [done|].
    apply (tail_digits b s' v n) with (p := String c ""); [|by apply Digits_one].
    replace v with (0 * b + v) by lia. done.
Qed.
Lemma open_tail b u s n : MayUnderscore u → Digits b s n → tail b (u +:+ s) 0 n.
Proof.
  intros Hu H. apply digits_tail in H as (c & v & s' & -> & Hv & Hd & Ht).
  replace v with (0 * b + v) in Ht by lia. destruct Hu as [-> | ->].
  - by apply (tail_digit b c v).
  - by apply (tail_under b c v).
Qed.

Lemma lower_98 c : (lower_bit c =? 98) = true → c = "b"%char ∨ c = "B"%char.
Proof. destruct c as [[] [] [] [] [] [] [] []]; intros H; vm_compute in H; try discriminate H; (left; reflexivity) || (right; reflexivity). Qed.
Lemma lower_111 c : (lower_bit c =? 111) = true → c = "o"%char ∨ c = "O"%char.
Proof. destruct c as [[] [] [] [] [] [] [] []]; intros H; vm_compute in H; try discriminate H; (left; reflexivity) || (right; reflexivity). Qed.
Lemma lower_120 c : (lower_bit c =? 120) = true → c = "x"%char ∨ c = "X"%char.
Proof. destruct c as [[] [] [] [] [] [] [] []]; intros H; vm_compute in H; try discriminate H; (left; reflexivity) || (right; reflexivity). Qed.

(** The five shapes of a string for the parser. *)
Inductive shape : string → N → string → Prop :=
| shape_decimal c s : c ≠ "0"%char → shape (String c s) 10 (String c s)
| shape_octal s : (∀ x s', s = String x s' → (lower_bit x =? 98) = false ∧ (lower_bit x =? 111) = false ∧ (lower_bit x =? 120) = false) →
    shape (String "0" s) 8 s
| shape_prefix pre b y s : LiteralPrefix pre b → shape (pre +:+ String y s) b (String y s)
| shape_short x : (lower_bit x =? 98) = true ∨ (lower_bit x =? 111) = true ∨ (lower_bit x =? 120) = true →
    shape (String "0" (String x "")) 8 (String x "").

Lemma shape_of s : s ≠ "" → shape s (base_prefix s).1 (base_prefix s).2.
Proof.
  destruct s as [|c s1]; [done|]. intros _. cbn [base_prefix].
  destruct (Ascii.eqb_spec c "0") as [-> |Hc]; [|by apply shape_decimal].
  destruct s1 as [|x [|y s3]].
  - apply shape_octal. done.
  - destruct (lower_bit x =? 98) eqn:E1; [apply shape_short; by left|].
    destruct (lower_bit x =? 111) eqn:E2; [apply shape_short; by right; left|].
    destruct (lower_bit x =? 120) eqn:E3; [apply shape_short; by right; right|].
    apply shape_octal. intros x' s' E. inversion E; subst. done.
  - destruct (lower_bit x =? 98) eqn:E1.
    { apply lower_98 in E1 as [-> | ->].
      - apply (shape_prefix "0b"). left. split; [done|by left].
      - apply (shape_prefix "0B"). left. split; [done|by right]. }
    destruct (lower_bit x =? 111) eqn:E2.
    { apply lower_111 in E2 as [-> | ->].
      - apply (shape_prefix "0o"). right; left. split; [done|by left].
      - apply (shape_prefix "0O"). right; left. split; [done|by right]. }
    destruct (lower_bit x =? 120) eqn:E3.
    { apply lower_120 in E3 as [-> | ->].
      - apply (shape_prefix "0x"). right; right. split; [done|by left].
      - apply (shape_prefix "0X"). right; right. split; [done|by right]. }
    apply shape_octal. intros x' s' E. inversion E; subst. done.
Qed.

Lemma shape_base s b r : shape s b r → (2 <= b <= 16) ∧ (b <= 10 ∨ b = 16).
Proof. destruct 1 as [| |pre b y s Hp|]; [lia|lia| |lia]. destruct Hp as [[-> _]|[[-> _]|[-> _]]]; lia. Qed.

(** A literal by its shape. *)
Definition by_shape (s : string) (b : N) (r : string) (n : N) : Prop :=
  tail b r 0 n ∧ (b = 10 → ∀ q, r ≠ String "_" q).

Lemma octal_no_letter c v : v < 8 → DigitVal c v →
  (lower_bit c =? 98) = false ∧ (lower_bit c =? 111) = false ∧ (lower_bit c =? 120) = false.
Proof.
  intros Hv Hd. destruct (digit_cases c v Hd ltac:(lia)) as [[-> _]|[[_ H]|[_ H]]]; [|lia|lia].
  assert (v = 0 ∨ v = 1 ∨ v = 2 ∨ v = 3 ∨ v = 4 ∨ v = 5 ∨ v = 6 ∨ v = 7) as Hcase by lia.
  repeat (destruct Hcase as [-> |Hcase]; [repeat split; reflexivity|]). subst v. repeat split; reflexivity.
Qed.

Lemma literal_shape s n : GoLiteral s n ↔ ∃ b r, shape s b r ∧ by_shape s b r n.
Proof.
  split.
  - destruct 1 as [|s n Hd Hz|u s n Hd Hu|pre b u s n Hp Hd Hu].
    + exists 8, "". split; [by apply (shape_octal "")|]. split; [constructor|done].
    + pose proof (digits_tail _ _ _ Hd) as (c & v & s' & -> & Hv & Hdc & Ht).
      exists 10, (String c s'). split.
      { apply shape_decimal. intros ->. apply Hz. by exists s'. }
      split; [apply (open_tail 10 "" _ n); [by left|done]|].
      intros _ q E. inversion E; subst. exact (digit_not_underscore _ v ltac:(lia) Hdc eq_refl).
    + exists 8, (u +:+ s). split; [|split; [by apply open_tail|done]].
      pose proof (digits_tail _ _ _ Hd) as (c & v & s' & -> & Hv & Hdc & Ht).
      apply (shape_octal (u +:+ String c s')). intros x q E. destruct Hu as [-> | ->].
      * inversion E; subst. by apply (octal_no_letter x v).
      * inversion E; subst. done.
    + exists b, (u +:+ s). pose proof (digits_tail _ _ _ Hd) as (c & v & s' & -> & Hv & Hdc & Ht).
      split.
      { destruct Hu as [-> | ->]; [apply (shape_prefix pre b c s' Hp)|apply (shape_prefix pre b "_" (String c s') Hp)]. }
      split; [by apply open_tail|]. intros ->. destruct Hp as [[? _]|[[? _]|[? _]]]; lia.
  - intros (b & r & Hs & Ht & Hq). destruct Hs as [c s Hc|s Hx|pre b y s Hp|x Hx].
    + apply GoLiteral_decimal.
      * apply tail_first; [done|]. intros ->. by apply (Hq eq_refl s).
      * intros [q E]. inversion E; subst. done.
    + destruct s as [|x s].
      { inversion Ht; subst. apply GoLiteral_zero. }
      apply tail_open in Ht as (u & s' & Hu & E & Hd); [|done]. rewrite E.
      by apply (GoLiteral_octal u s' n).
    + apply tail_open in Ht as (u & s' & Hu & E & Hd); [|done]. rewrite E. by apply (GoLiteral_prefix pre b u s').
    + exfalso. inversion Ht as [|c v s' a n' Hv Hd Ht'|]; subst.
      destruct (octal_no_letter x v Hv Hd) as (E1 & E2 & E3). destruct Hx as [Hx|[Hx|Hx]]; congruence.
Qed.

(** ** The parser by shapes *)
Lemma under_ok_shape s b r n : shape s b r → parse_digits b 0 r = PRok n →
  (has_underscore r = true → underscore_ok s = true) ↔ by_shape s b r n.
Proof.
  intros Hs Hp. destruct (shape_base s b r Hs) as [Hb Hb'].
  destruct Hs as [c s Hc|s Hx|pre b y s Hpre|x Hx].
  - assert (underscore_ok (String c s) = underscore_loop false PvStart (String c s)) as ->.
    { unfold underscore_ok. destruct s as [|x s]; [done|]. apply Ascii.eqb_neq in Hc. by rewrite Hc. }
    destruct (Ascii.eqb_spec c "_") as [-> |Hu].
    + split; [intros H; specialize (H eq_refl); discriminate H|]. intros [_ H]. by destruct (H eq_refl s).
    + apply Ascii.eqb_neq in Hu. destruct (parse_digit_inv 10 0 c s n Hb Hu Hp) as (v & Hv & Hd & E & _).
      change false with (hex_of 10). rewrite (loop_digit 10 PvStart c v) by done.
      assert (has_underscore (String c s) = has_underscore s) as -> by (cbn [has_underscore]; by rewrite Hu).
      split.
      * intros H. split; [|intros _ q Eq; inversion Eq; subst; discriminate Hu].
        eapply tail_digit; [done|done|]. apply (parse_tail 10 s Hb Hb' _ _ E).
        destruct (has_underscore s); [right; by apply H|by left].
      * intros [H _] _. inversion H as [|c' v' s' a n' Hv' Hd' Ht|]; subst; [|discriminate Hu].
        by eapply (tail_spaced 10).
  - assert (underscore_ok (String "0" s) = underscore_loop false PvDigit s) as ->.
    { unfold underscore_ok. destruct s as [|x s]; [done|]. destruct (Hx x s eq_refl) as (E1 & E2 & E3).
      rewrite E1, E2, E3. reflexivity. }
    change false with (hex_of 8). split.
    + intros H. split; [|done]. apply (parse_tail 8 s Hb Hb' _ _ Hp). destruct (has_underscore s); [right; by apply H|by left].
    + intros [H _] _. by eapply (tail_spaced 8).
  - assert (underscore_ok (pre +:+ String y s) = underscore_loop (hex_of b) PvDigit (String y s)) as ->.
    { destruct Hpre as [[-> [-> | ->]]|[[-> [-> | ->]]|[-> [-> | ->]]]]; reflexivity. }
    split.
    + intros H. split; [|intros ->; destruct Hpre as [[? _]|[[? _]|[? _]]]; lia].
      apply (parse_tail b _ Hb Hb' _ _ Hp). destruct (has_underscore (String y s)); [right; by apply H|by left].
    + intros [H _] _. by eapply (tail_spaced b).
  - exfalso. assert (Ascii.eqb x "_" = false) as Hu.
    { apply Ascii.eqb_neq. intros ->. destruct Hx as [Hx|[Hx|Hx]]; discriminate Hx. }
    destruct (parse_digit_inv 8 0 x "" n Hb Hu Hp) as (v & Hv & Hd & _).
    destruct (octal_no_letter x v Hv Hd) as (E1 & E2 & E3). destruct Hx as [Hx|[Hx|Hx]]; congruence.
Qed.

Lemma shape_unique s b r : shape s b r → base_prefix s = (b, r).
Proof.
  destruct 1 as [c s Hc|s Hx|pre b y s Hpre|x Hx].
  - cbn [base_prefix]. apply Ascii.eqb_neq in Hc. by rewrite Hc.
  - cbn [base_prefix]. change (Ascii.eqb "0" "0") with true. cbv iota.
    destruct s as [|x [|y s]]; [done|done|]. destruct (Hx x _ eq_refl) as (E1 & E2 & E3). by rewrite E1, E2, E3.
  - destruct Hpre as [[-> [-> | ->]]|[[-> [-> | ->]]|[-> [-> | ->]]]]; reflexivity.
  - reflexivity.
Qed.

Lemma parse_uint0_eq s : s ≠ "" → parse_uint0 s =
  match parse_digits (base_prefix s).1 0 (base_prefix s).2 with
  | PRok n => if has_underscore (base_prefix s).2 && negb (underscore_ok s) then PRsyntax else PRok n
  | r => r
  end.
Proof. intros Hs. unfold parse_uint0. destruct s as [|c s]; [done|]. by destruct (base_prefix (String c s)). Qed.

Theorem parse_uint0_literal s n : parse_uint0 s = PRok n ↔ GoLiteral s n ∧ n <= max_u64.
Proof.
  split.
  - intros E. assert (s ≠ "") as Hs by (intros ->; discriminate E). rewrite parse_uint0_eq in E by done.
    pose proof (shape_of s Hs) as Hsh. destruct (base_prefix s) as [b r]. cbn [fst snd] in *.
    destruct (parse_digits b 0 r) as [m| |m] eqn:Ep; [|done|done].
    destruct (has_underscore r && negb (underscore_ok s)) eqn:Eu; [done|]. injection E as ->.
    destruct (shape_base s b r Hsh) as [Hb Hb']. split; [|apply (parse_le b r 0 n Hb); [lia|done]].
    apply literal_shape. exists b, r. split; [done|]. apply (under_ok_shape s b r n Hsh Ep).
    intros Hu. rewrite Hu in Eu. by destruct (underscore_ok s).
  - intros [Hl Hn]. apply literal_shape in Hl as (b & r & Hsh & Ht).
    assert (s ≠ "") as Hs by (intros ->; by apply shape_unique in Hsh as E; inversion Hsh as [| |? ? ? ? Hp Es|]; subst;
      destruct Hp as [[_ [-> | ->]]|[[_ [-> | ->]]|[_ [-> | ->]]]]).
    rewrite parse_uint0_eq by done. rewrite (shape_unique s b r Hsh). cbn [fst snd].
    destruct (shape_base s b r Hsh) as [Hb Hb'].
    assert (parse_digits b 0 r = PRok n) as Ep by (apply tail_parse; [done|apply Ht|done]).
    rewrite Ep. pose proof (proj2 (under_ok_shape s b r n Hsh Ep) Ht) as Hu.
    destruct (has_underscore r); [|done]. by rewrite Hu.
Qed.

Lemma parse_uint0_range s n : GoLiteral s n → max_u64 < n → parse_uint0 s = PRrange max_u64.
Proof.
  intros Hl Hn. apply literal_shape in Hl as (b & r & Hsh & Ht & _).
  destruct (shape_base s b r Hsh) as [Hb Hb'].
  assert (s ≠ "") as Hs by (intros ->; inversion Hsh as [| |? ? ? ? Hp Es|]; subst;
      destruct Hp as [[_ [-> | ->]]|[[_ [-> | ->]]|[_ [-> | ->]]]]; done).
  rewrite parse_uint0_eq by done. rewrite (shape_unique s b r Hsh). cbn [fst snd].
  by rewrite (tail_range b r 0 n Hb Ht) by (done || lia).
Qed.

(** ** Signs *)
Lemma literal_no_sign s n : GoLiteral s n → ∃ c s', s = String c s' ∧ Ascii.eqb c "+" = false ∧ Ascii.eqb c "-" = false.
Proof.
  destruct 1 as [|s n Hd _|u s n _ _|pre b u s n Hp _ _].
  - by exists "0"%char, "".
  - apply digits_tail in Hd as (c & v & s' & -> & Hv & Hd & _). exists c, s'. split; [done|].
    destruct (digit_cases c v Hd ltac:(lia)) as [[-> H9]|[[_ H]|[_ H]]]; [|lia|lia].
    assert (v = 0 ∨ v = 1 ∨ v = 2 ∨ v = 3 ∨ v = 4 ∨ v = 5 ∨ v = 6 ∨ v = 7 ∨ v = 8 ∨ v = 9) as Hcase by lia.
    repeat (destruct Hcase as [-> |Hcase]; [split; reflexivity|]). subst v. split; reflexivity.
  - by exists "0"%char, (u +:+ s).
  - destruct Hp as [[_ [-> | ->]]|[[_ [-> | ->]]|[_ [-> | ->]]]]; eexists "0"%char, _; (split; [reflexivity|done]).
Qed.

Lemma signed_ok neg un z : parse_int_signed (2 ^ 63) neg un = PRok z ↔
  ∃ n, un = PRok n ∧ z = (if neg then - Z.of_N n else Z.of_N n)%Z ∧ InInt64 z ∨
       un = PRrange n ∧ z = (if neg then - Z.of_N n else Z.of_N n)%Z ∧ InInt64 z.
Proof.
  unfold InInt64, parse_int_signed. split.
  - destruct un as [n| |n]; [|done|]; intros E; exists n; [left|right]; (split; [done|]);
      destruct neg; cbn [negb andb] in E;
      repeat match type of E with context [(?a <=? ?b)%Z] => destruct (Z.leb_spec a b) | context [(?a <? ?b)%Z] => destruct (Z.ltb_spec a b) end;
      try done; injection E as <-; (split; [done|]); lia.
  - intros (n & [( -> & -> & Hf)|( -> & -> & Hf)]); destruct neg; cbn [negb andb];
      repeat match goal with |- context [(?a <=? ?b)%Z] => destruct (Z.leb_spec a b) | |- context [(?a <? ?b)%Z] => destruct (Z.ltb_spec a b) end;
      try done; lia.
Qed.

Lemma uint0_range_val s n : parse_uint0 s = PRrange n → n = max_u64.
Proof.
  assert (∀ b r a, parse_digits b a r = PRrange n → n = max_u64) as H.
  { intros b r. induction r as [|c r IH]; intros a E; [done|]. cbn [parse_digits] in E.
    destruct (Ascii.eqb c "_"); [by apply (IH a)|]. destruct (digit_any c) as [d|]; [|done]. destruct (b <=? d); [done|].
    destruct (_ <=? a); [by injection E as <-|]. cbv zeta in E. destruct (_ <? _); [by injection E as <-|]. by apply (IH _ E). }
  intros E. assert (s ≠ "") as Hs by (intros ->; discriminate E). rewrite parse_uint0_eq in E by done.
  destruct (parse_digits _ 0 _) as [m| |m] eqn:Ep; [by destruct (_ && _)|done|]. injection E as ->. by apply (H _ _ _ Ep).
Qed.
Lemma range_no_fit (neg : bool) : ¬ InInt64 (if neg then - Z.of_N max_u64 else Z.of_N max_u64)%Z.
Proof. unfold InInt64. destruct neg; vm_compute; intuition congruence. Qed.

Lemma signed_literal (neg : bool) s z : parse_int_signed (2 ^ 63) neg (parse_uint0 s) = PRok z ↔
  ∃ n, GoLiteral s n ∧ z = (if neg then - Z.of_N n else Z.of_N n)%Z ∧ InInt64 z.
Proof.
  rewrite signed_ok. split.
  - intros (n & [(E & -> & Hf)|(E & -> & Hf)]).
    + apply parse_uint0_literal in E as [Hl _]. by exists n.
    + apply uint0_range_val in E as ->. by apply range_no_fit in Hf.
  - intros (n & Hl & -> & Hf). exists n. left. split; [|done]. apply parse_uint0_literal. split; [done|].
    unfold InInt64 in Hf. change max_u64 with 18446744073709551615. destruct neg; lia.
Qed.

Theorem parse_int0_literal s z : parse_int0 s = PRok z ↔ GoInteger s z ∧ InInt64 z.
Proof.
  split.
  - destruct s as [|c s]; [done|]. cbn [parse_int0].
    destruct (Ascii.eqb_spec c "+") as [-> |Hp]; [|destruct (Ascii.eqb_spec c "-") as [-> |Hm]];
      rewrite signed_literal; intros (n & Hl & -> & Hf); (split; [|done]).
    + by apply (GoInteger_plus s n).
    + by apply (GoInteger_minus s n).
    + by apply GoInteger_plain.
  - intros [Hi Hf]. destruct Hi as [s n Hl|s n Hl|s n Hl].
    + pose proof (literal_no_sign s n Hl) as (c & s' & -> & E1 & E2). cbn [parse_int0]. rewrite E1, E2.
      apply (signed_literal false). by exists n.
    + change (parse_int_signed (2 ^ 63) false (parse_uint0 s) = PRok (Z.of_N n)). apply signed_literal. by exists n.
    + change (parse_int_signed (2 ^ 63) true (parse_uint0 s) = PRok (- Z.of_N n)%Z). apply signed_literal. by exists n.
Qed.

(** ** The value that is used although there was an error *)
Lemma signed_val (neg : bool) s n : GoLiteral s n → Nearest (if neg then - Z.of_N n else Z.of_N n)%Z (parse_val (parse_int_signed (2 ^ 63) neg (parse_uint0 s))).
Proof.
  intros Hl. unfold Nearest, InInt64. destruct (N.le_gt_cases n max_u64) as [Hn|Hn].
  - rewrite (proj2 (parse_uint0_literal s n) (conj Hl Hn)). unfold parse_int_signed.
    destruct neg; cbn [negb andb];
      repeat match goal with |- context [(?a <=? ?b)%Z] => destruct (Z.leb_spec a b) | |- context [(?a <? ?b)%Z] => destruct (Z.ltb_spec a b) end;
      cbn [parse_val]; lia.
  - rewrite (parse_uint0_range s n Hl Hn). unfold parse_int_signed. change max_u64 with 18446744073709551615 in *.
    destruct neg; cbn [negb andb];
      repeat match goal with |- context [(?a <=? ?b)%Z] => destruct (Z.leb_spec a b) | |- context [(?a <? ?b)%Z] => destruct (Z.ltb_spec a b) end;
      cbn [parse_val]; lia.
Qed.
Theorem parse_int0_nearest s z : GoInteger s z → Nearest z (parse_val (parse_int0 s)).
Proof.
  destruct 1 as [s n Hl|s n Hl|s n Hl].
  - pose proof (literal_no_sign s n Hl) as (c & s' & -> & E1 & E2). cbn [parse_int0]. rewrite E1, E2.
    apply (signed_val false _ n Hl).
  - apply (signed_val false _ n Hl).
  - apply (signed_val true _ n Hl).
Qed.
