(** Lemmas for C144: doubles as whole numbers, and rounding. *)
From Coq Require Import ZArith Lia.
From stdpp Require Import prelude.
From Verif.Model Require Import JsonNumber.
Local Open Scope Z_scope.

Definition p52 : Z := 2 ^ 52.
Lemma p52_pos : 0 < p52.
Proof. reflexivity. Qed.
Lemma p53_eq : 2 ^ 53 = 2 * p52.
Proof. reflexivity. Qed.
Lemma pow2_pos e : 0 <= e → 0 < 2 ^ e.
Proof. intros. by apply Z.pow_pos_nonneg. Qed.

(** ** Values *)
(** e * 2^52 + r stands for r * 2^e. *)
Lemma mag_of e r : 0 <= e → 0 <= r <= 2 * p52 → e = 0 ∨ p52 <= r → mag (e * p52 + r) = r * 2 ^ e.
Proof.
  intros He Hr Hor. unfold mag. change (2 ^ 52) with p52. pose proof p52_pos as Hp.
  destruct (decide (r < p52)) as [Hlt|Hge].
  - destruct Hor as [-> |]; [|lia]. rewrite Z.mul_0_l, Z.add_0_l. rewrite Z.div_small, Z.mod_small by lia. cbn. lia.
  - destruct (decide (r = 2 * p52)) as [-> |Hne].
    + replace (e * p52 + 2 * p52) with ((e + 2) * p52) by lia. rewrite Z.div_mul, Z.mod_mul by lia.
      destruct (Z.eqb_spec (e + 2) 0); [lia|]. replace (e + 2 - 1) with (Z.succ e) by lia. rewrite Z.pow_succ_r by lia. lia.
    + assert ((e * p52 + r) / p52 = e + 1) as ->.
      { replace (e * p52 + r) with ((r - p52) + (e + 1) * p52) by lia. rewrite Z.div_add by lia. rewrite Z.div_small by lia. lia. }
      assert ((e * p52 + r) mod p52 = r - p52) as ->.
      { replace (e * p52 + r) with ((r - p52) + (e + 1) * p52) by lia. rewrite Z.mod_add by lia. apply Z.mod_small. lia. }
      destruct (Z.eqb_spec (e + 1) 0); [lia|]. replace (e + 1 - 1) with e by lia. f_equal. lia.
Qed.
(** Every one can be had that way. *)
Lemma bits_split b : 0 <= b → ∃ e r, b = e * p52 + r ∧ 0 <= e ∧ 0 <= r < 2 * p52 ∧ (e = 0 ∨ p52 <= r).
Proof.
  intros Hb. pose proof p52_pos as Hp. pose proof (Z.div_mod b p52 ltac:(lia)) as E. pose proof (Z.mod_pos_bound b p52 Hp) as Hm.
  pose proof (Z.div_pos b p52 Hb Hp) as Hd. destruct (decide (b / p52 = 0)) as [E0|E0].
  - exists 0, (b mod p52). rewrite E0 in E. lia.
  - exists (b / p52 - 1), (p52 + b mod p52). lia.
Qed.
Lemma mag_next b : 0 <= b → mag b < mag (b + 1).
Proof.
  intros Hb. destruct (bits_split b Hb) as (e & r & -> & He & Hr & Hor). rewrite mag_of by lia.
  replace (e * p52 + r + 1) with (e * p52 + (r + 1)) by lia. rewrite mag_of by lia. pose proof (pow2_pos e He). lia.
Qed.
Lemma mag_lt a b : 0 <= a → a < b → mag a < mag b.
Proof.
  intros Ha Hab. replace b with (a + Z.of_nat (Z.to_nat (b - a))) by lia. assert (0 < Z.to_nat (b - a))%nat as Hn by lia.
  revert Hn. generalize (Z.to_nat (b - a)). intros n. induction n as [|n IH]; [lia|]. intros _.
  replace (a + Z.of_nat (S n)) with (a + Z.of_nat n + 1) by lia. destruct n as [|n].
  - rewrite Nat2Z.inj_0, Z.add_0_r. by apply mag_next.
  - specialize (IH ltac:(lia)). pose proof (mag_next (a + Z.of_nat (S n)) ltac:(lia)). lia.
Qed.
Lemma mag_le a b : 0 <= a → a <= b → mag a <= mag b.
Proof. intros Ha Hab. destruct (decide (a = b)) as [-> |]; [lia|]. pose proof (mag_lt a b Ha ltac:(lia)). lia. Qed.
Lemma mag_0 : mag 0 = 0.
Proof. reflexivity. Qed.

(** ** Rounding *)
Lemma half_even_near n d : 0 < d → let r := half_even n d in
  2 * n <= (2 * r + 1) * d ∧ (2 * n = (2 * r + 1) * d → Z.even r = true) ∧
  (2 * r - 1) * d <= 2 * n ∧ (2 * n = (2 * r - 1) * d → Z.even r = true).
Proof.
  intros Hd. unfold half_even. pose proof (Z.div_mod n d ltac:(lia)) as E. pose proof (Z.mod_pos_bound n d Hd) as Hm.
  set (q := n / d) in *. set (r := n mod d) in *. cbn zeta.
  destruct (Z.ltb_spec (2 * r) d); [split_and!; [nia|nia|nia|nia]|].
  destruct (Z.ltb_spec d (2 * r)); [split_and!; [nia|nia|nia|nia]|]. assert (2 * r = d) as Er by lia.
  destruct (Z.even q) eqn:Eq.
  - split_and!; [nia|done|nia|nia].
  - assert (Z.even (q + 1) = true) as Eo by (rewrite Z.even_add, Eq; done). split_and!; [nia|nia|nia|done].
Qed.
Lemma half_even_floor n d : 0 < d → n / d <= half_even n d <= n / d + 1.
Proof. intros Hd. unfold half_even. repeat (case_match; try lia). Qed.

(** Which numbers are rounded to [b]: those between the middles to its neighbours, and the
    middles if [b] is even. *)
Definition Rounds (n d b : Z) : Prop := 0 <= b ∧
  (b = 0 ∨ (mag (b - 1) + mag b) * d < 2 * n ∨ (mag (b - 1) + mag b) * d = 2 * n ∧ Z.even b = true) ∧
  (2 * n < (mag b + mag (b + 1)) * d ∨ 2 * n = (mag b + mag (b + 1)) * d ∧ Z.even b = true).
Lemma even_bits e r : Z.even (e * p52 + r) = Z.even r.
Proof. rewrite Z.even_add, Z.even_mul. change (Z.even p52) with true. rewrite orb_true_r. by destruct (Z.even r). Qed.

Lemma round_rounds n d : 0 <= n → 0 < d → Rounds n d (round_bits n d).
Proof.
  intros Hn Hd. unfold round_bits. change (2 ^ 52) with p52. set (e := Z.max 0 (Z.log2 (n / d) - 52)). assert (0 <= e) as He by lia.
  pose proof (pow2_pos e He) as Hp. assert (0 < d * 2 ^ e) as Hde by nia. pose proof (half_even_near n (d * 2 ^ e) Hde) as Hne. cbn zeta in Hne.
  pose proof (half_even_floor n (d * 2 ^ e) Hde) as Hfl. set (r := half_even n (d * 2 ^ e)) in *.
  pose proof (Z.div_pos n d Hn Hd) as Hq0.
  assert (n / (d * 2 ^ e) = n / d / 2 ^ e) as Edd by (rewrite Z.div_div; lia).
  (* bounds of r *)
  assert (0 <= n / (d * 2 ^ e) < 2 * p52) as Hq.
  { rewrite Edd. split; [apply Z.div_pos; lia|]. apply Z.div_lt_upper_bound; [lia|]. destruct (decide (n / d = 0)) as [E0|E0].
    - rewrite E0. pose proof p52_pos. nia.
    - pose proof (Z.log2_spec (n / d) ltac:(lia)) as [_ Hl]. eapply Z.lt_le_trans; [exact Hl|]. rewrite <- p53_eq, <- Z.pow_add_r by lia.
      apply Z.pow_le_mono_r; lia. }
  assert (e = 0 ∨ 0 < e ∧ p52 * 2 ^ e <= n / d) as Hlow.
  { destruct (decide (e = 0)) as [|E0]; [by left|]. right. split; [lia|]. change p52 with (2 ^ 52). rewrite <- Z.pow_add_r by lia.
    replace (52 + e) with (Z.log2 (n / d)) by lia. apply Z.log2_spec. destruct (decide (n / d = 0)) as [E1|]; [|lia].
    exfalso. apply E0. unfold e. rewrite E1. reflexivity. }
  assert (0 <= r <= 2 * p52) as Hr by lia.
  assert (e = 0 ∨ p52 <= r) as Hor.
  { destruct Hlow as [|[_ Hlow]]; [by left|right]. assert (p52 <= n / (d * 2 ^ e)); [|lia]. rewrite Edd. apply Z.div_le_lower_bound; lia. }
  assert (mag (e * p52 + r) = r * 2 ^ e) as Em by (by apply mag_of).
  split; [pose proof p52_pos; nia|]. rewrite Em, even_bits. destruct Hne as (H1 & H2 & H3 & H4). split.
  - destruct (decide (e = 0)) as [E0|E0].
    + rewrite E0 in *. rewrite Z.mul_0_l, Z.add_0_l in *. rewrite Z.pow_0_r, !Z.mul_1_r in *.
      destruct (decide (r = 0)) as [|Hr0]; [by left|right]. assert (mag (r - 1) = r - 1) as ->.
      { pose proof (mag_of 0 (r - 1) ltac:(lia) ltac:(lia) ltac:(lia)) as E. rewrite Z.pow_0_r, Z.mul_1_r in E. done. }
      assert ((r - 1 + r) * d = (2 * r - 1) * d) as -> by lia. apply Z.le_lteq in H3 as [|H3]; [by left|right]. split; [done|]. by apply H4.
    + right. destruct Hlow as [|[_ Hlow]]; [done|]. destruct Hor as [|Hor]; [done|]. destruct (decide (r = p52)) as [Er|Er].
      * left. replace (e * p52 + r - 1) with ((e - 1) * p52 + (2 * p52 - 1)) by lia. rewrite mag_of by (pose proof p52_pos; lia).
        assert (2 ^ e = 2 * 2 ^ (e - 1)) as E2 by (rewrite <- Z.pow_succ_r by lia; f_equal; lia). pose proof (pow2_pos (e - 1) ltac:(lia)).
        assert (r * 2 ^ e * d <= n) as Hle. { rewrite Er. pose proof (Z.mul_div_le n d Hd). nia. }
        rewrite E2 in *. rewrite Er in *. nia.
      * replace (e * p52 + r - 1) with (e * p52 + (r - 1)) by lia. rewrite mag_of by lia.
        assert (((r - 1) * 2 ^ e + r * 2 ^ e) * d = (2 * r - 1) * (d * 2 ^ e)) as -> by ring.
        apply Z.le_lteq in H3 as [|H3]; [by left|right]. split; [done|]. by apply H4.
  - destruct (decide (r = 2 * p52)) as [Er|Er].
    + left. replace (e * p52 + r + 1) with ((e + 1) * p52 + (p52 + 1)) by lia. rewrite mag_of by (pose proof p52_pos; lia).
      replace (e + 1) with (Z.succ e) by lia. rewrite Z.pow_succ_r by lia. rewrite Er in *. nia.
    + replace (e * p52 + r + 1) with (e * p52 + (r + 1)) by lia. rewrite mag_of by lia.
      assert ((r * 2 ^ e + (r + 1) * 2 ^ e) * d = (2 * r + 1) * (d * 2 ^ e)) as -> by ring.
      apply Z.le_lteq in H1 as [|H1]; [by left|right]. split; [done|]. by apply H2.
Qed.
Lemma rounds_unique n d a b : 0 < d → Rounds n d a → Rounds n d b → a = b.
Proof.
  assert (∀ a b, 0 < d → Rounds n d a → Rounds n d b → ¬ a < b) as H.
  { clear a b. intros a b Hd (Ha & _ & Hup) (Hb & Hlo & _) Hlt. destruct Hlo as [|Hlo]; [lia|].
    pose proof (mag_le (a + 1) b ltac:(lia) ltac:(lia)). pose proof (mag_le a (b - 1) Ha ltac:(lia)).
    destruct (decide (b = a + 1)) as [-> |Hne].
    - replace (a + 1 - 1) with a in * by lia. destruct Hup as [Hup|[Hup Ea]]; destruct Hlo as [Hlo|[Hlo Eb]]; try nia.
      rewrite Z.even_add, Ea in Eb. done.
    - pose proof (mag_lt a (b - 1) Ha ltac:(lia)). nia. }
  intros Hd H1 H2. pose proof (H a b Hd H1 H2). pose proof (H b a Hd H2 H1). lia.
Qed.
Lemma round_iff n d b : 0 <= n → 0 < d → round_bits n d = b ↔ Rounds n d b.
Proof.
  intros Hn Hd. split; [intros <-; by apply round_rounds|]. intros H. apply (rounds_unique n d); [done| |done]. by apply round_rounds.
Qed.
(** Rounding keeps the order; the value itself is not changed. *)
Lemma rounds_self d b : 0 < d → 0 <= b → Rounds (mag b * d) d b.
Proof.
  intros Hd Hb. split; [done|]. pose proof (mag_next b Hb). split; [|left; nia]. destruct (decide (b = 0)) as [|H0]; [by left|].
  right. left. pose proof (mag_lt (b - 1) b ltac:(lia) ltac:(lia)). nia.
Qed.
Lemma rounds_between n d b n1 d1 n2 d2 : 0 < d → 0 < d1 → 0 < d2 → Rounds n1 d1 b → Rounds n2 d2 b →
  n1 * d <= n * d1 → n * d2 <= n2 * d → Rounds n d b.
Proof.
  intros Hd Hd1 Hd2 (Hb & Hlo & _) (_ & _ & Hup) H1 H2. split; [done|]. split.
  - destruct Hlo as [|[Hlo|[Hlo Eb]]]; [by left|right; left; nia|right].
    set (s := mag (b - 1) + mag b) in *. assert (s * d * d1 <= 2 * n * d1) by nia. assert (s * d <= 2 * n) as Hle by nia.
    apply Z.le_lteq in Hle as [|]; [by left|by right].
  - destruct Hup as [Hup|[Hup Eb]]; [left; nia|].
    set (s := mag b + mag (b + 1)) in *. assert (2 * n * d2 <= s * d * d2) by nia. assert (2 * n <= s * d) as Hle by nia.
    apply Z.le_lteq in Hle as [|]; [by left|by right].
Qed.
