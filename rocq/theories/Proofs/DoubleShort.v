(** Lemmas for C144: the shortest digits that are read back. *)
From Coq Require Import ZArith Lia.
From stdpp Require Import prelude.
From Verif.Model Require Import JsonNumber.
From Verif.Proofs Require Import DoubleBits.
Local Open Scope Z_scope.

(** m * 10^e is m * up e / dn e units of 2^-1074. *)
Definition up (e : Z) : Z := 10 ^ Z.max 0 e * 2 ^ 1074.
Definition dn (e : Z) : Z := 10 ^ Z.max 0 (- e).
Lemma pow10_pos e : 0 <= e → 0 < 10 ^ e.
Proof. intros. by apply Z.pow_pos_nonneg. Qed.
Lemma T_pos : 0 < 2 ^ 1074.
Proof. by apply Z.pow_pos_nonneg. Qed.
Lemma up_pos e : 0 < up e.
Proof. unfold up. pose proof (pow10_pos (Z.max 0 e) ltac:(lia)). pose proof T_pos. nia. Qed.
Lemma dn_pos e : 0 < dn e.
Proof. apply pow10_pos. lia. Qed.
Lemma scale e j : 0 <= j → up (e + j) * dn e = 10 ^ j * up e * dn (e + j).
Proof.
  intros Hj. unfold up, dn. generalize (2 ^ 1074). intros T.
  assert (10 ^ Z.max 0 (e + j) * 10 ^ Z.max 0 (- e) = 10 ^ j * 10 ^ Z.max 0 e * 10 ^ Z.max 0 (- (e + j))) as E.
  { rewrite <- !Z.pow_add_r by lia. f_equal. lia. }
  transitivity (T * (10 ^ Z.max 0 (e + j) * 10 ^ Z.max 0 (- e))); [ring|]. rewrite E. ring.
Qed.
Lemma dec_iff m e b : 0 <= m → dec_bits m e = b ↔ Rounds (m * up e) (dn e) b.
Proof.
  intros Hm. unfold dec_bits. rewrite round_iff; [|pose proof (up_pos e); unfold up in *; nia|apply dn_pos].
  by rewrite <- Z.mul_assoc.
Qed.

Lemma abs_mul_pos a d : 0 <= d → Z.abs a * d = Z.abs (a * d).
Proof. intros H. by rewrite Z.abs_mul, (Z.abs_eq d). Qed.

(** ** The place of the point *)
Lemma point_spec fuel z k : up (k - 1) <= z * dn (k - 1) → z * dn (k + Z.of_nat fuel) < up (k + Z.of_nat fuel) →
  let p := point fuel z k in up (p - 1) <= z * dn (p - 1) ∧ z * dn p < up p.
Proof.
  revert k. induction fuel as [|fuel IH]; intros k Hlo Hhi; cbn [point]; cbn zeta.
  - rewrite Nat2Z.inj_0, Z.add_0_r in Hhi. done.
  - change (10 ^ Z.max 0 (- k)) with (dn k). change (10 ^ Z.max 0 k * 2 ^ 1074) with (up k).
    destruct (Z.ltb_spec (z * dn k) (up k)) as [|Hge]; [done|]. apply IH.
    + by replace (k + 1 - 1) with k by lia.
    + by replace (k + 1 + Z.of_nat fuel) with (k + Z.of_nat (S fuel)) by lia.
Qed.
Lemma mag_bound b : 0 < b < inf_bits → 0 < mag b < 2 ^ 2098.
Proof.
  intros [H1 H2]. split; [rewrite <- mag_0; apply mag_lt; lia|]. assert (mag inf_bits = 2 ^ 2098) as <- by (vm_compute; reflexivity).
  apply mag_lt; lia.
Qed.
Lemma point_of b : 0 < b < inf_bits → let z := mag b in let p := point 640 z (-323) in up (p - 1) <= z * dn (p - 1) ∧ z * dn p < up p.
Proof.
  intros Hb. pose proof (mag_bound b Hb) as Hz. cbn zeta. apply point_spec.
  - assert (up (-323 - 1) <= dn (-323 - 1)) by (vm_compute; discriminate). pose proof (dn_pos (-323 - 1)). nia.
  - assert (2 ^ 2098 * dn (-323 + Z.of_nat 640) < up (-323 + Z.of_nat 640)) by (vm_compute; reflexivity).
    pose proof (dn_pos (-323 + Z.of_nat 640)). nia.
Qed.

(** ** Candidates *)
Section candidates.
  Context (b : Z) (Hb : 0 < b < inf_bits).
  Let z : Z := mag b.
  Definition Reads (m e : Z) : Prop := Rounds (m * up e) (dn e) b.
  Context (k : Z) (Hk1 : up (k - 1) <= z * dn (k - 1)) (Hk2 : z * dn k < up k).

  Lemma self_reads : Rounds z 1 b.
  Proof. replace z with (mag b * 1) by (unfold z; lia). apply rounds_self; lia. Qed.
  Definition floor_at (e : Z) : Z := z * dn e / up e.
  Lemma floor_le e : floor_at e * up e <= z * dn e < (floor_at e + 1) * up e.
  Proof.
    unfold floor_at. pose proof (up_pos e) as Hu. pose proof (Z.mul_div_le (z * dn e) (up e) Hu).
    pose proof (Z.mul_succ_div_gt (z * dn e) (up e) Hu). lia.
  Qed.
  Lemma floor_low n : 1 <= n → 10 ^ (n - 1) <= floor_at (k - n).
  Proof.
    intros Hn. apply Z.div_le_lower_bound; [apply up_pos|]. pose proof (scale (k - n) (n - 1) ltac:(lia)) as E.
    replace (k - n + (n - 1)) with (k - 1) in E by lia. pose proof (dn_pos (k - 1)). pose proof (dn_pos (k - n)).
    pose proof (up_pos (k - n)). pose proof (up_pos (k - 1)). nia.
  Qed.
  Lemma floor_high n : 1 <= n → floor_at (k - n) < 10 ^ n.
  Proof.
    intros Hn. apply Z.div_lt_upper_bound; [apply up_pos|]. pose proof (scale (k - n) n ltac:(lia)) as E.
    replace (k - n + n) with k in E by lia. pose proof (dn_pos k). pose proof (dn_pos (k - n)). pose proof (up_pos (k - n)). nia.
  Qed.
  (** A decimal of at most n digits is not between the two candidates. *)
  Lemma sides n m' e' : 1 <= n → 0 <= m' < 10 ^ n → let e := k - n in let lo := floor_at e in
    (m' * up e' <= z * dn e' → m' * up e' * dn e <= lo * up e * dn e') ∧
    (z * dn e' < m' * up e' → (lo + 1) * up e * dn e' <= m' * up e' * dn e).
  Proof.
    intros Hn Hm. cbn zeta. set (e := k - n). pose proof (floor_le e) as Hf. pose proof (floor_low n Hn) as Hlow. fold e in Hlow.
    pose proof (up_pos e). pose proof (dn_pos e). pose proof (up_pos e'). pose proof (dn_pos e').
    destruct (decide (e <= e')) as [Hge|Hlt].
    - pose proof (scale e (e' - e) ltac:(lia)) as E. replace (e + (e' - e)) with e' in E by lia.
      set (j := 10 ^ (e' - e)) in *. pose proof (pow10_pos (e' - e) ltac:(lia)). fold j in H3.
      split; intros Hle.
      + assert (m' * j * up e * dn e' <= z * dn e * dn e') by nia. assert (m' * j * up e <= z * dn e) by nia.
        assert (m' * j <= floor_at e) by (apply Z.div_le_lower_bound; lia). nia.
      + assert (z * dn e * dn e' < m' * j * up e * dn e') by nia. assert (z * dn e < m' * j * up e) by nia.
        assert (floor_at e < m' * j) by (apply Z.div_lt_upper_bound; lia). nia.
    - pose proof (scale e' (k - 1 - e') ltac:(lia)) as E1. replace (e' + (k - 1 - e')) with (k - 1) in E1 by lia.
      pose proof (scale e (n - 1) ltac:(lia)) as E2. replace (e + (n - 1)) with (k - 1) in E2 by lia.
      assert (10 ^ n <= 10 ^ (k - 1 - e')) as Hp by (apply Z.pow_le_mono_r; lia).
      set (P := 10 ^ (k - 1 - e')) in *. set (Q := 10 ^ (n - 1)) in *. pose proof (dn_pos (k - 1)) as Hd1. pose proof (up_pos (k - 1)) as Hu1.
      (* m' * 10^e' is less than 10^(k-1) *)
      assert (m' * up e' * dn (k - 1) < up (k - 1) * dn e') as Hless by nia.
      split; intros Hle.
      + assert (m' * up e' * dn e * dn (k - 1) <= Q * up e * dn e' * dn (k - 1)) by nia.
        assert (m' * up e' * dn e <= Q * up e * dn e') by nia. nia.
      + exfalso. assert (z * dn e' * dn (k - 1) < up (k - 1) * dn e') by nia. nia.
  Qed.
  (** Reading back is convex. *)
  Lemma reads_below m e m' e' : Reads m' e' → m' * up e' * dn e <= m * up e * dn e' → m * up e <= z * dn e → Reads m e.
  Proof.
    intros H1 H2 H3. apply (rounds_between _ _ _ (m' * up e') (dn e') z 1); [apply dn_pos|apply dn_pos|lia|done|apply self_reads|done|lia].
  Qed.
  Lemma reads_above m e m' e' : Reads m' e' → m * up e * dn e' <= m' * up e' * dn e → z * dn e <= m * up e → Reads m e.
  Proof.
    intros H1 H2 H3. apply (rounds_between _ _ _ z 1 (m' * up e') (dn e')); [apply dn_pos|lia|apply dn_pos|apply self_reads|done|lia|done].
  Qed.
  Lemma sides_read n m' e' : 1 <= n → 0 <= m' < 10 ^ n → Reads m' e' → let e := k - n in let lo := floor_at e in
    (m' * up e' <= z * dn e' ∧ Reads lo e) ∨ (z * dn e' < m' * up e' ∧ Reads (lo + 1) e).
  Proof.
    intros Hn Hm Hr. destruct (sides n m' e' Hn Hm) as [H1 H2]. cbn zeta in *. pose proof (floor_le (k - n)) as Hf.
    destruct (decide (m' * up e' <= z * dn e')) as [Hle|Hgt]; [left|right].
    - split; [done|]. apply (reads_below _ _ m' e'); [done|by apply H1|lia].
    - split; [lia|]. apply (reads_above _ _ m' e'); [done|apply H2; lia|lia].
  Qed.

  (** ** Seventeen digits are enough *)
  Lemma gaps : z <= 2 * p52 * (mag (b + 1) - z) ∧ z <= 2 * p52 * (z - mag (b - 1)).
  Proof.
    unfold z. destruct (bits_split b ltac:(lia)) as (e & r & -> & He & Hr & Hor). pose proof (pow2_pos e He) as Hp. pose proof p52_pos.
    rewrite (mag_of e r) by lia. replace (e * p52 + r + 1) with (e * p52 + (r + 1)) by lia. rewrite (mag_of e (r + 1)) by lia.
    split; [nia|]. destruct (decide (e = 0)) as [-> |E0].
    - replace (0 * p52 + r - 1) with (0 * p52 + (r - 1)) by lia. rewrite (mag_of 0 (r - 1)) by lia. nia.
    - destruct Hor as [|Hor]; [done|]. destruct (decide (r = p52)) as [-> |Hne].
      + replace (e * p52 + p52 - 1) with ((e - 1) * p52 + (2 * p52 - 1)) by lia. rewrite mag_of by lia.
        assert (2 ^ e = 2 * 2 ^ (e - 1)) as -> by (rewrite <- Z.pow_succ_r by lia; f_equal; lia). nia.
      + replace (e * p52 + r - 1) with (e * p52 + (r - 1)) by lia. rewrite (mag_of e (r - 1)) by lia. nia.
  Qed.
  Lemma seventeen : let e := k - 17 in Reads (half_even (z * dn e) (up e)) e.
  Proof.
    cbn zeta. set (e := k - 17). pose proof (up_pos e) as Hu. pose proof (dn_pos e) as Hd.
    destruct (half_even_near (z * dn e) (up e) Hu) as (H1 & _ & H3 & _). set (m := half_even _ _) in *.
    pose proof (scale e 16 ltac:(lia)) as E. replace (e + 16) with (k - 1) in E by lia. pose proof (dn_pos (k - 1)).
    assert (10 ^ 16 * up e <= z * dn e) as Hz by nia. destruct gaps as [G1 G2].
    assert (2 * p52 < 10 ^ 16) as Hc by (vm_compute; reflexivity).
    assert (0 < z) as Hz0 by (apply mag_bound; exact Hb).
    assert (up e < (mag (b + 1) - z) * dn e) as U1.
    { set (g := mag (b + 1) - z) in *. assert (0 < g) by (pose proof p52_pos; nia). assert (10 ^ 16 * up e <= 2 * p52 * (g * dn e)) by nia.
      assert (0 < g * dn e) by nia. nia. }
    assert (up e < (z - mag (b - 1)) * dn e) as U2.
    { set (g := z - mag (b - 1)) in *. assert (0 < g) by (pose proof p52_pos; nia). assert (10 ^ 16 * up e <= 2 * p52 * (g * dn e)) by nia.
      assert (0 < g * dn e) by nia. nia. }
    split; [lia|]. fold z. split; [right|]; left; nia.
  Qed.

  (** ** The search *)
  Definition Closer (m e m' e' : Z) : Prop :=
    Z.abs (m * up e - z * dn e) * dn e' <= Z.abs (m' * up e' - z * dn e') * dn e.
  Lemma half_even_sides e : let m := half_even (z * dn e) (up e) in
    (m = floor_at e ∧ 2 * (z * dn e) <= (2 * m + 1) * up e) ∨ (m = floor_at e + 1 ∧ (2 * m - 1) * up e <= 2 * (z * dn e)).
  Proof.
    cbn zeta. pose proof (up_pos e) as Hu. destruct (half_even_near (z * dn e) (up e) Hu) as (H1 & _ & H3 & _).
    pose proof (half_even_floor (z * dn e) (up e) Hu) as Hf. change (z * dn e / up e) with (floor_at e) in Hf.
    assert (half_even (z * dn e) (up e) = floor_at e ∨ half_even (z * dn e) (up e) = floor_at e + 1) as [E|E] by lia; [left|right]; done.
  Qed.
  Lemma closer_first n m' e' : 1 <= n → 0 <= m' < 10 ^ n → let e := k - n in Closer (half_even (z * dn e) (up e)) e m' e'.
  Proof.
    intros Hn Hm. cbn zeta. destruct (sides n m' e' Hn Hm) as [S1 S2]. cbn zeta in *. set (e := k - n) in *. unfold Closer.
    pose proof (floor_le e) as Hf. pose proof (half_even_sides e) as Hh. cbn zeta in Hh. set (m := half_even _ _) in *.
    pose proof (up_pos e). pose proof (dn_pos e). pose proof (up_pos e'). pose proof (dn_pos e').
    set (D := dn e) in *. set (D' := dn e') in *. set (U := up e) in *. set (U' := up e') in *.
    assert (m' * U' * D <= floor_at e * U * D' ∨ (floor_at e + 1) * U * D' <= m' * U' * D) as Hside
      by (destruct (decide (m' * U' <= z * D')); [left; by apply S1|right; apply S2; lia]).
    rewrite <- (Z.abs_eq D') at 1 by lia. rewrite <- (Z.abs_eq D) at 2 by lia. rewrite <- !Z.abs_mul.
    replace ((m * U - z * D) * D') with (m * U * D' - z * D * D') by ring.
    replace ((m' * U' - z * D') * D) with (m' * U' * D - z * D * D') by ring.
    assert (floor_at e * U * D' <= z * D * D' < (floor_at e + 1) * U * D') as Hv by nia.
    destruct Hh as [[-> Hh]|[-> Hh]].
    - assert (2 * (z * D * D') <= floor_at e * U * D' + (floor_at e + 1) * U * D') by nia. lia.
    - assert (floor_at e * U * D' + (floor_at e + 1) * U * D' <= 2 * (z * D * D')) by nia. lia.
  Qed.
  Lemma closer_second n m' e' : 1 <= n → 0 <= m' < 10 ^ n → Reads m' e' → let e := k - n in let m := half_even (z * dn e) (up e) in
    ¬ Reads m e → Closer (if m =? floor_at e then m + 1 else m - 1) e m' e' ∧ Reads (if m =? floor_at e then m + 1 else m - 1) e.
  Proof.
    intros Hn Hm Hr. cbn zeta. intros Hnr. pose proof (sides_read n m' e' Hn Hm Hr) as Hs. cbn zeta in Hs.
    destruct (sides n m' e' Hn Hm) as [S1 S2]. cbn zeta in *. set (e := k - n) in *. unfold Closer.
    pose proof (floor_le e) as Hf. pose proof (half_even_sides e) as Hh. cbn zeta in Hh. set (m := half_even _ _) in *.
    pose proof (up_pos e). pose proof (dn_pos e). pose proof (up_pos e'). pose proof (dn_pos e').
    set (D := dn e) in *. set (D' := dn e') in *. set (U := up e) in *. set (U' := up e') in *.
    assert (∀ x, Z.abs (x * U - z * D) * D' = Z.abs (x * U * D' - z * D * D')) as Ex.
    { intros x. rewrite <- (Z.abs_eq D') at 1 by lia. rewrite <- Z.abs_mul. f_equal. ring. }
    assert (Z.abs (m' * U' - z * D') * D = Z.abs (m' * U' * D - z * D * D')) as Ex'.
    { rewrite <- (Z.abs_eq D) at 1 by lia. rewrite <- Z.abs_mul. f_equal. ring. }
    rewrite Ex, Ex'. assert (floor_at e * U * D' <= z * D * D' < (floor_at e + 1) * U * D') as Hv by nia.
    destruct Hh as [[Em _]|[Em _]]; rewrite Em in *.
    - rewrite Z.eqb_refl. destruct Hs as [[_ Hs]|[Hs1 Hs2]]; [done|]. split; [|done]. specialize (S2 Hs1). lia.
    - assert (floor_at e + 1 =? floor_at e = false) as -> by (apply Z.eqb_neq; lia). replace (floor_at e + 1 - 1) with (floor_at e) by lia.
      destruct Hs as [[Hs1 Hs2]|[_ Hs]]; [|done]. split; [|done]. specialize (S1 Hs1). lia.
  Qed.

  Lemma shortest_spec fuel n : 1 <= n → n + Z.of_nat fuel = 18 → (∀ n' m' e', n' < n → 0 <= m' < 10 ^ n' → ¬ Reads m' e') →
    n <= 17 → ∃ m e n', shortest fuel b z k n = (m, e) ∧ 1 <= n' ∧ e = k - n' ∧ Reads m e ∧ floor_at e <= m <= floor_at e + 1 ∧
      (∀ n'' m' e', n'' < n' → 0 <= m' < 10 ^ n'' → ¬ Reads m' e') ∧
      (∀ m' e', 0 <= m' < 10 ^ n' → Reads m' e' → Closer m e m' e').
  Proof.
    revert n. induction fuel as [|fuel IH]; intros n Hn Hf Hnone H17; [lia|]. cbn [shortest].
    change (10 ^ Z.max 0 (- (k - n))) with (dn (k - n)). change (10 ^ Z.max 0 (k - n) * 2 ^ 1074) with (up (k - n)).
    change (z * dn (k - n) / up (k - n)) with (floor_at (k - n)). pose proof (floor_low n Hn) as Hlow. pose proof (pow10_pos (n - 1) ltac:(lia)).
    pose proof (half_even_sides (k - n)) as Hh. cbn zeta in Hh. pose proof (closer_first n) as C1. cbn zeta in C1.
    pose proof (closer_second n) as C2. cbn zeta in C2. set (m := half_even _ _) in *.
    destruct (Z.eqb_spec (dec_bits m (k - n)) b) as [E1|E1].
    { apply dec_iff in E1; [|lia]. exists m, (k - n), n. split_and!; [done|done|done|done|lia|lia|done|]. intros m' e' Hm' _. by apply C1. }
    assert (¬ Reads m (k - n)) as N1 by (intros H1; apply E1; apply dec_iff; [lia|done]).
    set (m2 := if m =? floor_at (k - n) then m + 1 else m - 1) in *.
    assert (floor_at (k - n) <= m2 <= floor_at (k - n) + 1) as Hm2.
    { unfold m2. destruct (Z.eqb_spec m (floor_at (k - n))); lia. }
    destruct (Z.eqb_spec (dec_bits m2 (k - n)) b) as [E2|E2].
    { apply dec_iff in E2; [|lia]. exists m2, (k - n), n. split_and!; [done|done|done|done|lia|lia|done|]. intros m' e' Hm' Hr. by apply C2. }
    assert (¬ Reads m2 (k - n)) as N2 by (intros H1; apply E2; apply dec_iff; [lia|done]).
    assert (n ≠ 17) as Hne by (intros ->; apply N1; apply seventeen).
    apply IH; [lia|lia| |lia]. intros n' m' e' Hn' Hm' Hr. destruct (decide (n' < n)) as [|]; [by apply (Hnone n' m' e')|].
    assert (n' = n) as -> by lia. apply N2. by apply (C2 m' e' Hn Hm' Hr N1).
  Qed.
End candidates.

(** The number of digits: at most those of m'. *)
Lemma shortest_decimal_spec b : 0 < b < inf_bits → ∃ m e, shortest_decimal b = (m, e) ∧ 0 < m ∧ dec_bits m e = b ∧
  (∀ n m' e', 0 <= m' < 10 ^ n → dec_bits m' e' = b → m < 10 ^ n) ∧
  (∀ m' e', 0 <= m' → (∀ n, m < 10 ^ n → m' < 10 ^ n) → dec_bits m' e' = b → Closer b m e m' e').
Proof.
  intros Hb. destruct (point_of b Hb) as [Hk1 Hk2]. unfold shortest_decimal. cbn zeta. set (k := point 640 (mag b) (-323)) in *.
  destruct (shortest_spec b Hb k Hk1 Hk2 17%nat 1) as (m & e & n & E & Hn & He & Hr & Hfl & Hmin & Hclose); [lia|lia| |lia|].
  { intros n' m' e' Hn' Hm' (_ & Hlo & _). destruct Hlo as [|Hlo]; [lia|]. assert (m' = 0) as ->.
    { destruct (decide (n' = 0)) as [-> |]; [rewrite Z.pow_0_r in Hm'; lia|]. rewrite Z.pow_neg_r in Hm' by lia. lia. }
    pose proof (mag_lt (b - 1) b ltac:(lia) ltac:(lia)). pose proof (mag_le 0 (b - 1) ltac:(lia) ltac:(lia)). rewrite mag_0 in *.
    pose proof (dn_pos e'). nia. }
  rewrite E. pose proof (floor_low b k Hk1 n Hn) as Hlow. pose proof (floor_high b k Hk2 n Hn) as Hhigh. rewrite <- He in *.
  pose proof (pow10_pos (n - 1) ltac:(lia)) as Hp.
  (* m has n digits, or is 10 with n = 1 *)
  assert (m < 10 ^ n ∨ m = 10 ∧ n = 1) as Hm.
  { destruct (decide (m < 10 ^ n)) as [|Hge]; [by left|right]. assert (m = 10 ^ n) as Em by lia.
    destruct (decide (n = 1)) as [-> |Hne]; [split; [by rewrite Em|done]|]. exfalso. apply (Hmin 1 1 (e + n)); [lia|lia|].
    unfold Reads in *. rewrite Em in Hr. apply (rounds_between _ _ _ (10 ^ n * up e) (dn e) (10 ^ n * up e) (dn e));
      [apply dn_pos|apply dn_pos|apply dn_pos|done|done| |]; pose proof (scale e n ltac:(lia)); lia. }
  assert (∀ n' m' e', 0 <= m' < 10 ^ n' → dec_bits m' e' = b → n <= n') as Hmin'.
  { intros n' m' e' Hm' Hd. apply dec_iff in Hd; [|lia]. destruct (decide (n <= n')) as [|]; [done|]. exfalso. by apply (Hmin n' m' e'); [lia| |]. }
  destruct (Z.eqb_spec m 10) as [E10|E10].
  - assert (n = 1) as ->.
    { destruct Hm as [Hm|[_ ?]]; [|done]. destruct (decide (n = 1)) as [|Hne]; [done|]. exfalso. apply (Hmin 1 1 (e + 1)); [lia|lia|].
      unfold Reads in *. rewrite E10 in Hr. pose proof (scale e 1 ltac:(lia)) as S. change (10 ^ 1) with 10 in S.
      apply (rounds_between _ _ _ (10 * up e) (dn e) (10 * up e) (dn e)); [apply dn_pos|apply dn_pos|apply dn_pos|done|done|lia|lia]. }
    pose proof (scale e 1 ltac:(lia)) as S. change (10 ^ 1) with 10 in *. rewrite E10 in *.
    exists 1, (e + 1). split; [done|]. split; [lia|]. split; [|split].
    + apply dec_iff; [lia|]. unfold Reads in Hr.
      apply (rounds_between _ _ _ (10 * up e) (dn e) (10 * up e) (dn e)); [apply dn_pos|apply dn_pos|apply dn_pos|done|done|lia|lia].
    + intros n m' e' Hm' Hd. pose proof (Hmin' n m' e' Hm' Hd). assert (10 ^ 1 <= 10 ^ n) by (apply Z.pow_le_mono_r; lia). lia.
    + intros m' e' Hm0 Hd Hdb. assert (m' < 10) as Hm'. { specialize (Hd 1). change (10 ^ 1) with 10 in Hd. lia. }
      apply dec_iff in Hdb; [|done]. specialize (Hclose m' e' ltac:(lia) Hdb). unfold Closer in *.
      pose proof (dn_pos e). pose proof (dn_pos e'). pose proof (dn_pos (e + 1)). set (v := mag b) in *.
      assert (Z.abs (1 * up (e + 1) - v * dn (e + 1)) * dn e = Z.abs (10 * up e - v * dn e) * dn (e + 1)) as Ea.
      { rewrite !abs_mul_pos by lia. f_equal. nia. }
      set (x := Z.abs (m' * up e' - v * dn e')) in *. set (y := Z.abs (10 * up e - v * dn e)) in *.
      set (w := Z.abs (1 * up (e + 1) - v * dn (e + 1))) in *.
      assert (w * dn e' * dn e <= x * dn (e + 1) * dn e) by nia. nia.
  - destruct Hm as [Hm|[? _]]; [|done]. exists m, e. split; [done|]. split; [lia|]. split; [by apply dec_iff; [lia|]|]. split.
    + intros n' m' e' Hm' Hd. pose proof (Hmin' n' m' e' Hm' Hd). assert (10 ^ n <= 10 ^ n') by (apply Z.pow_le_mono_r; lia). lia.
    + intros m' e' Hm0 Hd Hdb. apply Hclose; [|by apply dec_iff in Hdb]. split; [done|]. by apply Hd.
Qed.
