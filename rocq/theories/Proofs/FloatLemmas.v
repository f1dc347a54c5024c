(** The model's double comparison is the comparison of the IEEE-754 values. *)
From Coq Require Import Ascii String ZArith NArith QArith Qpower Lia ZifyBool ZifyN.
From stdpp Require Import prelude strings gmap.
From Verif.Model Require Import Types.
From Verif.Spec Require Import FilterSpec.
Local Open Scope Z_scope.

Lemma two_nz : ~ ((2 # 1) == 0)%Q.
Proof. by compute. Qed.

Lemma two_to_add a b : (two_to (a + b) == two_to a * two_to b)%Q.
Proof. unfold two_to. apply Qpower_plus. apply two_nz. Qed.

Lemma two_to_inject n : 0 <= n -> (inject_Z (2 ^ n) == two_to n)%Q.
Proof. intros H. unfold two_to. apply (Zpower_Qpower 2 n H). Qed.

Lemma two_to_pos n : (0 < two_to n)%Q.
Proof. unfold two_to. apply Qpower_0_lt. done. Qed.

(** A scaled integer and the rational it stands for. *)
Definition scale (z : Z) : Q := (inject_Z z * two_to (-1074))%Q.

Lemma scale_le x y : (scale x <= scale y)%Q <-> x <= y.
Proof.
  unfold scale. rewrite Qmult_le_r by apply two_to_pos. by rewrite <-Zle_Qle.
Qed.
Lemma scale_lt x y : (scale x < scale y)%Q <-> x < y.
Proof.
  unfold scale. rewrite Qmult_lt_r by apply two_to_pos. by rewrite <-Zlt_Qlt.
Qed.

(** Decoded value and IEEE value agree. *)
Definition val_agree (f : fval) (x : xreal) : Prop :=
  match f, x with
  | FNaN, XNaN => True
  | FInf n, XInf n' => n = n'
  | FFin z, XQ q => (scale z == q)%Q
  | _, _ => False
  end.

Lemma f64_val_agree b : val_agree (f64_val b) (ieee b).
Proof.
  unfold f64_val, ieee, f64_exp, f64_frac, f64_sign. cbv zeta.
  set (e := ((b / 2 ^ 52) mod 2 ^ 11)%N). set (m := (b mod 2 ^ 52)%N).
  assert (He : (e < 2048)%N) by (apply N.mod_lt; done).
  replace (Z.of_N e =? 2047) with (e =? 2047)%N by lia.
  replace (Z.of_N e =? 0) with (e =? 0)%N by lia.
  destruct (e =? 2047)%N eqn:E1; [by destruct (m =? 0)%N|].
  destruct (e =? 0)%N eqn:E2; cbn [val_agree].
  - assert (Hmag : (scale (Z.of_N m) == two_to (-1022) * (inject_Z (Z.of_N m) * two_to (-52)))%Q).
    { unfold scale. replace (-1074) with (-1022 + -52) by lia. rewrite two_to_add. ring. }
    destruct (N.testbit b 63).
    + rewrite <-Qmult_assoc, <-Hmag. unfold scale. rewrite inject_Z_opp. ring.
    + rewrite <-Qmult_assoc, <-Hmag. ring.
  - remember (Z.of_N (2 ^ 52 + m) * 2 ^ (Z.of_N e - 1)) as M eqn:EM.
    assert (Hmag : (scale M == two_to (Z.of_N e - 1023) * (1 + inject_Z (Z.of_N m) * two_to (-52)))%Q).
    { unfold scale. rewrite EM, inject_Z_mult, two_to_inject by lia.
      rewrite N2Z.inj_add, inject_Z_plus.
      replace (Z.of_N (2 ^ 52)) with (2 ^ 52) by reflexivity.
      rewrite two_to_inject by lia.
      replace (Z.of_N e - 1023) with ((Z.of_N e - 1) + -1022) by lia.
      replace (-1074) with (-1022 + -52) by lia.
      rewrite (two_to_add (Z.of_N e - 1) (-1022)), (two_to_add (-1022) (-52)).
      assert (H52 : (two_to 52 * two_to (-52) == 1)%Q) by (rewrite <-two_to_add; reflexivity).
      revert H52. generalize (two_to 52) (two_to (-52)) (two_to (-1022)) (two_to (Z.of_N e - 1))
        (inject_Z (Z.of_N m)). intros a b' c d x H52.
      transitivity (d * c * (a * b' + x * b'))%Q; [ring|].
      rewrite H52. ring. }
    destruct (N.testbit b 63).
    + rewrite <-Qmult_assoc, <-Hmag. unfold scale. rewrite inject_Z_opp. ring.
    + rewrite <-Qmult_assoc, <-Hmag. ring.
Qed.

Lemma f64_ltb_spec a b : f64_ltb a b = true ↔ XLt (ieee a) (ieee b).
Proof.
  unfold f64_ltb. pose proof (f64_val_agree a) as Ha. pose proof (f64_val_agree b) as Hb.
  destruct (f64_val a) as [|na|x], (ieee a) as [|na'|p]; simpl in Ha; try done; subst;
  destruct (f64_val b) as [|nb|y], (ieee b) as [|nb'|q]; simpl in Hb; try done; subst;
  simpl; repeat match goal with b : bool |- _ => destruct b end; try done.
  rewrite <-Ha, <-Hb, scale_lt. lia.
Qed.

Lemma f64_leb_spec a b : f64_leb a b = true ↔ XLe (ieee a) (ieee b).
Proof.
  unfold f64_leb. pose proof (f64_val_agree a) as Ha. pose proof (f64_val_agree b) as Hb.
  destruct (f64_val a) as [|na|x], (ieee a) as [|na'|p]; simpl in Ha; try done; subst;
  destruct (f64_val b) as [|nb|y], (ieee b) as [|nb'|q]; simpl in Hb; try done; subst;
  simpl; repeat match goal with b : bool |- _ => destruct b end; try done.
  rewrite <-Ha, <-Hb, scale_le. lia.
Qed.

Lemma XLt_XLe a b : XLt a b → XLe a b.
Proof.
  destruct a as [|[]|], b as [|[]|]; simpl; try done. apply Qlt_le_weak.
Qed.
