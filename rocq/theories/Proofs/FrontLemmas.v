(** What stands in front of the first dash of an id (C94). *)
From Coq Require Import Ascii String ZArith NArith Lia.
From stdpp Require Import prelude strings.
From Verif.Model Require Import GoStrings ParseBase0.
From Verif.Spec Require Import IdTimeSpec.
From Verif.Proofs Require Import StringLemmas IdTimeLemmas LiteralLemmas LiteralMore.
Local Open Scope string_scope.
Local Open Scope N_scope.

Lemma before_dash_front id : Front id (before_dash id).
Proof.
  induction id as [|c id [IH1 IH2]].
  - split; [|by left]. intros [|x a] b; discriminate.
  - cbn [before_dash]. destruct (Ascii.eqb_spec c "-") as [-> |Hc].
    + split; [intros [|x a] b; discriminate|]. right. by exists id.
    + split.
      * intros [|x a] b E; [change ("" +:+ "-" +:+ b) with (String "-" b) in E; by injection E as ->|].
        change (String x a +:+ "-" +:+ b) with (String x (a +:+ "-" +:+ b)) in E. injection E as -> E. by apply (IH1 a b).
      * destruct IH2 as [E|[k E]]; [left; by rewrite <- E|right; exists k].
        change (String c (before_dash id) +:+ "-" +:+ k) with (String c (before_dash id +:+ "-" +:+ k)). by rewrite <- E.
Qed.
Lemma no_dash_front s : (∀ a b, s ≠ a +:+ "-" +:+ b) → no_dash s = true.
Proof.
  induction s as [|c s IH]; intros H; [done|]. cbn [no_dash]. destruct (Ascii.eqb_spec c "-") as [-> |Hc].
  - exfalso. by apply (H "" s).
  - apply IH. intros a b ->. by apply (H (String c a) b).
Qed.
Lemma no_dash_all s : no_dash s = true → before_dash s = s.
Proof.
  induction s as [|c s IH]; intros H; [done|]. cbn [no_dash before_dash] in *.
  destruct (Ascii.eqb c "-"); [done|]. by rewrite IH.
Qed.
Lemma front_iff id s : Front id s ↔ before_dash id = s.
Proof.
  split; [|intros <-; apply before_dash_front]. intros [H1 H2]. apply no_dash_front in H1.
  destruct H2 as [-> |[k ->]]; [by apply no_dash_all|by apply before_dash_app].
Qed.
Lemma front_like id s : Front id s → id_time id = id_time (s +:+ "-" +:+ "") ∧ id_time0 id = id_time0 (s +:+ "-" +:+ "").
Proof.
  intros H. destruct (H) as [H1 _]. apply front_iff in H. apply no_dash_front in H1.
  unfold id_time, id_time0. rewrite (before_dash_app s "") by done. by rewrite H.
Qed.

Lemma front_decimal id s n : Front id s → Numeral 10 s n → n < 2 ^ 63 →
  id_time id = Z.of_N n ∧ (id_time0 id = Z.of_N n ↔ ¬ LeadingZero s ∨ n < 8).
Proof. intros F H Hn. destruct (front_like id s F) as [-> ->]. by apply agree_decimal. Qed.
Lemma front_prefix id pre b s n : Front id (pre +:+ s) → LiteralPrefix pre b → Numeral b s n → n < 2 ^ 63 →
  id_time0 id = Z.of_N n ∧ id_time id = 0%Z.
Proof.
  intros F Hp H Hn. destruct (front_like id _ F) as [-> ->]. rewrite (app_assoc_s pre s ("-" +:+ "")). by apply (prefix_reads pre b).
Qed.
Lemma front_reads id s z : Front id s → GoInteger s z → Nearest z (id_time0 id).
Proof.
  intros F H. destruct (front_like id s F) as [_ ->]. apply watch_reads; [done|]. intros q ->. destruct F as [F _].
  by apply (F "" q).
Qed.
Lemma front_reads_only id : id_time0 id ≠ 0%Z → id_time0 id ≠ (2 ^ 63 - 1)%Z →
  ∃ s, Front id s ∧ GoInteger s (id_time0 id) ∧ InInt64 (id_time0 id).
Proof. intros H0 H1. exists (before_dash id). split; [apply before_dash_front|by apply watch_reads_only]. Qed.
