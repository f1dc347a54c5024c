(** The generic wire format round-trips. *)
From Coq Require Import Ascii String ZArith NArith Lia ZifyBool ZifyN ZifyNat.
From stdpp Require Import prelude strings gmap.
From Verif.Model Require Import Wire.
From Verif.Proofs Require Import StringLemmas.
Local Open Scope string_scope.
Local Arguments String.append _ _ : simpl nomatch.

Lemma N_ascii_small n : (n < 256)%N → N_of_ascii (ascii_of_N n) = n.
Proof. apply N_ascii_embedding. Qed.

Lemma dec_enc_varint_f f n r :
  (n < 2 * 128 ^ N.of_nat f)%N →
  dec_varint_f (S f) (enc_varint_f (S f) n +:+ r) = Some (n, r).
Proof.
  revert n. induction f as [|f IH]; intros n Hn.
  - change (2 * 128 ^ N.of_nat 0)%N with 2%N in Hn.
    cbn [enc_varint_f]. destruct (n <? 128)%N eqn:E; [|lia].
    cbn [String.append dec_varint_f]. rewrite N_ascii_small by lia. rewrite E.
    destruct (1 <? n)%N eqn:E1; [lia|]. done.
  - remember (S f) as f'. cbn [enc_varint_f]. destruct (n <? 128)%N eqn:E.
    + subst f'. cbn [String.append dec_varint_f]. rewrite N_ascii_small by lia. by rewrite E.
    + cbn [String.append dec_varint_f].
      assert (Hm : (n mod 128 < 128)%N) by (apply N.mod_lt; lia).
      rewrite N_ascii_small by lia.
      destruct (n mod 128 + 128 <? 128)%N eqn:E1; [lia|].
      rewrite IH.
      * f_equal. f_equal.
        rewrite N.add_sub.
        rewrite N.add_comm. symmetry. apply N.div_mod. lia.
      * subst f'. rewrite Nat2N.inj_succ, N.pow_succ_r in Hn by lia.
        apply N.div_lt_upper_bound; lia.
Qed.

Lemma dec_enc_varint n r :
  (n < 2 ^ 64)%N → dec_varint (enc_varint n +:+ r) = Some (n, r).
Proof. intros H. apply dec_enc_varint_f. exact H. Qed.

Lemma enc_varint_nonempty n : enc_varint n ≠ "".
Proof. unfold enc_varint. cbn [enc_varint_f]. by destruct (n <? 128)%N. Qed.

Lemma dec_enc_fixed k n r :
  (n < 256 ^ N.of_nat k)%N → dec_fixed k (enc_fixed k n +:+ r) = Some (n, r).
Proof.
  revert n. induction k as [|k IH]; intros n Hn.
  - change (256 ^ N.of_nat 0)%N with 1%N in Hn. simpl. repeat f_equal. lia.
  - cbn [enc_fixed String.append dec_fixed].
    rewrite Nat2N.inj_succ, N.pow_succ_r in Hn by lia.
    rewrite IH by (apply N.div_lt_upper_bound; lia).
    rewrite N_ascii_small by (apply N.mod_lt; lia).
    f_equal. f_equal. rewrite N.add_comm. symmetry. apply N.div_mod. lia.
Qed.

Lemma split_at_app s r : split_at (String.length s) (s +:+ r) = Some (s, r).
Proof. induction s as [|c s IH]; simpl; [done|]. by rewrite IH. Qed.

(** Values that fit. *)
Definition wf_wval (v : wval) : Prop :=
  match v with
  | WVar n | WF64 n => (n < 2 ^ 64)%N
  | WF32 n => (n < 2 ^ 32)%N
  | WLen s => (slen s < 2 ^ 64)%N
  end.
Definition wf_field (f : field) : Prop := (1 <= f.1 < 2 ^ 29)%N ∧ wf_wval f.2.

Lemma dec_enc_field f r : wf_field f → dec_field (enc_field f +:+ r) = Some (f, r).
Proof.
  destruct f as [num v]. intros [Hn Hv]. simpl in Hn.
  unfold enc_field, dec_field. cbn [fst snd]. rewrite app_assoc_s.
  assert (Hwt : (wire_type v < 8)%N) by (by destruct v).
  assert (H29 : (2 ^ 29 = 536870912)%N) by reflexivity.
  rewrite dec_enc_varint; cycle 1.
  { change (2 ^ 64)%N with 18446744073709551616%N. lia. }
  assert (Hdiv : ((num * 8 + wire_type v) / 8 = num)%N).
  { symmetry. apply (N.div_unique _ _ _ (wire_type v)); lia. }
  assert (Hmod : ((num * 8 + wire_type v) mod 8 = wire_type v)%N).
  { symmetry. apply (N.mod_unique _ _ num); lia. }
  cbv zeta. rewrite Hdiv, Hmod.
  replace ((num <? 1) || (2 ^ 29 <=? num))%N with false by lia.
  destruct v as [n|n|s|n]; simpl in Hv; cbn [wire_type].
  - cbn [N.eqb]. by rewrite dec_enc_varint.
  - rewrite dec_enc_fixed by exact Hv. done.
  - rewrite app_assoc_s. rewrite dec_enc_varint by done.
    cbn [N.eqb Pos.eqb].
    replace (slen (s +:+ r) <? slen s)%N with false
      by (unfold slen; rewrite app_length_s; lia).
    unfold slen. rewrite Nat2N.id, split_at_app. done.
  - rewrite dec_enc_fixed by exact Hv. done.
Qed.

Lemma enc_field_nonempty f : 1 ≤ String.length (enc_field f).
Proof.
  unfold enc_field. rewrite app_length_s.
  pose proof (enc_varint_nonempty (f.1 * 8 + wire_type f.2)).
  destruct (enc_varint (f.1 * 8 + wire_type f.2)); [done|simpl; lia].
Qed.

Lemma dec_fields_f_cons fuel f r :
  wf_field f →
  dec_fields_f (S fuel) (enc_field f +:+ r) =
    match dec_fields_f fuel r with Some l => Some (f :: l) | None => None end.
Proof.
  intros H. cbn [dec_fields_f].
  pose proof (enc_field_nonempty f).
  destruct (enc_field f +:+ r) eqn:E.
  - destruct (enc_field f); simpl in *; [lia|discriminate].
  - rewrite <-E, dec_enc_field by done. done.
Qed.

Lemma dec_enc_fields_f fs fuel :
  Forall wf_field fs → String.length (enc_fields fs) ≤ fuel →
  dec_fields_f fuel (enc_fields fs) = Some fs.
Proof.
  revert fuel. induction fs as [|f fs IH]; intros fuel Hwf Hlen.
  - simpl. by destruct fuel.
  - apply Forall_cons in Hwf as [Hf Hfs]. cbn [enc_fields] in *.
    rewrite app_length_s in Hlen. pose proof (enc_field_nonempty f).
    destruct fuel as [|fuel]; [lia|].
    rewrite dec_fields_f_cons by done. rewrite IH by (done || lia). done.
Qed.

Lemma dec_enc_fields fs : Forall wf_field fs → dec_fields (enc_fields fs) = Some fs.
Proof. intros H. apply dec_enc_fields_f; [done|]. done. Qed.

Lemma unmarshal_enc {A} (step : A → field → option A) a fs :
  Forall wf_field fs → unmarshal step a (enc_fields fs) = fold_fields step a fs.
Proof. intros H. unfold unmarshal. by rewrite dec_enc_fields. Qed.

Lemma fold_fields_app {A} (step : A → field → option A) a fs gs :
  fold_fields step a (fs ++ gs) =
    match fold_fields step a fs with Some b => fold_fields step b gs | None => None end.
Proof.
  revert a. induction fs as [|f fs IH]; intros a; simpl; [done|].
  destruct (step a f); auto.
Qed.

Lemma enc_fields_app fs gs : enc_fields (fs ++ gs) = enc_fields fs +:+ enc_fields gs.
Proof. induction fs as [|f fs IH]; simpl; [done|]. by rewrite IH, app_assoc_s. Qed.

(** Lengths. *)
Definition fields_len (fs : list field) : nat := String.length (enc_fields fs).

Lemma fields_len_nil : fields_len [] = 0.
Proof. done. Qed.
Lemma fields_len_cons f fs : fields_len (f :: fs) = String.length (enc_field f) + fields_len fs.
Proof. unfold fields_len. simpl. apply app_length_s. Qed.
Lemma fields_len_app fs gs : fields_len (fs ++ gs) = fields_len fs + fields_len gs.
Proof. unfold fields_len. by rewrite enc_fields_app, app_length_s. Qed.
Lemma fields_len_perm fs gs : fs ≡ₚ gs → fields_len fs = fields_len gs.
Proof. induction 1; rewrite ?fields_len_cons in *; lia. Qed.

Lemma field_len_in f fs : f ∈ fs → String.length (enc_field f) ≤ fields_len fs.
Proof.
  induction 1; rewrite fields_len_cons; lia.
Qed.

Lemma wlen_le_field n s : String.length s ≤ String.length (enc_field (n, WLen s)).
Proof. unfold enc_field. simpl. rewrite !app_length_s. lia. Qed.

(** If the whole message fits, so does every length-delimited field. *)
Lemma wlen_fits n s fs :
  (n, WLen s) ∈ fs → (N.of_nat (fields_len fs) < 2 ^ 64)%N → (slen s < 2 ^ 64)%N.
Proof.
  intros Hin Hlen. apply field_len_in in Hin. pose proof (wlen_le_field n s).
  unfold slen. eapply N.le_lt_trans; [|exact Hlen]. lia.
Qed.

(** Scalars. *)
Lemma int_to_u64_lt z : (int_to_u64 z < 2 ^ 64)%N.
Proof.
  unfold int_to_u64. change (2 ^ 64)%Z with 18446744073709551616%Z.
  change (2 ^ 64)%N with 18446744073709551616%N.
  pose proof (Z.mod_pos_bound z 18446744073709551616). lia.
Qed.

Lemma i64_roundtrip z : (- 2 ^ 63 <= z < 2 ^ 63)%Z → u64_to_i64 (int_to_u64 z) = z.
Proof.
  intros H. unfold u64_to_i64, int_to_u64.
  change (2 ^ 64)%Z with 18446744073709551616%Z in *.
  change (2 ^ 63)%Z with 9223372036854775808%Z in *. cbv zeta.
  rewrite Z2N.id by (apply Z.mod_pos_bound; lia).
  rewrite Z.mod_mod by lia.
  destruct (z mod 18446744073709551616 <? 9223372036854775808)%Z eqn:E;
    Z.div_mod_to_equations; lia.
Qed.

Lemma i32_roundtrip z : (- 2 ^ 31 <= z < 2 ^ 31)%Z → u64_to_i32 (int_to_u64 z) = z.
Proof.
  intros H. unfold u64_to_i32, int_to_u64.
  change (2 ^ 64)%Z with 18446744073709551616%Z in *.
  change (2 ^ 32)%Z with 4294967296%Z in *.
  change (2 ^ 31)%Z with 2147483648%Z in *. cbv zeta.
  rewrite Z2N.id by (apply Z.mod_pos_bound; lia).
  destruct ((z mod 18446744073709551616) mod 4294967296 <? 2147483648)%Z eqn:E;
    Z.div_mod_to_equations; lia.
Qed.

(** ** Decoding with the error ignored *)

(** The two decoders of a message agree when its fields are accepted. *)
Definition parts {A} (step : A → field → option A) (part : A → field → A * bool) : Prop :=
  ∀ a f x, part a f = (x, true) ↔ step a f = Some x.

Lemma parts_or_keep {A} (step : A → field → option A) : parts step (or_keep step).
Proof. intros a f x. unfold or_keep. destruct (step a f); split; intros H; congruence. Qed.

Lemma dec_prefix_f_spec n s l :
  dec_prefix_f n s = (l, true) ↔ dec_fields_f n s = Some l.
Proof.
  revert s l. induction n as [|n IH]; intros [|c s] l; cbn [dec_prefix_f dec_fields_f].
  1, 3: split; intros H; congruence.
  { split; intros H; congruence. }
  destruct (dec_field (String c s)) as [[fv r]|]; [|split; intros H; congruence].
  destruct (dec_prefix_f n r) as [l' b] eqn:E. split.
  - intros H. assert (b = true) by congruence. subst b.
    apply IH in E. rewrite E. congruence.
  - destruct (dec_fields_f n r) as [l2|] eqn:E2; [|done]. intros H.
    apply IH in E2. rewrite E in E2. congruence.
Qed.

Lemma fold_part_spec {A} step (part : A → field → A * bool) fs a x :
  parts step part → fold_part part a fs = (x, true) ↔ fold_fields step a fs = Some x.
Proof.
  intros Hp. revert a. induction fs as [|f fs IH]; intros a; cbn [fold_part fold_fields].
  { split; intros H; congruence. }
  destruct (part a f) as [a' b] eqn:E. destruct b.
  - apply Hp in E. by rewrite E.
  - destruct (step a f) as [a2|] eqn:E2; [|split; intros H; congruence].
    apply Hp in E2. congruence.
Qed.

Lemma unmarshal_part_spec {A} step (part : A → field → A * bool) a s x :
  parts step part → unmarshal_part part a s = (x, true) ↔ unmarshal step a s = Some x.
Proof.
  intros Hp. unfold unmarshal_part, unmarshal, dec_prefix, dec_fields.
  destruct (dec_prefix_f (String.length s) s) as [fs ok] eqn:E.
  destruct (fold_part part a fs) as [a' ok'] eqn:Ef. destruct ok.
  - apply dec_prefix_f_spec in E. rewrite E, <- (fold_part_spec _ _ _ _ _ Hp), Ef.
    by rewrite andb_true_r.
  - rewrite andb_false_r. destruct (dec_fields_f (String.length s) s) as [l|] eqn:E2.
    + apply dec_prefix_f_spec in E2. congruence.
    + split; intros H; congruence.
Qed.

Lemma unmarshal_part_ok {A} step (part : A → field → A * bool) a s x :
  parts step part → unmarshal step a s = Some x → unmarshal_part part a s = (x, true).
Proof. intros Hp. apply unmarshal_part_spec, Hp. Qed.
