(** Proofs for C161. *)
From Coq Require Import Ascii String ZArith NArith Lia.
From stdpp Require Import prelude strings.
From Verif.Model Require Import Wire.
From Verif.Spec Require Import WireGrammarSpec.
From Verif.Proofs Require Import StringLemmas.

Lemma dec_varint_more f c s : dec_varint_f (S (S f)) (String c s) =
  if (N_of_ascii c <? 128)%N then Some (N_of_ascii c, s)
  else match dec_varint_f (S f) s with Some (v, r) => Some (N_of_ascii c - 128 + 128 * v, r)%N | None => None end.
Proof. reflexivity. Qed.
Lemma varint_sound f s n r : dec_varint_f (S f) s = Some (n, r) → ∃ t, s = t +:+ r ∧ Varint (S f) t n ∧ (n < 2 * 128 ^ N.of_nat f)%N.
Proof.
  revert s n r. induction f as [|f IH]; intros s n r H.
  - destruct s as [|c s]; [done|]. simpl in H. destruct (N_of_ascii c <? 128)%N eqn:E; [|done]. destruct (1 <? N_of_ascii c)%N eqn:E1; [done|].
    injection H as <- <-. apply N.ltb_lt in E. apply N.ltb_ge in E1. exists (String c ""). split; [done|]. split; [by constructor|]. simpl. lia.
  - destruct s as [|c s]; [done|]. rewrite dec_varint_more in H. destruct (N_of_ascii c <? 128)%N eqn:E.
    + injection H as <- <-. apply N.ltb_lt in E. exists (String c ""). split; [done|]. split; [by constructor|].
      rewrite Nat2N.inj_succ, N.pow_succ_r'. assert (128 ^ N.of_nat f ≠ 0)%N by (by apply N.pow_nonzero). lia.
    + apply N.ltb_ge in E. destruct (dec_varint_f (S f) s) as [[v r']|] eqn:Ev; [|done]. injection H as <- <-.
      apply IH in Ev as (t & -> & Ht & Hv). exists (String c t). split; [done|]. split; [by constructor|].
      rewrite Nat2N.inj_succ, N.pow_succ_r'. pose proof (N_ascii_bounded c). change (match v with 0 => 0 | N.pos q => N.pos (128 * q) end)%N with (128 * v)%N. lia.
Qed.
Lemma varint_complete f t n r : Varint (S f) t n → (n < 2 * 128 ^ N.of_nat f)%N → dec_varint_f (S f) (t +:+ r) = Some (n, r).
Proof.
  revert t n. induction f as [|f IH]; intros t n H Hn; inversion H as [k c Hc|k c s m Hc Hs]; subst.
  - simpl. apply N.ltb_lt in Hc as ->. simpl in Hn. destruct (1 <? N_of_ascii c)%N eqn:E; [|done]. apply N.ltb_lt in E. lia.
  - inversion Hs.
  - change (String c "" +:+ r) with (String c r). rewrite dec_varint_more. by apply N.ltb_lt in Hc as ->.
  - change (String c s +:+ r) with (String c (s +:+ r)). rewrite dec_varint_more. destruct (N_of_ascii c <? 128)%N eqn:E; [apply N.ltb_lt in E; lia|].
    rewrite (IH s m Hs); [done|]. rewrite Nat2N.inj_succ, N.pow_succ_r' in Hn. lia.
Qed.
Lemma dec_varint_iff s n r : dec_varint s = Some (n, r) ↔ ∃ t, s = t +:+ r ∧ IsVarint t n.
Proof.
  unfold dec_varint, IsVarint. change (2 ^ 64)%N with (2 * 128 ^ N.of_nat 9)%N. split.
  - intros H%varint_sound. naive_solver.
  - intros (t & -> & H & Hn). by apply varint_complete.
Qed.
Lemma dec_fixed_iff k s n r : dec_fixed k s = Some (n, r) ↔ ∃ t, s = t +:+ r ∧ Little t n ∧ String.length t = k.
Proof.
  revert s n. induction k as [|k IH]; intros s n; simpl.
  - split.
    + intros [= <- <-]. exists "". split; [done|]. split; [constructor|done].
    + intros (t & -> & H & Ht). destruct t; [|done]. by inversion H.
  - split.
    + destruct s as [|c s]; [done|]. destruct (dec_fixed k s) as [[v r']|] eqn:E; [|done]. intros [= <- <-].
      apply IH in E as (t & -> & H & Ht). exists (String c t). split; [done|]. split; [by constructor|]. simpl. by rewrite Ht.
    + intros (t & -> & H & Ht). destruct t as [|c t]; [done|]. inversion H as [|? ? m Hm]; subst.
      change (match dec_fixed k (t +:+ r) with Some (v, r') => Some (N_of_ascii c + 256 * v, r')%N | None => None end = Some (N_of_ascii c + 256 * m, r)%N).
      injection Ht as Ht. assert (dec_fixed k (t +:+ r) = Some (m, r)) as -> by (apply IH; eauto). done.
Qed.
Lemma split_at_iff k s a b : split_at k s = Some (a, b) ↔ s = a +:+ b ∧ String.length a = k.
Proof.
  revert s a. induction k as [|k IH]; intros s a; simpl.
  - split; [by intros [= <- <-]|]. intros [-> Ha]. by destruct a.
  - split.
    + destruct s as [|c s]; [done|]. destruct (split_at k s) as [[x y]|] eqn:E; [|done]. intros [= <- <-]. apply IH in E as [-> Hx]. simpl. by rewrite Hx.
    + intros [-> Ha]. destruct a as [|c a]; [done|].
      change (match split_at k (a +:+ b) with Some (x, y) => Some (String c x, y) | None => None end = Some (String c a, b)). injection Ha as Ha. assert (split_at k (a +:+ b) = Some (a, b)) as -> by (by apply IH). done.
Qed.
Lemma slen_app a b : slen (a +:+ b) = (slen a + slen b)%N.
Proof. unfold slen. rewrite app_length_s. lia. Qed.

Lemma dec_field_sound s f r : dec_field s = Some (f, r) → ∃ t, s = t +:+ r ∧ IsField t f.
Proof.
  unfold dec_field. destruct (dec_varint s) as [[tag r1]|] eqn:E; [|done]. apply dec_varint_iff in E as (key & -> & Hk). cbv zeta.
  destruct ((tag / 8 <? 1) || (2 ^ 29 <=? tag / 8))%N eqn:En; [done|]. apply orb_false_iff in En as [En1%N.ltb_ge En2%N.leb_gt].
  assert (∀ kind t v, (tag mod 8)%N = kind → IsValue kind t v → IsField (key +:+ t) ((tag / 8)%N, v)) as Hf.
  { intros kind t v <- Hv. econstructor; [|split; [exact En1|exact En2]|exact Hv]. by rewrite N.mul_comm, <-N.div_mod by done. }
  destruct (tag mod 8 =? 0)%N eqn:E0.
  { apply N.eqb_eq in E0. destruct (dec_varint r1) as [[v r2]|] eqn:E; [|done]. intros [= <- <-]. apply dec_varint_iff in E as (t & -> & Ht).
    exists (key +:+ t). split; [by rewrite app_assoc_s|]. apply (Hf _ _ _ E0). by constructor. }
  destruct (tag mod 8 =? 1)%N eqn:E1.
  { apply N.eqb_eq in E1. destruct (dec_fixed 8 r1) as [[v r2]|] eqn:E; [|done]. intros [= <- <-]. apply dec_fixed_iff in E as (t & -> & Ht & Hl).
    exists (key +:+ t). split; [by rewrite app_assoc_s|]. apply (Hf _ _ _ E1). by constructor. }
  destruct (tag mod 8 =? 2)%N eqn:E2.
  { apply N.eqb_eq in E2. destruct (dec_varint r1) as [[n r2]|] eqn:E; [|done]. apply dec_varint_iff in E as (t & -> & Ht).
    destruct (slen r2 <? n)%N eqn:El; [done|]. destruct (split_at (N.to_nat n) r2) as [[a b]|] eqn:Es; [|done]. intros [= <- <-].
    apply split_at_iff in Es as [-> Ha]. exists (key +:+ (t +:+ a)). split; [by rewrite !app_assoc_s|]. apply (Hf _ _ _ E2). constructor. rewrite Ha. by rewrite N2Nat.id. }
  destruct (tag mod 8 =? 5)%N eqn:E5; [|done].
  apply N.eqb_eq in E5. destruct (dec_fixed 4 r1) as [[v r2]|] eqn:E; [|done]. intros [= <- <-]. apply dec_fixed_iff in E as (t & -> & Ht & Hl).
  exists (key +:+ t). split; [by rewrite app_assoc_s|]. apply (Hf _ _ _ E5). by constructor.
Qed.
Lemma dec_field_complete t f r : IsField t f → dec_field (t +:+ r) = Some (f, r).
Proof.
  intros [key num kind s v Hk [Hn1 Hn2] Hv]. unfold dec_field. rewrite app_assoc_s.
  assert (dec_varint (key +:+ (s +:+ r)) = Some ((num * 8 + kind)%N, s +:+ r)) as -> by (apply dec_varint_iff; eauto). cbv zeta.
  assert (kind < 8)%N as Hlt by (by destruct Hv).
  assert ((num * 8 + kind) / 8 = num)%N as -> by (rewrite N.div_add_l, N.div_small by lia; lia).
  assert ((num * 8 + kind) mod 8 = kind)%N as -> by (rewrite N.add_comm, N.mod_add, N.mod_small by lia; lia).
  assert ((num <? 1) || (2 ^ 29 <=? num) = false)%N as -> by (apply orb_false_iff; split; [by apply N.ltb_ge|by apply N.leb_gt]).
  destruct Hv as [s n H|s n H Hl|l s H|s n H Hl]; cbn [N.eqb Pos.eqb].
  - assert (dec_varint (s +:+ r) = Some (n, r)) as -> by (apply dec_varint_iff; eauto). done.
  - assert (dec_fixed 8 (s +:+ r) = Some (n, r)) as -> by (apply dec_fixed_iff; eauto). done.
  - rewrite app_assoc_s. assert (dec_varint (l +:+ (s +:+ r)) = Some (N.of_nat (String.length s), s +:+ r)) as -> by (apply dec_varint_iff; eauto).
    assert (slen (s +:+ r) <? N.of_nat (String.length s) = false)%N as -> by (apply N.ltb_ge; rewrite slen_app; unfold slen; lia).
    rewrite Nat2N.id. assert (split_at (String.length s) (s +:+ r) = Some (s, r)) as -> by (by apply split_at_iff). done.
  - assert (dec_fixed 4 (s +:+ r) = Some (n, r)) as -> by (apply dec_fixed_iff; eauto). done.
Qed.
Lemma field_nonempty t f : IsField t f → 1 ≤ String.length t.
Proof. intros [key num kind s v [Hk _] _ _]. inversion Hk; subst; simpl; lia. Qed.
Lemma dec_fields_f_iff fuel s l : String.length s ≤ fuel → dec_fields_f fuel s = Some l ↔ IsMessage s l.
Proof.
  revert s l. induction fuel as [|fuel IH]; intros s l Hl.
  - destruct s; [|simpl in Hl; lia]. simpl. split; [intros [= <-]; constructor|]. inversion 1 as [|s f r l' Hf _ Es]; [done|].
    subst. apply field_nonempty in Hf. destruct s; [simpl in Hf; lia|done].
  - split.
    + destruct s as [|c s]; [intros [= <-]; constructor|]. cbn [dec_fields_f]. destruct (dec_field (String c s)) as [[f r]|] eqn:E; [|done].
      destruct (dec_fields_f fuel r) as [l'|] eqn:El; [|done]. intros [= <-]. apply dec_field_sound in E as (t & E & Ht). rewrite E in *.
      constructor; [done|]. apply IH; [|done]. pose proof (field_nonempty _ _ Ht). rewrite app_length_s in Hl. lia.
    + intros H. destruct H as [|t f r l Hf Hm]; [done|]. pose proof (field_nonempty _ _ Hf) as Hne.
      assert (dec_fields_f fuel r = Some l) as E by (apply IH; [rewrite app_length_s in Hl; lia|done]).
      destruct (t +:+ r) as [|c x] eqn:Et; [destruct t; [simpl in Hne; lia|done]|]. cbn [dec_fields_f].
      rewrite <-Et, (dec_field_complete _ _ _ Hf). by rewrite E.
Qed.
Lemma dec_fields_iff s l : dec_fields s = Some l ↔ IsMessage s l.
Proof. by apply dec_fields_f_iff. Qed.

Lemma dec_prefix_f_grammar fuel s l ok : String.length s ≤ fuel → dec_prefix_f fuel s = (l, ok) →
  ∃ t r, s = t +:+ r ∧ IsMessage t l ∧ (ok = true ↔ r = "") ∧ ∀ u f v, r = u +:+ v → ¬ IsField u f.
Proof.
  assert (∀ f u v, "" = u +:+ v → ¬ IsField u f) as Hnil.
  { intros f u v E Hf. apply field_nonempty in Hf. destruct u; [simpl in Hf; lia|done]. }
  revert s l ok. induction fuel as [|fuel IH]; intros s l ok Hl H.
  - destruct s; [|simpl in Hl; lia]. injection H as <- <-. exists "", "". split; [done|]. split; [constructor|]. split; [done|]. intros u f v E. by eapply Hnil.
  - destruct s as [|c s].
    { injection H as <- <-. exists "", "". split; [done|]. split; [constructor|]. split; [done|]. intros u f v E. by eapply Hnil. }
    cbn [dec_prefix_f] in H. destruct (dec_field (String c s)) as [[f r]|] eqn:E.
    + apply dec_field_sound in E as (t & E & Ht). destruct (dec_prefix_f fuel r) as [l' ok'] eqn:Ep. injection H as <- <-.
      apply IH in Ep as (t' & r' & -> & Hm & Hok & Hno).
      2: { pose proof (field_nonempty _ _ Ht). rewrite E, app_length_s in Hl. lia. }
      exists (t +:+ t'), r'. split; [by rewrite E, app_assoc_s|]. split; [by constructor|]. by split.
    + injection H as <- <-. exists "", (String c s). split; [done|]. split; [constructor|]. split; [done|].
      intros u f v Eu Hf. rewrite Eu, (dec_field_complete _ _ _ Hf) in E. done.
Qed.
Lemma dec_prefix_grammar s l ok : dec_prefix s = (l, ok) →
  ∃ t r, s = t +:+ r ∧ IsMessage t l ∧ (ok = true ↔ r = "") ∧ ∀ u f v, r = u +:+ v → ¬ IsField u f.
Proof. by apply dec_prefix_f_grammar. Qed.
Lemma message_app s l s' l' : IsMessage s l → IsMessage s' l' → IsMessage (s +:+ s') (l ++ l').
Proof. intros H H'. induction H as [|t f r l Hf _ IH]; [done|]. rewrite app_assoc_s. simpl. by constructor. Qed.
Lemma fold_concat {A} (step : A → field → option A) a l l' : fold_fields step a (l ++ l') = b ← fold_fields step a l; fold_fields step b l'.
Proof. revert a. induction l as [|f l IH]; intros a; [done|]. simpl. by destruct (step a f). Qed.
Lemma unmarshal_concat {A} (step : A → field → option A) a s l s' : IsMessage s l → 
  (∃ l', IsMessage s' l') → unmarshal step a (s +:+ s') = b ← unmarshal step a s; unmarshal step b s'.
Proof.
  intros H [l' H']. unfold unmarshal. pose proof (message_app _ _ _ _ H H') as Ha. apply dec_fields_iff in H, H', Ha. rewrite H, H', Ha.
  rewrite fold_concat. by destruct (fold_fields step a l).
Qed.
