(** The log of the call of one function (C150). *)
From Coq Require Import Ascii String ZArith Lia.
From stdpp Require Import prelude strings.
From Verif.Model Require Import GoStrings Logging Dial FinalLog InvokeLog FnLog.
From Verif.Spec Require Import PageSpec FnLogSpec.
From Verif.Proofs Require Import StringLemmas SettingsLemmas PageText FinalLogLemmas.
Local Open Scope string_scope.
Local Open Scope Z_scope.

(** ** Numbers *)
Lemma digits_of z c : 0 <= z → Has c (format_Z z) → is_digit c = true.
Proof. intros Hz H. apply (dec_plain (Z.to_nat z)). unfold dec. by rewrite Z2Nat.id. Qed.
Lemma pad2_digits z c : 0 <= z → Has c (pad2 z) → is_digit c = true.
Proof.
  intros Hz. unfold pad2. destruct (z <? 10); [|by apply digits_of]. intros H. change (Has c (String "0" (format_Z z))) in H.
  inversion H as [s|d s H']; subst; [done|by apply (digits_of z)].
Qed.
Lemma pad2_value z : 0 <= z → dv 0 (pad2 z) = Z.to_N z.
Proof.
  intros Hz. unfold pad2. assert (dv 0 (format_Z z) = Z.to_N z) as E by (rewrite format_Z_nonneg by done; apply dv_format_N).
  destruct (z <? 10); [|done]. exact E.
Qed.
Lemma pad2_inj a b : 0 <= a → 0 <= b → pad2 a = pad2 b → a = b.
Proof. intros Ha Hb E. apply (f_equal (dv 0)) in E. rewrite !pad2_value in E by done. lia. Qed.
Lemma hundredths_near b : 2 * Z.abs (hundredths b * 2 ^ 18 - b * 25) <= 2 ^ 18.
Proof.
  unfold hundredths. change (2 ^ 18) with 262144. change (2 ^ 17) with 131072. pose proof (Z.div_mod (b * 25) 262144 ltac:(lia)) as E.
  pose proof (Z.mod_pos_bound (b * 25) 262144 ltac:(lia)) as Hr. set (q := b * 25 / 262144) in *. set (r := b * 25 mod 262144) in *.
  destruct (Z.ltb_spec r 131072); [lia|]. destruct (Z.ltb_spec 131072 r); [lia|]. destruct (Z.even q); lia.
Qed.
Lemma hundredths_even b : 2 * Z.abs (hundredths b * 2 ^ 18 - b * 25) = 2 ^ 18 → Z.even (hundredths b) = true.
Proof.
  unfold hundredths. change (2 ^ 18) with 262144. change (2 ^ 17) with 131072. pose proof (Z.div_mod (b * 25) 262144 ltac:(lia)) as E.
  pose proof (Z.mod_pos_bound (b * 25) 262144 ltac:(lia)) as Hr. set (q := b * 25 / 262144) in *. set (r := b * 25 mod 262144) in *.
  destruct (Z.ltb_spec r 131072); [lia|]. destruct (Z.ltb_spec 131072 r); [lia|]. destruct (Z.even q) eqn:Eq; [done|].
  intros _. rewrite Z.even_add, Eq. done.
Qed.
Lemma hundredths_nonneg b : 0 <= b → 0 <= hundredths b.
Proof. intros Hb. pose proof (hundredths_near b). change (2 ^ 18) with 262144 in *. lia. Qed.
Lemma no_digit c z : is_digit c = false → 0 <= z → ¬ Has c (format_Z z).
Proof. intros Hc Hz H%digits_of; congruence. Qed.
Lemma no_digit2 c z : is_digit c = false → 0 <= z → ¬ Has c (pad2 z).
Proof. intros Hc Hz H%pad2_digits; congruence. Qed.
Lemma app_assoc_f (a b c : string) : (a +:+ b) +:+ c = a +:+ (b +:+ c).
Proof. induction a as [|x a IH]; [done|]. change (String x ((a +:+ b) +:+ c) = String x (a +:+ (b +:+ c))). by rewrite IH. Qed.
Lemma megabytes_inj a b x y : 0 <= a → 0 <= b → megabytes a +:+ String "m" x = megabytes b +:+ String "m" y → hundredths a = hundredths b.
Proof.
  intros Ha%hundredths_nonneg Hb%hundredths_nonneg. unfold megabytes. cbv zeta. rewrite !app_assoc_f. intros E.
  pose proof (Z.mod_pos_bound (hundredths a) 100 ltac:(lia)) as Ma. pose proof (Z.mod_pos_bound (hundredths b) 100 ltac:(lia)) as Mb.
  pose proof (Z.div_pos (hundredths a) 100 Ha ltac:(lia)) as Da. pose proof (Z.div_pos (hundredths b) 100 Hb ltac:(lia)) as Db.
  destruct (cut "." _ _ _ _ (no_digit "." _ eq_refl Da) (no_digit "." _ eq_refl Db) E) as [E1 E2].
  destruct (cut "m" _ _ _ _ (no_digit2 "m" _ eq_refl (proj1 Ma)) (no_digit2 "m" _ eq_refl (proj1 Mb)) E2) as [E3 _].
  apply format_Z_inj_nonneg in E1; [|done..]. apply pad2_inj in E3; [|lia..].
  rewrite (Z.div_mod (hundredths a) 100), (Z.div_mod (hundredths b) 100) by lia. lia.
Qed.
Lemma chunk_text_inj i n b i' n' b' : 0 <= i → 0 <= n → 0 <= b → 0 <= i' → 0 <= n' → 0 <= b' →
  chunk_text i n b = chunk_text i' n' b' → i = i' ∧ n = n' ∧ hundredths b = hundredths b'.
Proof.
  intros Hi Hn Hb Hi' Hn' Hb'. unfold chunk_text. intros E%same_front.
  destruct (cut "/" _ _ _ _ (no_digit2 "/" _ eq_refl Hi) (no_digit2 "/" _ eq_refl Hi') E) as [->%pad2_inj E1]; [|done..].
  destruct (cut ":" _ (" " +:+ _) _ (" " +:+ _) (no_digit2 ":" _ eq_refl Hn) (no_digit2 ":" _ eq_refl Hn') E1) as [->%pad2_inj E2%same_front]; [|done..].
  split; [done|]. split; [done|]. exact (megabytes_inj b b' "b" "b" Hb Hb' E2).
Qed.
Lemma cons_inj_s {A} (x y : A) l k : x :: l = y :: k → x = y ∧ l = k.
Proof. by intros [= -> ->]. Qed.
Lemma chunk_texts_inj n n' sizes : Forall (λ b, 0 <= b) sizes → ∀ i i' sizes', Forall (λ b, 0 <= b) sizes' → 0 <= i → 0 <= i' → 0 <= n → 0 <= n' →
  chunk_texts i n sizes = chunk_texts i' n' sizes' → hundredths <$> sizes = hundredths <$> sizes'.
Proof.
  induction 1 as [|b sizes Hb Hs IH]; intros i i' [|b' sizes'] Hs' Hi Hi' Hn Hn' E; [done|discriminate E|discriminate E|].
  apply Forall_cons in Hs' as [Hb' Hs']. cbn [chunk_texts] in E.
  apply cons_inj_s in E as [Et E]. apply chunk_text_inj in Et as (_ & _ & Et); [|done..]. cbn [fmap list_fmap]. rewrite Et. f_equal.
  apply (IH (i + 1) (i' + 1)); [done|lia|lia|done|done|done].
Qed.
Lemma chunk_texts_length i n sizes : length (chunk_texts i n sizes) = length sizes.
Proof. revert i. induction sizes as [|b sizes IH]; intros i; cbn; [done|]. by rewrite IH. Qed.
Lemma chunk_texts_lookup n sizes : ∀ i k b, sizes !! k = Some b → chunk_texts i n sizes !! k = Some (chunk_text (i + Z.of_nat k) n b).
Proof.
  induction sizes as [|b0 sizes IH]; intros i [|k] b H; cbn [chunk_texts]; [done|done| |].
  - injection H as ->. cbn. by rewrite Z.add_0_r.
  - change (chunk_texts (i + 1) n sizes !! k = Some (chunk_text (i + Z.of_nat (S k)) n b)). rewrite (IH _ _ b H). do 2 f_equal. lia.
Qed.

(** ** Levels *)
Lemma written_trace l : fn_written LTrace l = l.
Proof. unfold fn_written. induction l as [|x l IH]; [done|]. rewrite filter_cons_True, IH; [done|]. destruct (fe_level x); cbn; lia. Qed.
Lemma called_debug (fn : option (string * string)) texts : fn_written LDebug (FEntry LDebug fn <$> texts) = FEntry LDebug fn <$> texts.
Proof. unfold fn_written. induction texts as [|x l IH]; [done|]. cbn [fmap list_fmap]. by rewrite filter_cons_True, IH by (cbn; lia). Qed.
Lemma called_hidden lv (fn : option (string * string)) texts : (number lv < 5)%nat → fn_written lv (FEntry LDebug fn <$> texts) = [].
Proof. intros H. unfold fn_written. induction texts as [|x l IH]; [done|]. cbn [fmap list_fmap]. by rewrite filter_cons_False by (cbn; lia). Qed.
Lemma all_debug name host port sizes o : fn_written LDebug (fn_log name host port sizes o) = fn_log name host port sizes o.
Proof.
  unfold fn_log. cbv zeta. destruct o; try (unfold fn_written; rewrite ?filter_cons, ?filter_nil; cbn; done).
  - unfold fn_written. rewrite !filter_app. fold (fn_written LDebug (FEntry LDebug (Some (name, mmf_target host port)) <$> chunk_texts 1 (Z.of_nat (length sizes)) sizes)).
    rewrite called_debug. done.
  - unfold fn_written. rewrite !filter_app. fold (fn_written LDebug (FEntry LDebug (Some (name, mmf_target host port)) <$> chunk_texts 1 (Z.of_nat (length sizes)) sizes)).
    rewrite called_debug. done.
Qed.
Definition error_lines (name host : string) (port : Z) (o : fn_end) : list fentry :=
  match o with
  | Rest => [FEntry LError None (rest_text (mmf_target host port))]
  | NoDial e => [FEntry LError (Some (name, mmf_target host port)) ("Error connecting to MMF " +:+ e)]
  | Broke _ => [FEntry LError (Some (name, mmf_target host port)) "MMF Error"]
  | NoRun _ | Complete => []
  end.
Lemma errors_only name host port sizes o lv : (2 <= number lv < 5)%nat →
  fn_written lv (fn_log name host port sizes o) = error_lines name host port o.
Proof.
  intros Hl. unfold fn_log. cbv zeta.
  assert (∀ fn t l, fn_written lv (FEntry LDebug fn t :: l) = fn_written lv l) as Hd.
  { intros fn t l. unfold fn_written. rewrite filter_cons_False; [done|]. cbn. lia. }
  assert (∀ fn t l, fn_written lv (FEntry LError fn t :: l) = FEntry LError fn t :: fn_written lv l) as He.
  { intros fn t l. unfold fn_written. rewrite filter_cons_True; [done|]. cbn. lia. }
  assert (∀ l k, fn_written lv (l ++ k) = (fn_written lv l ++ fn_written lv k)%list) as Ha by (intros; apply filter_app).
  assert (fn_written lv [] = []) as Hn by done.
  destruct o; rewrite ?Ha; rewrite ?He, ?Hd, ?Hn, ?called_hidden by lia; done.
Qed.

(** ** What can be told *)
Lemma same_end (a b s : string) : a +:+ s = b +:+ s → a = b.
Proof.
  intros E. assert (String.length a = String.length b) as Hl.
  { apply (f_equal String.length) in E. assert (∀ p q : string, String.length (p +:+ q) = (String.length p + String.length q)%nat) as L.
    { intros p q. induction p as [|x p IH]; [done|]. change (S (String.length (p +:+ q)) = S (String.length p + String.length q)). by rewrite IH. }
    rewrite !L in E. lia. }
  revert b Hl E. induction a as [|x a IH]; intros [|y b] Hl E; try done. cbn in Hl. injection E as -> E. f_equal. apply IH; [lia|done].
Qed.
Lemma rest_inj a b : rest_text a = rest_text b → a = b.
Proof. unfold rest_text. intros E%same_front. by apply same_end in E. Qed.
Lemma entry_inj l f t l' f' t' : FEntry l f t = FEntry l' f' t' → l = l' ∧ f = f' ∧ t = t'.
Proof. by intros [= -> -> ->]. Qed.
Lemma texts_inj (f : option (string * string)) (ts ts' : list string) : FEntry LDebug f <$> ts = FEntry LDebug f <$> ts' → ts = ts'.
Proof. revert ts'. induction ts as [|t ts IH]; intros [|t' ts'] E; try discriminate E; [done|]. cbn in E. apply cons_inj_s in E as [E1 E2]. apply entry_inj in E1 as (_ & _ & ->). f_equal. by apply IH. Qed.
Lemma tells name host port sizes o name' host' port' sizes' o' :
  Forall (λ b, 0 <= b) sizes → Forall (λ b, 0 <= b) sizes' →
  fn_log name host port sizes o = fn_log name' host' port' sizes' o' →
  SameKind o o' ∧ mmf_target host port = mmf_target host' port' ∧ (o ≠ Rest → name = name') ∧
  (∀ e, o = NoDial e → o' = NoDial e) ∧
  (Sent o → length sizes = length sizes' ∧ hundredths <$> sizes = hundredths <$> sizes').
Proof.
  intros Hs Hs'. assert (∀ sent sent' : list fentry, length sent = length sent' →
    (FEntry LDebug (Some (name, mmf_target host port)) <$> chunk_texts 1 (Z.of_nat (length sizes)) sizes) ++ sent =
    (FEntry LDebug (Some (name', mmf_target host' port')) <$> chunk_texts 1 (Z.of_nat (length sizes')) sizes') ++ sent' →
    (name, mmf_target host port) = (name', mmf_target host' port') → length sizes = length sizes' ∧ hundredths <$> sizes = hundredths <$> sizes')%list as Hsent.
  { intros sent sent' Hl E [= -> Ea]. rewrite Ea in E. pose proof E as El. apply (f_equal length) in El. rewrite !app_length, !fmap_length, !chunk_texts_length in El.
    split; [lia|]. apply app_inj_2 in E as [E _]; [|done]. apply texts_inj in E.
    eapply (chunk_texts_inj _ _ sizes Hs 1 1 sizes' Hs'); [lia|lia| | |exact E]; lia. }
  unfold fn_log. cbv zeta. destruct o as [|e|e|e|], o' as [|e'|e'|e'|]; cbn [app]; intros E; try discriminate E.
  - apply cons_inj_s in E as [E _]. apply entry_inj in E as (_ & _ & E%rest_inj). split_and!; done.
  - apply cons_inj_s in E as [E _]. apply entry_inj in E as (_ & [= -> Ea] & E%same_front). split_and!; try done. intros e0 [= <-]. by rewrite E.
  - apply cons_inj_s in E as [E _]. apply entry_inj in E as (_ & [= -> Ea] & _). split_and!; done.
  - apply cons_inj_s in E as [E1 E]. apply entry_inj in E1 as (_ & [= E1 E1'] & _). apply cons_inj_s in E as [_ E].
    split_and!; try done. intros _. eapply Hsent; [|exact E|congruence]. done.
  - exfalso. apply cons_inj_s in E as [_ E]. apply cons_inj_s in E as [_ E]. apply (f_equal last) in E. rewrite last_snoc in E.
    change (?l ++ [?a; ?b])%list with (l ++ [a] ++ [b])%list in E. rewrite app_assoc, last_snoc in E. discriminate E.
  - exfalso. apply cons_inj_s in E as [_ E]. apply cons_inj_s in E as [_ E]. apply (f_equal last) in E. rewrite last_snoc in E.
    change (?l ++ [?a; ?b])%list with (l ++ [a] ++ [b])%list in E. rewrite app_assoc, last_snoc in E. discriminate E.
  - apply cons_inj_s in E as [E1 E]. apply entry_inj in E1 as (_ & [= E1 E1'] & _). apply cons_inj_s in E as [_ E].
    split_and!; try done. intros _. eapply Hsent; [|exact E|congruence]. done.
Qed.
Lemma same_log name host port sizes o o' : fn_log name host port sizes o = fn_log name host port sizes o' ↔
  SameKind o o' ∧ ∀ e, o = NoDial e → o' = NoDial e.
Proof.
  split.
  - intros E. unfold fn_log in E. cbv zeta in E.
    destruct o as [|e|e|e|], o' as [|e'|e'|e'|]; cbn [app] in E; try discriminate E; try (split; [done|discriminate]).
    + apply cons_inj_s in E as [E _]. apply entry_inj in E as (_ & _ & E%same_front). split; [done|]. intros e0 [= <-]. by rewrite E.
    + exfalso. apply cons_inj_s in E as [_ E]. apply cons_inj_s in E as [_ E]. apply app_inv_head in E. discriminate E.
    + exfalso. apply cons_inj_s in E as [_ E]. apply cons_inj_s in E as [_ E]. apply app_inv_head in E. discriminate E.
  - intros [Hk He]. destruct o as [|e|e|e|], o' as [|e'|e'|e'|]; try done. by rewrite (He e eq_refl).
Qed.
Lemma noticed_iff name host port sizes o : fn_written LError (fn_log name host port sizes o) ≠ [] ↔ (Fails o ∧ ∀ e, o ≠ NoRun e).
Proof. rewrite errors_only by (cbn; lia). unfold Fails. destruct o; cbn; naive_solver. Qed.
Lemma named_iff name host port sizes o : (∀ x, x ∈ fn_written LError (fn_log name host port sizes o) → fe_fn x = Some (name, mmf_target host port)) ↔ o ≠ Rest.
Proof.
  rewrite errors_only by (cbn; lia). split.
  - intros H ->. specialize (H _ (elem_of_list_here _ _)). discriminate H.
  - intros Ho x Hx. destruct o; cbn in Hx; try done; first [by apply elem_of_nil in Hx|apply elem_of_list_singleton in Hx as ->; done].
Qed.
Lemma chunk_line name host port sizes o k b : Sent o → sizes !! k = Some b →
  fn_log name host port sizes o !! (2 + k)%nat =
  Some (FEntry LDebug (Some (name, mmf_target host port)) (chunk_text (Z.of_nat (S k)) (Z.of_nat (length sizes)) b)).
Proof.
  intros Ho Hb. assert (∀ l : list fentry, ((FEntry LDebug (Some (name, mmf_target host port)) <$> chunk_texts 1 (Z.of_nat (length sizes)) sizes) ++ l)%list !! k =
    Some (FEntry LDebug (Some (name, mmf_target host port)) (chunk_text (Z.of_nat (S k)) (Z.of_nat (length sizes)) b))) as H.
  { intros l. rewrite lookup_app_l by (rewrite fmap_length, chunk_texts_length; by apply lookup_lt_Some in Hb).
    rewrite list_lookup_fmap, (chunk_texts_lookup _ sizes 1 k b Hb). cbn [fmap option_fmap option_map]. do 3 f_equal. lia. }
  destruct o; try done; exact (H _).
Qed.
Lemma dv_one c : is_digit c = true → (dv 0 (String c "") < 10)%N.
Proof. destruct c as [[] [] [] [] [] [] [] []]; vm_compute; done. Qed.
Lemma pad2_columns z : 0 <= z → String.length (pad2 z) = Nat.max 2 (String.length (format_Z z)) ∧ (pad2 z = format_Z z ∨ pad2 z = "0" +:+ format_Z z).
Proof.
  intros Hz. unfold pad2. destruct (Z.ltb_spec z 10) as [Hl|Hl].
  - split; [|by right]. assert (z = 0 ∨ z = 1 ∨ z = 2 ∨ z = 3 ∨ z = 4 ∨ z = 5 ∨ z = 6 ∨ z = 7 ∨ z = 8 ∨ z = 9) as H by lia.
    destruct H as [->|[->|[->|[->|[->|[->|[->|[->|[->| ->]]]]]]]]]; reflexivity.
  - split; [|by left]. assert (dv 0 (format_Z z) = Z.to_N z) as E by (rewrite format_Z_nonneg by done; apply dv_format_N).
    assert (∀ c, Has c (format_Z z) → is_digit c = true) as Hd by (intros c; by apply digits_of).
    destruct (format_Z z) as [|c [|d s]]; cbn [String.length]; [cbn in E; lia| |lia].
    pose proof (dv_one c (Hd c (Has_here _ _))). lia.
Qed.
