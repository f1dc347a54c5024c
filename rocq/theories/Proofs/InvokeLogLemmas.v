(** The log of an invocation (C149). *)
From Coq Require Import Ascii String ZArith Lia.
From stdpp Require Import prelude strings gmap.
From Verif.Model Require Import GoStrings Types Filter Cache Chunk Logging FinalLog InvokeLog.
From Verif.Spec Require Import PageSpec InvokeLogSpec.
From Verif.Proofs Require Import StringLemmas PageText FinalLogLemmas.
Local Open Scope string_scope.

(** ** Texts *)
Definition starts_with_digit (s : string) : Prop := match s with String c _ => is_digit c = true | EmptyString => False end.
Lemma dec_starts n : starts_with_digit (dec n).
Proof.
  destruct (dec n) as [|c s] eqn:E.
  - unfold dec in E. rewrite format_Z_nonneg in E by lia. by apply format_N_nonempty in E.
  - cbn. apply (dec_plain n). rewrite E. apply Has_here.
Qed.
Lemma digit_start_app s t : starts_with_digit s → starts_with_digit (s +:+ t).
Proof. by destruct s. Qed.
Lemma spaces_cut n m s t : starts_with_digit s → starts_with_digit t → spaces n +:+ s = spaces m +:+ t → s = t.
Proof.
  intros Hs Ht. revert m. induction n as [|n IH]; intros [|m] E.
  - exact E.
  - destruct s as [|c s]; [done|]. cbn in *. injection E as -> _. done.
  - destruct t as [|c t]; [done|]. cbn in *. injection E as <- _. done.
  - apply (IH m). by injection E.
Qed.
Lemma app_assoc_s a b c : (a +:+ b) +:+ c = a +:+ (b +:+ c).
Proof. induction a as [|x a IH]; [done|]. change (String x ((a +:+ b) +:+ c) = String x (a +:+ (b +:+ c))). by rewrite IH. Qed.
Lemma pad_cut a b x y : pad5 (dec a) +:+ String " " x = pad5 (dec b) +:+ String " " y → a = b ∧ x = y.
Proof.
  unfold pad5. rewrite !app_assoc_s. intros E%spaces_cut; [|apply digit_start_app, dec_starts..].
  destruct (cut " " _ _ _ _ (dec_space a) (dec_space b) E) as [->%dec_inj ->]. done.
Qed.
Lemma counts_text_inj a u a' u' : counts_text a u = counts_text a' u' → a = a' ∧ u = u'.
Proof.
  unfold counts_text. intros E%same_front.
  destruct (pad_cut _ _ ("tickets active, " +:+ _) ("tickets active, " +:+ _) E) as [-> E1%same_front].
  by destruct (pad_cut _ _ "tickets inactive without assignment" "tickets inactive without assignment" E1) as [-> _].
Qed.
Lemma pools_text_inj a b : pools_text a = pools_text b → a = b.
Proof. unfold pools_text. intros E%same_front. by destruct (cut " " _ "pools" _ "pools" (dec_space a) (dec_space b) E) as [->%dec_inj _]. Qed.
Lemma chunks_text_inj a c b d : chunks_text a c = chunks_text b d → a = b ∧ c = d.
Proof.
  unfold chunks_text. intros E. destruct (cut " " _ ("pools split into " +:+ _) _ ("pools split into " +:+ _) (dec_space a) (dec_space b) E) as [->%dec_inj E1%same_front].
  by destruct (cut " " _ "chunks" _ "chunks" (dec_space c) (dec_space d) E1) as [->%dec_inj _].
Qed.
Lemma invalid_text_inj e f : invalid_text e = invalid_text f → e = f.
Proof. destruct e, f; try done; intros E; vm_compute in E; discriminate. Qed.

Lemma has_app c a b : Has c (a +:+ b) → Has c a ∨ Has c b.
Proof.
  induction a as [|x a IH]; [by right|]. intros H. change (Has c (String x (a +:+ b))) in H. inversion H as [s|d s H']; subst; [left; apply Has_here|].
  destruct (IH H') as [?|?]; [left; by apply Has_later|by right].
Qed.
Lemma no_percent_dec n : ¬ Has "%" (dec n).
Proof. by intros H%dec_plain. Qed.
Lemma no_percent_spaces n : ¬ Has "%" (spaces n).
Proof. induction n as [|n IH]; intros H; inversion H; auto. Qed.
Ltac no_percent := repeat match goal with
  | H : Has _ (dec _) |- _ => by apply no_percent_dec in H
  | H : Has _ (spaces _) |- _ => by apply no_percent_spaces in H
  | H : Has _ (pad5 _) |- _ => unfold pad5 in H
  | H : Has _ (_ +:+ _) |- _ => apply has_app in H as [H|H]
  end; repeat match goal with H : Has _ (String _ _) |- _ => inversion H; clear H; subst | H : Has _ "" |- _ => inversion H end.
Lemma counts_no_percent a u : ¬ Has "%" (counts_text a u).
Proof. unfold counts_text. intros H. no_percent. Qed.
Lemma cache_no_percent a : ¬ Has "%" (cache_text a).
Proof. unfold cache_text. intros H. no_percent. Qed.
Lemma pools_no_percent a : ¬ Has "%" (pools_text a).
Proof. unfold pools_text. intros H. no_percent. Qed.
Lemma chunks_no_percent a b : ¬ Has "%" (chunks_text a b).
Proof. unfold chunks_text. intros H. no_percent. Qed.
Lemma has_right c a b : Has c b → Has c (a +:+ b).
Proof. intros H. induction a as [|x a IH]; [done|]. change (Has c (String x (a +:+ b))). by apply Has_later. Qed.
Lemma has_left c a b : Has c a → Has c (a +:+ b).
Proof. induction 1 as [s|d s _ IH]; [apply Has_here|]. change (Has c (String d (s +:+ b))). by apply Has_later. Qed.
Lemma invalid_percent e : Has "%" (invalid_text e).
Proof. unfold invalid_text. apply has_left. change "Unable to fill pool with tickets, invalid: %w" with ("Unable to fill pool with tickets, invalid: " +:+ "%w"). apply has_right, Has_here. Qed.

(** ** Invalid pools *)
Lemma invalid_length name order : length (invalid_entries name order) = length (filter (λ kv, pool_valid kv.2 = false) order).
Proof.
  unfold invalid_entries. induction order as [|[k q] order IH]; [done|]. rewrite bind_cons, app_length, IH, filter_cons. cbn [snd].
  unfold pool_valid. destruct (validate_pool q); case_decide; done || congruence.
Qed.
Lemma filter_size (P : string * pool → Prop) `{!∀ x, Decision (P x)} (m : gmap string pool) : length (filter P (map_to_list m)) = size (filter P m).
Proof.
  induction m as [|k q m Hk IH] using map_ind; [by rewrite map_to_list_empty, map_filter_empty, map_size_empty|].
  rewrite (filter_Permutation _ _ _ (map_to_list_insert m k q Hk)), filter_cons. case_decide as Hp.
  - rewrite map_filter_insert_True by done. rewrite map_size_insert_None; [cbn; by rewrite IH|]. rewrite map_filter_lookup_None. by left.
  - rewrite map_filter_insert_False by done. by rewrite delete_notin.
Qed.
Lemma invalid_size name p order : order ≡ₚ map_to_list (pr_pools p) →
  length (invalid_entries name order) = size (filter (λ kv, pool_valid kv.2 = false) (pr_pools p)).
Proof. intros Ho. by rewrite invalid_length, (filter_Permutation _ _ _ Ho), filter_size. Qed.
Lemma invalid_valid p : (size (filter (λ kv, pool_valid kv.2 = false) (pr_pools p)) + size (valid_pools p) = size (pr_pools p))%nat.
Proof.
  unfold valid_pools. induction (pr_pools p) as [|k q m Hk IH] using map_ind; [by rewrite !map_filter_empty, !map_size_empty|].
  assert (∀ b, filter (λ kv : string * pool, pool_valid kv.2 = b) m !! k = None) as Hn by (intros b; rewrite map_filter_lookup_None; by left).
  rewrite (map_size_insert_None (M := gmap string) k q m Hk), <- IH.
  destruct (pool_valid q) eqn:E.
  - rewrite (map_filter_insert_False (λ kv : string * pool, pool_valid kv.2 = false) m k q) by (cbn; congruence). rewrite (delete_notin m k Hk).
    rewrite (map_filter_insert_True (λ kv : string * pool, pool_valid kv.2 = true) m k q) by done. rewrite (map_size_insert_None (M := gmap string) k q _ (Hn true)). lia.
  - rewrite (map_filter_insert_True (λ kv : string * pool, pool_valid kv.2 = false) m k q) by done. rewrite (map_size_insert_None (M := gmap string) k q _ (Hn false)).
    rewrite (map_filter_insert_False (λ kv : string * pool, pool_valid kv.2 = true) m k q) by (cbn; congruence). rewrite (delete_notin m k Hk). lia.
Qed.
Lemma invalid_reasons name order e : length (filter (λ x, en_text x = invalid_text e) (invalid_entries name order)) =
  length (filter (λ kv, validate_pool kv.2 = Some e) order).
Proof.
  unfold invalid_entries. induction order as [|[k q] order IH]; [done|]. rewrite bind_cons, filter_app, app_length, IH, filter_cons. cbn [snd].
  destruct (validate_pool q) as [f|]; cbn [app].
  - rewrite filter_cons, filter_nil. cbn [en_text]. destruct (decide (Some f = Some e)) as [[= ->]|Hn]; [by rewrite decide_True by done|].
    rewrite decide_False; [done|]. by intros ->%invalid_text_inj.
  - by rewrite decide_False.
Qed.
Lemma invalid_errors name order : Forall (λ x, en_level x = LError ∧ en_profile x = name ∧ ∃ e, en_text x = invalid_text e) (invalid_entries name order).
Proof.
  unfold invalid_entries. induction order as [|[k q] order IH]; [constructor|]. rewrite bind_cons. apply Forall_app. split; [|done].
  cbn [snd]. destruct (validate_pool q) as [e|]; [|constructor]. apply Forall_cons_2; [|constructor]. split; [done|]. split; [done|]. by exists e.
Qed.

(** ** Levels *)
Lemma written_all lv l : Forall (λ x, number (en_level x) <= number lv)%nat l → written lv l = l.
Proof. unfold written. induction 1 as [|x l Hx Hl IH]; [done|]. by rewrite filter_cons_True, IH. Qed.
Lemma written_none lv l : Forall (λ x, ¬ number (en_level x) <= number lv)%nat l → written lv l = [].
Proof. unfold written. induction 1 as [|x l Hx Hl IH]; [done|]. by rewrite filter_cons_False. Qed.
Lemma written_app lv l k : written lv (l ++ k) = (written lv l ++ written lv k)%list.
Proof. apply filter_app. Qed.
Definition chunk_entry (p : profile) (ts : list (ticket * list string)) : list entry :=
  match build_requests p ts with Done cs => [Entry LDebug (pr_name p) (chunks_text (size (valid_pools p)) (length cs))] | Panic => [] end.
Lemma log_parts p order ts u : invoke_log p order ts u =
  ([Entry LInfo (pr_name p) (counts_text (length ts) u); Entry LDebug (pr_name p) (cache_text (length ts))] ++
   invalid_entries (pr_name p) order ++ [Entry LDebug (pr_name p) (pools_text (size (valid_pools p)))] ++ chunk_entry p ts)%list.
Proof. reflexivity. Qed.
Lemma chunk_level p ts : Forall (λ x, en_level x = LDebug) (chunk_entry p ts).
Proof. unfold chunk_entry. destruct (build_requests p ts); [apply Forall_cons_2; [done|constructor]|constructor]. Qed.
Lemma written_levels p order ts u lv : written lv (invoke_log p order ts u) =
  match lv with
  | LTrace | LDebug => invoke_log p order ts u
  | LInfo => Entry LInfo (pr_name p) (counts_text (length ts) u) :: invalid_entries (pr_name p) order
  | LWarn | LError => invalid_entries (pr_name p) order
  | LFatal | LPanic => []
  end.
Proof.
  pose proof (invalid_errors (pr_name p) order) as He. pose proof (chunk_level p ts) as Hc.
  assert (∀ n, (2 <= n)%nat → Forall (λ x, number (en_level x) <= n)%nat (invalid_entries (pr_name p) order)) as H2.
  { intros n Hn. eapply Forall_impl; [exact He|]. intros x (-> & _). exact Hn. }
  assert (∀ n, (n < 2)%nat → Forall (λ x, ¬ number (en_level x) <= n)%nat (invalid_entries (pr_name p) order)) as H2'.
  { intros n Hn. eapply Forall_impl; [exact He|]. intros x (-> & _). cbn. lia. }
  assert (∀ n, (n < 5)%nat → Forall (λ x, ¬ number (en_level x) <= n)%nat (chunk_entry p ts)) as H3.
  { intros n Hn. eapply Forall_impl; [exact Hc|]. intros x ->. cbn. lia. }
  assert (∀ n, (5 <= n)%nat → Forall (λ x, number (en_level x) <= n)%nat (invoke_log p order ts u)) as H4.
  { intros n Hn. rewrite log_parts. apply Forall_app. split; [repeat (apply Forall_cons_2; [cbn; lia|]); constructor|].
    apply Forall_app. split; [apply H2; lia|]. apply Forall_app. split; [apply Forall_cons_2; [cbn; lia|constructor]|].
    eapply Forall_impl; [exact Hc|]. intros x ->. cbn. lia. }
  destruct lv; try (apply written_all, H4; cbn; lia).
  all: rewrite log_parts, !written_app; rewrite (written_none _ (chunk_entry p ts)) by (apply H3; cbn; lia).
  all: first [rewrite (written_all _ (invalid_entries _ _)) by (apply H2; cbn; lia) | rewrite (written_none _ (invalid_entries _ _)) by (apply H2'; cbn; lia)].
  all: unfold written; rewrite ?filter_cons, ?filter_nil; cbn [en_level number]; repeat (case_decide; try lia); cbn [app]; rewrite ?app_nil_r; done.
Qed.

(** ** What can be told from the log *)
Lemma cons_entry l n t k l' n' t' k' : Entry l n t :: k = Entry l' n' t' :: k' → n = n' ∧ t = t' ∧ k = k'.
Proof. by intros [= -> -> -> ->]. Qed.
Lemma tells_debug p order ts u cs p' order' ts' u' cs' :
  order ≡ₚ map_to_list (pr_pools p) → order' ≡ₚ map_to_list (pr_pools p') →
  build_requests p ts = Done cs → build_requests p' ts' = Done cs' →
  written LDebug (invoke_log p order ts u) = written LDebug (invoke_log p' order' ts' u') →
  pr_name p = pr_name p' ∧ length ts = length ts' ∧ u = u' ∧ size (valid_pools p) = size (valid_pools p') ∧
  size (pr_pools p) = size (pr_pools p') ∧ length cs = length cs'.
Proof.
  intros Ho Ho' Ec Ec'. rewrite !written_levels, !log_parts. unfold chunk_entry. rewrite Ec, Ec'. cbn [app]. intros E.
  apply cons_entry in E as (En & Et & E). apply cons_entry in E as (_ & _ & E). apply counts_text_inj in Et as [Hl ->].
  assert (length (invalid_entries (pr_name p) order) = length (invalid_entries (pr_name p') order')) as Hn.
  { apply (f_equal length) in E. rewrite !app_length in E. cbn in E. lia. }
  apply app_inj_1 in E as [Ei E]; [|exact Hn]. apply cons_entry in E as (_ & Ep & E). apply cons_entry in E as (_ & Eq & _). apply pools_text_inj in Ep. apply chunks_text_inj in Eq as [_ Eq].
  rewrite (invalid_size _ p _ Ho), (invalid_size _ p' _ Ho') in Hn. pose proof (invalid_valid p). pose proof (invalid_valid p').
  split_and!; try done; lia.
Qed.
Lemma tells_info p order ts u p' order' ts' u' :
  order ≡ₚ map_to_list (pr_pools p) → order' ≡ₚ map_to_list (pr_pools p') →
  written LInfo (invoke_log p order ts u) = written LInfo (invoke_log p' order' ts' u') →
  pr_name p = pr_name p' ∧ length ts = length ts' ∧ u = u' ∧
  size (filter (λ kv, pool_valid kv.2 = false) (pr_pools p)) = size (filter (λ kv, pool_valid kv.2 = false) (pr_pools p')).
Proof.
  intros Ho Ho'. rewrite !written_levels. intros E. apply cons_entry in E as (En & Et & E). apply counts_text_inj in Et as [Hl ->].
  apply (f_equal length) in E. rewrite (invalid_size _ p _ Ho), (invalid_size _ p' _ Ho') in E. done.
Qed.
Lemma reasons_told p order ts u e : order ≡ₚ map_to_list (pr_pools p) →
  length (filter (λ x, en_text x = invalid_text e) (invoke_log p order ts u)) = size (filter (λ kv, validate_pool kv.2 = Some e) (pr_pools p)).
Proof.
  intros Ho. rewrite log_parts, !filter_app, !app_length, invalid_reasons, (filter_Permutation _ _ _ Ho), filter_size.
  assert (∀ t, ¬ Has "%" t → t ≠ invalid_text e) as Hne. { intros t Ht ->. apply Ht, invalid_percent. }
  rewrite !filter_cons, !filter_nil. cbn [en_text]. rewrite !decide_False by (apply Hne; auto using counts_no_percent, cache_no_percent, pools_no_percent).
  unfold chunk_entry. destruct (build_requests p ts); [|cbn; lia]. rewrite filter_cons, filter_nil. cbn [en_text].
  rewrite decide_False by (apply Hne, chunks_no_percent). cbn. lia.
Qed.
Lemma percent_iff p order ts u x : x ∈ invoke_log p order ts u → Has "%" (en_text x) ↔ en_level x = LError.
Proof.
  rewrite log_parts, !elem_of_app. intros [Hx|[Hx|[Hx|Hx]]].
  - apply elem_of_cons in Hx as [-> |[-> |Hx]%elem_of_cons]; [..|by apply elem_of_nil in Hx]; cbn [en_text en_level]; (split; [|done]);
      intros H; [by apply counts_no_percent in H|by apply cache_no_percent in H].
  - pose proof (proj1 (Forall_forall _ _) (invalid_errors _ _) _ Hx) as (E & _ & e & ->). split; [done|]. intros _. apply invalid_percent.
  - apply elem_of_list_singleton in Hx as ->. cbn. split; [|done]. by intros H%pools_no_percent.
  - unfold chunk_entry in Hx. destruct (build_requests p ts); [|by apply elem_of_nil in Hx]. apply elem_of_list_singleton in Hx as ->. cbn.
    split; [|done]. by intros H%chunks_no_percent.
Qed.

(** ** Unassigned *)
Lemma unassigned_size c c' : unassigned c c' = size (c_inactive c' ∖ dom (c_assign c)).
Proof.
  unfold unassigned. generalize (c_inactive c') (dom (c_assign c)). intros I A. induction I as [|k I Hk IH] using set_ind_L.
  - rewrite elements_empty, filter_nil. by rewrite (difference_disjoint_L ∅ A) by set_solver.
  - rewrite (filter_Permutation _ _ _ (elements_union_singleton I k Hk)), filter_cons. case_decide as Hi; cbn [length]; rewrite IH.
    + assert (({[k]} ∪ I) ∖ A = {[k]} ∪ (I ∖ A)) as -> by set_solver.
      pose proof (size_union (C := gset string) {[k]} (I ∖ A) ltac:(set_solver)) as ->. by rewrite size_singleton.
    + f_equal. apply leibniz_equiv. intros x. set_solver.
Qed.
Lemma unassigned_exact c : unassigned c c =
  (size (dom (c_tickets c) ∩ c_inactive c ∖ dom (c_assign c)) + size (c_inactive c ∖ dom (c_tickets c) ∖ dom (c_assign c)))%nat.
Proof.
  rewrite unassigned_size. set (T := dom (c_tickets c)). set (I := c_inactive c). set (A := dom (c_assign c)).
  pose proof (size_union (C := gset string) (T ∩ I ∖ A) (I ∖ T ∖ A) ltac:(set_solver)) as <-.
  f_equal. apply leibniz_equiv. intros x. destruct (decide (x ∈ T)); set_solver.
Qed.

Lemma each_invalid p order ts u lv : order ≡ₚ map_to_list (pr_pools p) →
  length (filter (λ x, en_level x = LError) (written lv (invoke_log p order ts u))) =
  if decide (lv = LFatal ∨ lv = LPanic) then 0 else InvalidPools p.
Proof.
  intros Ho. pose proof (invalid_errors (pr_name p) order) as He.
  assert (filter (λ x, en_level x = LError) (invalid_entries (pr_name p) order) = invalid_entries (pr_name p) order) as Ef.
  { clear Ho. induction He as [|x l (Hx & _) Hl IH]; [done|]. by rewrite filter_cons_True, IH. }
  assert (filter (λ x, en_level x = LError) (chunk_entry p ts) = []) as Ec.
  { pose proof (chunk_level p ts) as Hc. induction Hc as [|x l Hx Hl IH]; [done|]. rewrite filter_cons_False; [done|]. by rewrite Hx. }
  assert (length (filter (λ x, en_level x = LError) (invoke_log p order ts u)) = InvalidPools p) as El.
  { rewrite log_parts, !filter_app, Ef, Ec, !app_length, (invalid_size _ p _ Ho). rewrite !filter_cons, !filter_nil. cbn [en_level].
    rewrite !decide_False by done. unfold InvalidPools. cbn. lia. }
  rewrite written_levels. destruct lv; case_decide as Hd; try (exfalso; naive_solver); try done.
  - rewrite filter_cons_False by done. by rewrite Ef, (invalid_size _ p _ Ho).
  - by rewrite Ef, (invalid_size _ p _ Ho).
  - by rewrite Ef, (invalid_size _ p _ Ho).
Qed.
Lemma line_for e : invalid_text e = LineFor e.
Proof. by destruct e. Qed.
Lemma length_app_s a b : String.length (a +:+ b) = (String.length a + String.length b)%nat.
Proof. induction a as [|x a IH]; [done|]. change (S (String.length (a +:+ b)) = S (String.length a + String.length b)). by rewrite IH. Qed.
Lemma spaces_length n : String.length (spaces n) = n.
Proof. induction n as [|n IH]; cbn; congruence. Qed.
Lemma pad5_columns n : String.length (pad5 (dec n)) = Nat.max 5 (String.length (dec n)) ∧ ∃ k, pad5 (dec n) = spaces k +:+ dec n.
Proof. unfold pad5. rewrite length_app_s, spaces_length. split; [lia|by eexists]. Qed.
