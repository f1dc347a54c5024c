(** Lemmas for C95-C97. *)
From Coq Require Import Ascii String ZArith NArith Lia.
From stdpp Require Import prelude strings gmap.
From Verif.Model Require Import GoStrings Types Proto Handlers Gateway Metrics.
From Verif.Spec Require Import MetricsSpec.
From Verif.Proofs Require Import HandlerLemmas.
Local Open Scope string_scope.
Local Open Scope Z_scope.

Lemma list_ascii_app s1 s2 : list_ascii_of_string (s1 +:+ s2) = (list_ascii_of_string s1 ++ list_ascii_of_string s2)%list.
Proof.
  induction s1 as [|c s1 IH]; [reflexivity|]. change (String c s1 +:+ s2) with (String c (s1 +:+ s2)).
  cbn [list_ascii_of_string]. by rewrite IH.
Qed.
Lemma string_of_app l1 l2 : string_of_list_ascii (l1 ++ l2)%list = string_of_list_ascii l1 +:+ string_of_list_ascii l2.
Proof. induction l1 as [|c l1 IH]; [reflexivity|]. exact (f_equal (String c) IH). Qed.

Lemma take_while_split (f : ascii → bool) l :
  ∃ l', l = (take_while f l ++ l')%list ∧ Forall (λ x, f x = true) (take_while f l) ∧
    match l' with [] => True | c :: _ => f c = false end.
Proof.
  induction l as [|c l (l' & E & Hf & Hl)]; cbn; [by exists []|]. destruct (f c) eqn:Ec.
  - exists l'. split; [by rewrite E at 1|]. split; [by constructor|done].
  - exists (c :: l). done.
Qed.
Lemma drop_while_split (f : ascii → bool) l :
  ∃ l', l = (l' ++ drop_while f l)%list ∧ Forall (λ x, f x = true) l' ∧
    match drop_while f l with [] => True | c :: _ => f c = false end.
Proof.
  induction l as [|c l (l' & E & Hf & Hl)]; cbn; [by exists []|]. destruct (f c) eqn:Ec.
  - exists (c :: l'). split; [by rewrite E at 1|]. split; [by constructor|done].
  - exists []. done.
Qed.
Lemma only_slashes l : Forall (λ c, is_slash c = true) l → OnlySlashes (string_of_list_ascii l).
Proof. induction 1 as [|c l Hc _ IH]; [done|]. split; [|done]. by apply Ascii.eqb_eq. Qed.
Lemma no_slashes l : Forall (λ c, negb (is_slash c) = true) l → NoSlash (string_of_list_ascii l).
Proof. induction 1 as [|c l Hc _ IH]; [done|]. split; [|done]. intros ->. discriminate Hc. Qed.

Lemma base_last t : LastElement t (path_base t).
Proof.
  unfold path_base. destruct (String.eqb_spec t "") as [-> |Ht]; [by left|]. right.
  destruct (drop_while_split is_slash (rev (list_ascii_of_string t))) as (sl & E & Hsl & Hd).
  destruct (drop_while is_slash _) as [|c l] eqn:El.
  - left. split; [done|]. split; [|done].
    rewrite app_nil_r in E. rewrite <-(string_of_list_ascii_of_string t), <-(rev_involutive (list_ascii_of_string t)), E.
    apply only_slashes. by apply Forall_rev.
  - right. destruct (take_while_split (λ c, negb (is_slash c)) (c :: l)) as (q & Eq & Hq & Hc).
    set (m := take_while (λ c, negb (is_slash c)) (c :: l)) in *.
    assert (m ≠ []) as Hm. { unfold m. cbn. rewrite Hd. done. }
    split.
    { intros Hs. apply Hm. rewrite <-(rev_involutive m). destruct (rev m); [done|discriminate Hs]. }
    split; [apply no_slashes; by apply Forall_rev|].
    exists (string_of_list_ascii (rev q)), (string_of_list_ascii (rev sl)). split; [|split].
    + rewrite <-(string_of_list_ascii_of_string t) at 1. rewrite <-(rev_involutive (list_ascii_of_string t)), E, Eq.
      rewrite !rev_app_distr, !string_of_app. clear. generalize (string_of_list_ascii (rev sl)). intros s.
      induction (string_of_list_ascii (rev q)) as [|x a IH]; [done|]. exact (f_equal (String x) IH).
    + apply only_slashes. by apply Forall_rev.
    + destruct q as [|x q]; [by left|]. right. exists (string_of_list_ascii (rev q)). cbn [rev].
      rewrite string_of_app. apply negb_false_iff, Ascii.eqb_eq in Hc. by rewrite Hc.
Qed.

Lemma micros b e : b <= e → WholeMicros b e (Z.quot (e - b) 1000).
Proof.
  intros H. unfold WholeMicros. rewrite Z.quot_div_nonneg by lia.
  pose proof (Z.div_mod (e - b) 1000 ltac:(lia)). pose proof (Z.mod_pos_bound (e - b) 1000 ltac:(lia)). lia.
Qed.

Lemma handle_rpcs_acc evs : ∀ m, handle_rpcs evs m =
  RpcMetrics (m_durations m ++ m_durations (handle_rpcs evs (RpcMetrics [] [])))%list
             (m_errors m ++ m_errors (handle_rpcs evs (RpcMetrics [] [])))%list.
Proof.
  induction evs as [|[t st] evs IH]; intros [ds es]; cbn [handle_rpcs m_durations m_errors].
  { by rewrite !app_nil_r. }
  rewrite (IH (handle_rpc t st (RpcMetrics ds es))), (IH (handle_rpc t st (RpcMetrics [] []))).
  destruct st; cbn; rewrite <-?app_assoc; reflexivity.
Qed.

Lemma handle_rpcs_measured evs : Forall GoodStat evs →
  Measured evs (m_durations (handle_rpcs evs (RpcMetrics [] []))) (m_errors (handle_rpcs evs (RpcMetrics [] []))).
Proof.
  induction 1 as [|[tag st] evs Hst Hevs IH]; [constructor|].
  cbn [handle_rpcs]. rewrite handle_rpcs_acc. cbn [m_durations m_errors].
  destruct st as [b e err|]; [|by constructor].
  pose proof Hst as Hbe. change (b <= e) in Hbe.
  cbn [handle_rpc m_durations m_errors app].
  assert (CallOf tag (match tag with Some t => path_base t | None => "" end)) as Hm.
  { destruct tag as [t|]; [apply base_last|done]. }
  destruct err; cbn [app]; [apply Measured_failed|apply Measured_ok]; try done; by apply micros.
Qed.

Lemma service_methods r : path_base (full_method r) = rpc_name r.
Proof. destruct r; vm_compute; reflexivity. Qed.
Lemma service_methods_distinct r r' : rpc_name r = rpc_name r' → r = r'.
Proof. destruct r, r'; intros H; try reflexivity; discriminate H. Qed.

(** ** Histograms *)
Lemma recorded_sent cfg c ids n : state_calls_recorded cfg c ids = Some n ↔
  ∃ us, set_active_start cfg c ids = Send us ∧ n = Z.of_nat (length us).
Proof.
  unfold state_calls_recorded, set_active_start. cbv zeta.
  destruct (Z.of_nat (length ids) =? 0); [naive_solver|]. destruct (cfg_max_updates cfg <? _); [naive_solver|].
  unfold state_updates. split.
  - intros [= <-]. eexists. split; [reflexivity|]. by rewrite map_length.
  - intros (us & [= <-] & ->). by rewrite map_length.
Qed.

Lemma succeeded_le rs : succeeded rs <= Z.of_nat (length rs).
Proof. unfold succeeded. pose proof (filter_length (λ r, r_err r = None) rs). lia. Qed.
Lemma succeeded_all rs : succeeded rs = Z.of_nat (length rs) ↔ Forall (λ r, r_err r = None) rs.
Proof.
  unfold succeeded. induction rs as [|r rs IH]; [split; [constructor|done]|].
  pose proof (filter_length (λ r, r_err r = None) rs) as Hle.
  rewrite filter_cons, Forall_cons. destruct (decide (r_err r = None)) as [E|E]; cbn [length].
  - rewrite <-IH. split; intros H; [split; [done|lia]|lia].
  - split; [lia|naive_solver].
Qed.

Lemma recorded_ok cfg c ids n rs : state_calls_recorded cfg c ids = Some n →
  length rs = length (valid_ids ids) →
  succeeded rs <= n ∧ (succeeded rs = n ↔ s_code (set_active_finish ids rs) = OK).
Proof.
  intros H Hl. apply recorded_sent in H as (us & Hs & ->).
  assert (length us = length (valid_ids ids)) as Hu.
  { unfold set_active_start in Hs. cbv zeta in Hs. destruct (Z.of_nat (length ids) =? 0); [discriminate Hs|].
    destruct (cfg_max_updates cfg <? _); [discriminate Hs|]. injection Hs as <-. unfold state_updates. by rewrite map_length. }
  rewrite Hu, <-Hl. split; [apply succeeded_le|]. rewrite succeeded_all, Forall_forall, <-(collect_errs_empty (valid_ids ids) rs) by done.
  unfold set_active_finish, state_update_status. case_bool_decide; cbn; naive_solver.
Qed.

Lemma assign_recorded oe req n : assignments_recorded oe req = Some n ↔
  ∃ us, create_assignments_start oe req = Send us ∧ n = Z.of_nat (length us).
Proof. unfold assignments_recorded. destruct (create_assignments_start oe req); naive_solver. Qed.

(** ** The expiration cycle *)
Lemma expiration_duration_spec a b : a <= b →
  ∃ ms, expiration_duration a b = ms * 1000 ∧ a + ms * 1000000 <= b < a + (ms + 1) * 1000000.
Proof.
  intros H. exists ((b - a) / 1000000). unfold expiration_duration.
  rewrite (Z.quot_div_nonneg (b - a)) by lia.
  rewrite Z.quot_div_nonneg; [|apply Z.div_pos; lia|lia]. rewrite Z.div_div by lia. split; [lia|].
  pose proof (Z.div_mod (b - a) 1000000 ltac:(lia)). pose proof (Z.mod_pos_bound (b - a) 1000000 ltac:(lia)). lia.
Qed.
