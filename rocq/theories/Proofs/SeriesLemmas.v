(** Lemmas about the time series kept. *)
From Coq Require Import Ascii String ZArith NArith Lia.
From stdpp Require Import prelude strings gmap.
From Verif.Model Require Import GoStrings Types Proto Wire Handlers Invoke Gateway Metrics Series.
From Verif.Spec Require Import SeriesSpec.
From Verif.Proofs Require Import StringLemmas SampleLemmas MetricsLemmas.
Local Open Scope string_scope.
Local Open Scope Z_scope.

Lemma kept_elem cfg tx cs x : x ∈ kept cfg tx cs ↔ ∃ c, c ∈ cs ∧ x ∈ call_series cfg tx c.
Proof. unfold kept. rewrite elem_of_remove_dups, elem_of_list_bind. naive_solver. Qed.

Lemma kept_nodup cfg tx cs : NoDup (kept cfg tx cs).
Proof. apply NoDup_remove_dups. Qed.

Lemma call_series_elem cfg tx c x : x ∈ call_series cfg tx c ↔
  x ∈ handler_series cfg c ∨ x = SDuration (rpc_name (rpc_of c)) ∨
  ∃ t, error_of cfg tx c = Some t ∧ x = SErrors (rpc_name (rpc_of c)) t.
Proof.
  unfold call_series, handle_rpc, stats_series. cbn [m_durations m_errors app map fst].
  rewrite service_methods. rewrite !elem_of_app. rewrite elem_of_cons.
  destruct (error_of cfg tx c) as [t|]; cbn.
  - rewrite elem_of_list_singleton. naive_solver.
  - rewrite elem_of_nil. naive_solver.
Qed.

Lemma rpc_name_in r : rpc_name r ∈ service_calls.
Proof. destruct r; cbn; unfold service_calls; rewrite !elem_of_cons; tauto. Qed.

(** ** Only these *)

Lemma error_fixed tx n t : (n, t) ∈ fixed_errors tx → SErrors n t ∈ fixed_series tx.
Proof.
  intros H. unfold fixed_series. rewrite !elem_of_app. right; left.
  apply elem_of_list_fmap. by exists (n, t).
Qed.

Ltac in_list := unfold fixed_errors; repeat (first [exact (elem_of_list_here _ _) | apply elem_of_list_further]).

Lemma errors_only cfg tx c t : 0 <= cfg_max_updates cfg → error_of cfg tx c = Some t →
  SErrors (rpc_name (rpc_of c)) t ∈ fixed_series tx ∨ OwnSeries (cfg_max_updates cfg) c (SErrors (rpc_name (rpc_of c)) t).
Proof.
  intros Hm. destruct c as [r len|t0 now o r|ids rs|ids rs|prof fns|ro oe|ids]; cbn [error_of rpc_of rpc_name].
  - intros [= <-]. right. exists (rpc_name r). split; [apply rpc_name_in|]. reflexivity.
  - unfold create_error. destruct (create_ticket _ _ _ _) as [[]|us]; cbn;
      [intros [= <-]; left; apply error_fixed; in_list ..|].
    destruct (r_err r) as [[]|]; cbn; [intros [= <-]; left; apply error_fixed; in_list ..|done].
  - unfold set_active_error, set_active_start.
    destruct (Z.eqb_spec (Z.of_nat (length ids)) 0) as [E|E]; [intros [= <-]; left; apply error_fixed; in_list|].
    destruct (Z.ltb_spec (cfg_max_updates cfg) (Z.of_nat (length ids))) as [H|H]; [intros [= <-]; right; split; [done|reflexivity]|].
    unfold set_active_finish, state_update_status. case_bool_decide; cbn; [done|]. intros [= <-]; left; apply error_fixed; in_list.
  - unfold set_active_error, set_active_start.
    destruct (Z.eqb_spec (Z.of_nat (length ids)) 0) as [E|E]; [intros [= <-]; left; apply error_fixed; in_list|].
    destruct (Z.ltb_spec (cfg_max_updates cfg) (Z.of_nat (length ids))) as [H|H]; [intros [= <-]; right; split; [done|reflexivity]|].
    unfold set_active_finish, state_update_status. case_bool_decide; cbn; [done|]. intros [= <-]; left; apply error_fixed; in_list.
  - unfold invoke_error, invoke_rejects. destruct prof as [p|]; [destruct (length fns =? 0)%nat|]; cbn; [|done|];
      intros [= <-]; left; apply error_fixed; in_list.
  - unfold assign_error. destruct (create_assignments_start _ _) as [[]|us]; cbn;
      [intros [= <-]; left; apply error_fixed; in_list ..|done].
  - done.
Qed.

Lemma plain_fixed tx x : x ∈ [SActivations; SDeactivations; SAssignments; SWatches] → x ∈ fixed_series tx.
Proof. intros H. unfold fixed_series. rewrite !elem_of_app. by right; right. Qed.

Lemma handler_only cfg tx c x : x ∈ handler_series cfg c →
  x ∈ fixed_series tx ∨ OwnSeries (cfg_max_updates cfg) c x.
Proof.
  destruct c as [r len|t0 now o r|ids rs|ids rs|prof fns|ro oe|ids]; cbn [handler_series].
  1,2: by intros ?%elem_of_nil.
  - destruct (state_calls_recorded _ _ _); [|by intros ?%elem_of_nil]. intros ->%elem_of_list_singleton. left. apply plain_fixed. in_list.
  - destruct (state_calls_recorded _ _ _); [|by intros ?%elem_of_nil]. intros ->%elem_of_list_singleton. left. apply plain_fixed. in_list.
  - destruct (invoke_rejects _ _); [by intros ?%elem_of_nil|]. intros (f & -> & [Hf Hin]%elem_of_list_filter)%elem_of_list_fmap.
    right. exists f.1. split; [|done]. destruct f as [n b]. cbn in *. by subst b.
  - destruct (assignments_recorded _ _); [|by intros ?%elem_of_nil]. intros ->%elem_of_list_singleton. left. apply plain_fixed. in_list.
  - intros ->%elem_of_list_singleton. left. apply plain_fixed. in_list.
Qed.

Lemma series_only cfg tx cs x : 0 <= cfg_max_updates cfg → x ∈ kept cfg tx cs →
  x ∈ fixed_series tx ∨ ∃ c, c ∈ cs ∧ OwnSeries (cfg_max_updates cfg) c x.
Proof.
  intros Hm (c & Hc & Hx)%kept_elem. apply call_series_elem in Hx as [Hx|[->|(t & Ht & ->)]].
  - destruct (handler_only cfg tx c x Hx); [by left|right; by exists c].
  - left. unfold fixed_series. rewrite !elem_of_app. left. apply elem_of_list_fmap. eexists. split; [done|apply rpc_name_in].
  - destruct (errors_only cfg tx c t Hm Ht); [by left|right; by exists c].
Qed.

(** ... and a bound on their number. *)
Lemma series_bound cfg tx cs names : 0 <= cfg_max_updates cfg →
  (∀ c, c ∈ cs → match c with
                 | CiTooLong _ _ => False
                 | CiActivate ids _ | CiDeactivate ids _ => Z.of_nat (length ids) <= cfg_max_updates cfg
                 | CiInvoke _ fns => ∀ f, f ∈ fns → f.1 ∈ names
                 | _ => True
                 end) →
  (length (kept cfg tx cs) <= 25 + length names)%nat.
Proof.
  intros Hm H. transitivity (length (fixed_series tx ++ map SMatches names)).
  - apply submseteq_length, NoDup_submseteq; [apply kept_nodup|]. intros x Hx. apply elem_of_app.
    destruct (series_only cfg tx cs x Hm Hx) as [?|(c & Hc & Ho)]; [by left|right]. specialize (H c Hc).
    destruct c; cbn in Ho; try done; try lia.
    destruct Ho as (n & Hn & ->). apply elem_of_list_fmap. exists n. split; [done|]. exact (H _ Hn).
  - rewrite app_length, map_length. unfold fixed_series. rewrite !app_length, !map_length. cbn. lia.
Qed.

(** ** All of these *)

Lemma series_duration cfg tx c : SDuration (rpc_name (rpc_of c)) ∈ call_series cfg tx c.
Proof. apply call_series_elem. by right; left. Qed.

Lemma own_long cfg tx r len : SErrors (rpc_name r) (long_text len) ∈ call_series cfg tx (CiTooLong r len).
Proof. apply call_series_elem. right; right. eexists. split; reflexivity. Qed.

Lemma own_many cfg tx ids rs : 0 <= cfg_max_updates cfg < Z.of_nat (length ids) →
  SErrors "ActivateTickets" (many_text "activations" (cfg_max_updates cfg) (Z.of_nat (length ids))) ∈ call_series cfg tx (CiActivate ids rs) ∧
  SErrors "DeactivateTickets" (many_text "deactivations" (cfg_max_updates cfg) (Z.of_nat (length ids))) ∈ call_series cfg tx (CiDeactivate ids rs).
Proof.
  intros H. split; apply call_series_elem; right; right; cbn [error_of rpc_of rpc_name]; unfold set_active_error, set_active_start;
    (destruct (Z.eqb_spec (Z.of_nat (length ids)) 0); [lia|]); (destruct (Z.ltb_spec (cfg_max_updates cfg) (Z.of_nat (length ids))); [|lia]);
    (eexists; split; reflexivity).
Qed.

Lemma own_name cfg tx p fns n : (n, true) ∈ fns → SMatches n ∈ call_series cfg tx (CiInvoke (Some p) fns).
Proof.
  intros H. apply call_series_elem. left. cbn [handler_series invoke_rejects].
  destruct fns as [|f fns]; [by apply elem_of_nil in H|]. cbn [length Nat.eqb].
  apply elem_of_list_fmap. exists (n, true). split; [done|]. by apply elem_of_list_filter.
Qed.

(** The texts are different. *)
Lemma append_inj_l (a b c : string) : a +:+ b = a +:+ c → b = c.
Proof. induction a as [|x a IH]; [done|]. intros [= H]. by apply IH. Qed.

Lemma long_text_inj a b : long_text a = long_text b → a = b.
Proof. unfold long_text. intros H%append_inj_l%append_inj_r. by apply format_Z_inj. Qed.

Lemma many_text_inj w max a b : many_text w max a = many_text w max b → a = b.
Proof.
  unfold many_text, invalid. intros H. do 6 apply append_inj_l in H. apply append_inj_r in H. by apply format_Z_inj.
Qed.

(** ** Many series *)

Lemma kept_at_least {A} cfg tx (f : A → call_in) (g : A → series) l :
  NoDup l → (∀ a b, a ∈ l → b ∈ l → g a = g b → a = b) → (∀ a, a ∈ l → g a ∈ call_series cfg tx (f a)) →
  (length l <= length (kept cfg tx (map f l)))%nat.
Proof.
  intros Hl Hinj Hin. rewrite <-(map_length g l). apply submseteq_length, NoDup_submseteq.
  - clear Hin. induction Hl as [|a l Ha Hl IH]; [constructor|]. cbn. constructor.
    + intros (b & E & Hb)%elem_of_list_fmap. apply Ha. rewrite (Hinj a b); [done|left|by right|done].
    + apply IH. intros x y Hx Hy. apply Hinj; by right.
  - intros x (a & -> & Ha)%elem_of_list_fmap. apply kept_elem. exists (f a). split; [|by apply Hin].
    apply elem_of_list_fmap. by exists a.
Qed.

Lemma ids_bytes n : String.length (IdsBytes (replicate n "")) = (2 * n)%nat.
Proof.
  induction n as [|n IH]; [done|]. unfold IdsBytes in *. cbn [replicate map enc_fields].
  rewrite app_length_s, IH. change (String.length (enc_field (1%N, WLen ""))) with 2%nat. lia.
Qed.

Lemma ids_fit n : Z.of_nat n <= 2097152 → IdsFit (replicate n "").
Proof.
  intros H. split; [rewrite ids_bytes; lia|]. apply Forall_forall. intros x [-> _]%elem_of_replicate. done.
Qed.

Lemma many_counts cfg tx l : NoDup l → 0 <= cfg_max_updates cfg →
  (∀ n, n ∈ l → cfg_max_updates cfg < Z.of_nat n <= 2097152) →
  let cs := map (λ n, CiActivate (replicate n "") []) l in
  Forall CanArrive cs ∧ (length l <= length (kept cfg tx cs))%nat.
Proof.
  intros Hl Hm H cs. split.
  - apply Forall_forall. intros c (n & -> & Hn)%elem_of_list_fmap. apply ids_fit. by apply H.
  - apply (kept_at_least cfg tx (λ n, CiActivate (replicate n "") [])
      (λ n, SErrors "ActivateTickets" (many_text "activations" (cfg_max_updates cfg) (Z.of_nat n)))); [done| |].
    + intros a b _ _ E. apply (f_equal (λ x, match x with SErrors _ t => t | _ => "" end)) in E. cbv beta iota in E.
      apply many_text_inj in E. lia.
    + intros n Hn. destruct (own_many cfg tx (replicate n "") []) as [H1 _]; [rewrite replicate_length; specialize (H n Hn); lia|].
      by rewrite replicate_length in H1.
Qed.

Lemma many_lengths cfg tx r l : NoDup l → (∀ n, n ∈ l → 4194304 < n < 2 ^ 32) →
  let cs := map (CiTooLong r) l in
  Forall CanArrive cs ∧ (length l <= length (kept cfg tx cs))%nat.
Proof.
  intros Hl H cs. split.
  - apply Forall_forall. intros c (n & -> & Hn)%elem_of_list_fmap. by apply H.
  - apply (kept_at_least cfg tx (CiTooLong r) (λ n, SErrors (rpc_name r) (long_text n))); [done| |].
    + intros a b _ _ E. apply (f_equal (λ x, match x with SErrors _ t => t | _ => "" end)) in E. exact (long_text_inj a b E).
    + intros n Hn. apply own_long.
Qed.

Lemma many_names cfg tx p l : NoDup l → Forall (λ n, utf8_valid n = true ∧ Z.of_nat (String.length n) <= 4000000) l →
  let cs := map (λ n, CiInvoke (Some p) [(n, true)]) l in
  Forall CanArrive cs ∧ (length l <= length (kept cfg tx cs))%nat.
Proof.
  intros Hl H cs. split.
  - apply Forall_forall. intros c (n & -> & Hn)%elem_of_list_fmap. rewrite Forall_forall in H.
    cbn. constructor; [by apply H|constructor].
  - apply (kept_at_least cfg tx (λ n, CiInvoke (Some p) [(n, true)]) SMatches); [done| |].
    + by intros a b _ _ [= ->].
    + intros n Hn. apply own_name. left.
Qed.

(** A thousand and one of them. *)
Lemma few_refuted cfg tx : ∃ cs, Forall CanArrive cs ∧ (1000 < length (kept cfg tx cs))%nat.
Proof.
  destruct (many_lengths cfg tx CreateTicketRpc (map (λ n, 5000000 + Z.of_nat n) (seq 0 1001))) as [H1 H2].
  - apply NoDup_fmap_2; [intros a b; lia|]. apply NoDup_ListNoDup, seq_NoDup.
  - intros n (k & -> & Hk)%elem_of_list_fmap. apply elem_of_seq in Hk. lia.
  - eexists. split; [exact H1|]. rewrite map_length, seq_length in H2. lia.
Qed.

(** ** Exactly when each series is kept *)
Lemma state_recorded_some cfg c ids : is_Some (state_calls_recorded cfg c ids) ↔ 0 < Z.of_nat (length ids) <= cfg_max_updates cfg.
Proof.
  unfold state_calls_recorded, set_active_start. cbv zeta.
  destruct (Z.eqb_spec (Z.of_nat (length ids)) 0) as [E|E].
  { split; [by intros [? ?]|lia]. }
  destruct (Z.ltb_spec (cfg_max_updates cfg) (Z.of_nat (length ids))) as [H|H].
  { split; [by intros [? ?]|lia]. }
  split; [lia|eauto].
Qed.
Lemma handler_exact cfg c x : x ∈ handler_series cfg c ↔ Records (cfg_max_updates cfg) c x.
Proof.
  destruct c as [r len|t0 now o r|ids rs|ids rs|prof fns|ro oe|ids]; cbn [handler_series Records].
  3: rewrite <-(state_recorded_some cfg CmdActivate ids). 4: rewrite <-(state_recorded_some cfg CmdDeactivate ids).
  3,4: destruct (state_calls_recorded _ _ _);
    [rewrite elem_of_list_singleton; naive_solver|rewrite elem_of_nil; split; [done|by intros [_ [? ?]]]].
  1,2: by rewrite elem_of_nil.
  - unfold invoke_rejects. destruct prof as [p|]; [|rewrite elem_of_nil; naive_solver].
    destruct fns as [|f0 fns0]; [cbn; rewrite elem_of_nil; split; [done|by intros (_ & n & ?%elem_of_nil & _)]|].
    set (fns := f0 :: fns0). change (length fns) with (S (length fns0)). cbn.
    change (x ∈ map (λ f, SMatches f.1) (filter (λ f, f.2 = true) fns) ↔ Some p ≠ None ∧ ∃ n, (n, true) ∈ fns ∧ x = SMatches n).
    generalize fns. clear. intros fns. split.
    + intros (f & -> & [Hf Hin]%elem_of_list_filter)%elem_of_list_fmap. split; [done|]. exists f.1. split; [|done].
      destruct f as [n b]. cbn in *. by subst b.
    + intros (_ & n & Hn & ->). apply elem_of_list_fmap. exists (n, true). split; [done|]. by apply elem_of_list_filter.
  - unfold assignments_recorded, create_assignments_start.
    destruct ro as [r|]; [|rewrite elem_of_nil; naive_solver].
    destruct (ro_assignment r) as [a|] eqn:Ea; [|rewrite elem_of_nil; naive_solver].
    destruct (marshal_assignment oe a) eqn:Em.
    + rewrite elem_of_list_singleton. split; [|by intros [? _]]. intros ->. split; [done|]. exists r, a. eauto.
    + rewrite elem_of_nil. split; [done|]. intros (_ & r' & a' & [= <-] & Ha' & Hs). rewrite Ea in Ha'. injection Ha' as <-.
      rewrite Em in Hs. by destruct Hs.
  - by rewrite elem_of_list_singleton.
Qed.
Lemma name_of c n : NameOf c n ↔ n = rpc_name (rpc_of c).
Proof. destruct c as [[]| | | | | |]; done. Qed.

Lemma series_exact cfg tx cs :
  (∀ x, match x with SDuration _ | SErrors _ _ => False | _ => True end →
     x ∈ kept cfg tx cs ↔ ∃ c, c ∈ cs ∧ Records (cfg_max_updates cfg) c x) ∧
  (∀ n, SDuration n ∈ kept cfg tx cs ↔ ∃ c, c ∈ cs ∧ NameOf c n).
Proof.
  split.
  - intros x Hx. rewrite kept_elem. setoid_rewrite call_series_elem. setoid_rewrite handler_exact.
    split; [|naive_solver]. intros (c & Hc & [H|[->|(t & _ & ->)]]); [by exists c|done|done].
  - intros n. rewrite kept_elem. setoid_rewrite call_series_elem. setoid_rewrite name_of. split.
    + intros (c & Hc & [H|[[= ->]|(t & _ & H)]]); [|by exists c|done].
      exfalso. apply handler_exact in H. destruct c; cbn in H; naive_solver.
    + intros (c & Hc & ->). exists c. split; [done|]. right. by left.
Qed.
