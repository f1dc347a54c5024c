(** Consequences for C146. *)
From Coq Require Import Ascii String ZArith NArith Lia.
From stdpp Require Import prelude strings.
From Verif.Model Require Import GoStrings Types Wire Gateway Metrics JsonMsg JsonNumber MetricsPage.
From Verif.Spec Require Import NumberSpec JsonTextSpec StatusSpec PageSpec.
From Verif.Proofs Require Import StatusLemmas MetricsLemmas PageText PageNumbers PageLemmas.
Local Open Scope string_scope.
Local Open Scope Z_scope.

Lemma of_app {K V} `{EqDecision K} (k : K) (l l' : list (K * V)) : Of k (l ++ l') = (Of k l ++ Of k l')%list.
Proof. induction l as [|[k' v] l IH]; [done|]. cbn. case_bool_decide; cbn; by rewrite IH. Qed.
Lemma count_app {A} (f : A → bool) l l' : Count f (l ++ l') = Count f l + Count f l'.
Proof. induction l as [|a l IH]; [done|]. cbn. lia. Qed.
Lemma count_pos {A} (f : A → bool) l : 0 < Count f l → ∃ a, a ∈ l ∧ f a = true.
Proof.
  induction l as [|a l IH]; cbn; [lia|]. destruct (f a) eqn:E; [intros _; exists a; split; [left|done]|].
  intros H. destruct IH as (b & Hb & Eb); [lia|]. exists b. split; [by right|done].
Qed.

Definition tagged (evs : list (rpc * rpc_stat)) : list (option string * rpc_stat) := map (λ ev, (Some (full_method ev.1), ev.2)) evs.
Lemma same_name c c' : bool_decide (rpc_name c' = rpc_name c) = bool_decide (c' = c).
Proof. apply bool_decide_ext. split; [apply service_methods_distinct|by intros ->]. Qed.
Lemma calls_counted c evs : ∀ m, Z.of_nat (length (Of (rpc_name c) (m_durations (handle_rpcs (tagged evs) m)))) =
  Z.of_nat (length (Of (rpc_name c) (m_durations m))) + Calls c evs.
Proof.
  unfold Calls. induction evs as [|[c' st] evs IH]; intros m; cbn [tagged map handle_rpcs Count fst snd]; [lia|]. fold (tagged evs). rewrite IH.
  destruct st as [b e x|]; cbn [handle_rpc m_durations]; [|rewrite andb_false_r; lia].
  rewrite of_app, app_length, service_methods. cbn [Of]. rewrite same_name, andb_true_r. destruct (bool_decide (c' = c)); cbn [length]; lia.
Qed.
Lemma failed_counted c err evs : ∀ m,
  Count (λ e, bool_decide (e = (rpc_name c, err))) (m_errors (handle_rpcs (tagged evs) m)) =
  Count (λ e, bool_decide (e = (rpc_name c, err))) (m_errors m) + Failed c err evs.
Proof.
  unfold Failed. induction evs as [|[c' st] evs IH]; intros m; cbn [tagged map handle_rpcs Count fst snd]; [lia|]. fold (tagged evs). rewrite IH.
  destruct st as [b e [x|]|]; cbn [handle_rpc m_errors]; [|rewrite ?app_nil_r, andb_false_r; lia..].
  rewrite count_app, service_methods. cbn [Count].
  assert (bool_decide ((rpc_name c', x) = (rpc_name c, err)) = bool_decide (c' = c) && String.eqb x err) as ->; [|destruct (_ && _); lia].
  rewrite <- same_name. apply eq_true_iff_eq. rewrite andb_true_iff, !bool_decide_eq_true, String.eqb_eq. split; [by intros [= -> ->]|by intros [-> ->]].
Qed.

Lemma name_utf8 c : IsUtf8 (rpc_name c).
Proof. apply is_utf8. by destruct c. Qed.
Lemma calls_shown evs r c : rc_rpc r = handle_rpcs (tagged evs) (RpcMetrics [] []) → Sensible r →
  ∃ l, PageText (core_page r) l ∧
    (0 < Calls c evs → ∃ v, ("om_core_rpc_duration_milliseconds_count", Scope ++ [("rpc", rpc_name c)], v)%list ∈ l ∧ Shows v (QInt (Calls c evs))) ∧
    (∀ err, 0 < Failed c err evs → IsUtf8 err →
      ∃ v, ("om_core_rpc_errors_total", [("error", err)] ++ Scope ++ [("rpc", rpc_name c)], v)%list ∈ l ∧ Shows v (QInt (Failed c err evs))).
Proof.
  intros Er HS. destruct (core_says r HS) as (l & Hp & _ & _ & Hl). exists l. split; [done|].
  pose proof (calls_counted c evs (RpcMetrics [] [])) as Hc. rewrite <- Er in Hc. cbn [m_durations Of length] in Hc. split.
  - intros H0. replace (Calls c evs) with (Z.of_nat (length (Of (rpc_name c) (m_durations (rc_rpc r))))) by lia. apply Hl.
    eapply (CS_duration r (rpc_name c)); [|apply name_utf8|apply HS_count].
    intros E. rewrite E in Hc. cbn in Hc. lia.
  - intros err H0 Hu. pose proof (failed_counted c err evs (RpcMetrics [] [])) as Hf. rewrite <- Er in Hf. cbn [m_errors Count] in Hf.
    rewrite <- (Z.add_0_l (Failed c err evs)), <- Hf. apply Hl. apply CS_errors; [|apply name_utf8|done].
    destruct (count_pos (λ e, bool_decide (e = (rpc_name c, err))) (m_errors (rc_rpc r))) as (e & He & E%bool_decide_eq_true); [lia|]. by subst.
Qed.

Lemma expiry_sum r cycles : rc_expiry r = map (λ c, expiration_duration c.1 c.2) cycles → cycles ≠ [] → Sensible r →
  Sum (rc_expiry r) <= 1000 * 2 ^ 53 →
  ∃ l v, PageText (core_page r) l ∧ ("om_core_cache_expiration_duration_milliseconds_sum", Scope, v) ∈ l ∧ ShowsInt v (Sum (rc_expiry r) / 1000).
Proof.
  intros Er Hn HS Hm. pose proof HS as (_ & [He _] & _). destruct (core_says r HS) as (l & Hp & _ & _ & Hl).
  destruct (Hl "om_core_cache_expiration_duration_milliseconds_sum" Scope (QSum (rc_expiry r))) as (v & Hv & x & Hx & Hsum).
  { eapply CS_expiry; [|apply (HS_sum "om_core_cache_expiration_duration_milliseconds")]. rewrite Er. by destruct cycles. }
  exists l, v. split; [done|]. split; [done|]. exists x. split; [done|]. apply sum_whole; [done| |done].
  apply Forall_forall. intros u Hu. split; [exact (proj1 (proj1 (Forall_forall _ _) He u Hu))|].
  rewrite Er in Hu. apply elem_of_list_fmap in Hu as (c & -> & _). unfold expiration_duration. rewrite Z.mul_comm. apply Z.mod_mul. lia.
Qed.

Fixpoint chars_in (f : ascii → bool) (s : string) : bool := match s with "" => true | String c r => f c && chars_in f r end.
Lemma chars_has f s c : chars_in f s = true → Has c s → f c = true.
Proof. intros H Hh. revert H. induction Hh as [s|d s Hh IH]; cbn; intros [H1 H2]%andb_true_iff; auto. Qed.
Lemma name_spec s : name_ok s = true → InstrumentName s.
Proof.
  destruct s as [|c r]; [done|]. intros [[H1%Nat.leb_le H2]%andb_true_iff H3]%andb_true_iff.
  assert (∀ c, letter c = true → (65 <= N_of_ascii c <= 90 ∨ 97 <= N_of_ascii c <= 122)%N) as HL.
  { intros c'. unfold letter. rewrite orb_true_iff, !andb_true_iff, !N.leb_le. lia. }
  assert (∀ c, name_char c = true → InstrumentChar c) as HC.
  { intros c'. unfold name_char, InstrumentChar. rewrite !orb_true_iff, !Ascii.eqb_eq. intros [[[[[H|H]|H]|H]|H]|H].
    - left. apply HL in H. lia.
    - left. revert H. unfold is_digit. rewrite andb_true_iff, !N.leb_le. lia.
    - right. subst. set_solver.
    - right. subst. set_solver.
    - right. subst. set_solver.
    - right. subst. set_solver. }
  split; [cbn [String.length] in *; lia|]. split.
  - intros c' Hc. inversion Hc as [|d s Hr]; subst.
    + apply HC. unfold name_char. by rewrite H2.
    + apply HC. revert H3 Hr. clear. intros H3 Hr. revert H3. induction Hr; cbn; intros [? ?]%andb_true_iff; auto.
  - intros c' r' [= <- <-]. by apply HL.
Qed.
Lemma registered : (∀ i, i ∈ (core_instruments ++ example_instruments)%list → name_ok (in_name i) = true ∧ InstrumentName (in_name i)) ∧
  NoDup (map page_name core_instruments) ∧ NoDup (map page_name example_instruments).
Proof.
  split; [|split; apply (bool_decide_unpack _); vm_compute; done].
  assert (forallb (λ i, name_ok (in_name i)) (core_instruments ++ example_instruments) = true) as H by (vm_compute; done).
  intros i Hi%elem_of_list_In. pose proof (proj1 (forallb_forall _ _) H i Hi) as Ho. split; [done|by apply name_spec].
Qed.

(** ** Which metrics are reported *)

Definition full : records :=
  Records (RpcMetrics [("A", 1)] [("A", "e")]) [1] [1] [1] [1] [("f", 1)] [1000] 0 0 0.
Lemma measured_one u : 0 <= u <= 2 ^ 63 → Measured [u].
Proof. intros H. split; [apply Forall_cons_2; [done|constructor]|]. cbn. lia. Qed.
Lemma full_sensible : Sensible full.
Proof. split; [apply (measured_one 1); lia|]. split; [apply (measured_one 1000); lia|]. repeat constructor; lia. Qed.
Lemma on_page r n ls q i : Sensible r → CoreShows r n ls q → n ∈ names_of i → OnPage (page_name i) (core_page r).
Proof.
  intros HS H Hi. destruct (core_says r HS) as (l & Hp & _ & _ & Hl). destruct (Hl n ls q H) as (v & Hv & _). by exists l, n, ls, v.
Qed.
Definition core_names : list string :=
  [i_duration; i_errors; i_activations; i_deactivations; i_assignments; i_watches; i_matches; i_active; i_inactive; i_assigned; i_expiry] ≫= names_of.
Lemma hist_names n ls u a s n' ls' q : HistShows n ls u a s n' ls' q → n' ∈ [n; n +:+ "_bucket"; n +:+ "_sum"; n +:+ "_count"].
Proof. intros []; rewrite !elem_of_cons; auto. Qed.
Lemma in_core_names i n : n ∈ names_of i → i ∈ [i_duration; i_errors; i_activations; i_deactivations; i_assignments; i_watches; i_matches; i_active; i_inactive; i_assigned; i_expiry] → n ∈ core_names.
Proof. intros H H'. apply elem_of_list_bind. by exists i. Qed.
Lemma shown_names r n ls q : CoreShows r n ls q → n ∈ core_names.
Proof.
  intros [rpc n' ls' q' _ _ H|rpc err _ _ _|n' ls' q' _ H|n' ls' q' _ H|n' ls' q' _ H|_|fn _ _| | | |n' ls' q' _ H]; try apply hist_names in H.
  - apply (in_core_names i_duration); [exact H|]. apply elem_of_list_lookup. by exists 0%nat.
  - apply (in_core_names i_errors); [left|]. apply elem_of_list_lookup. by exists 1%nat.
  - apply (in_core_names i_activations); [exact H|]. apply elem_of_list_lookup. by exists 2%nat.
  - apply (in_core_names i_deactivations); [exact H|]. apply elem_of_list_lookup. by exists 3%nat.
  - apply (in_core_names i_assignments); [exact H|]. apply elem_of_list_lookup. by exists 4%nat.
  - apply (in_core_names i_watches); [left|]. apply elem_of_list_lookup. by exists 5%nat.
  - apply (in_core_names i_matches); [left|]. apply elem_of_list_lookup. by exists 6%nat.
  - apply (in_core_names i_active); [left|]. apply elem_of_list_lookup. by exists 7%nat.
  - apply (in_core_names i_inactive); [left|]. apply elem_of_list_lookup. by exists 8%nat.
  - apply (in_core_names i_assigned); [left|]. apply elem_of_list_lookup. by exists 9%nat.
  - apply (in_core_names i_expiry); [exact H|]. apply elem_of_list_lookup. by exists 10%nat.
Qed.
Lemma page_names r i : Sensible r → OnPage (page_name i) (core_page r) → ∃ n, n ∈ names_of i ∧ n ∈ core_names.
Proof.
  intros HS (l & n & ls & v & Hp & Hl & Hn). exists n. split; [exact Hn|]. destruct (core_says r HS) as (l' & Hp' & _ & Hb & _).
  rewrite (page_same _ _ Hp _ Hp') in Hl. destruct (Hb _ _ _ Hl) as (q & Hq & _). by eapply shown_names.
Qed.
Definition silent : list string :=
  ["om_core.cache.assignment.expirations"; "om_core.cache.ticket.expirations"; "om_core.cache.ticket.inactive.expirations"].
Definition apart (i : instrument) : bool := forallb (λ n, negb (bool_decide (n ∈ core_names))) (names_of i).
Lemma every_metric i : i ∈ core_instruments →
  ((∃ r, Sensible r ∧ OnPage (page_name i) (core_page r)) ↔ in_name i ∉ silent).
Proof.
  intros Hi. split.
  - intros (r & HS & Ho) Hs. destruct (page_names r i HS Ho) as (n & Hn & Hc).
    assert (forallb (λ i, negb (bool_decide (in_name i ∈ silent)) || apart i) core_instruments = true) as Hall by (vm_compute; reflexivity).
    apply elem_of_list_In in Hi. pose proof (proj1 (forallb_forall _ _) Hall i Hi) as H. cbn beta in H. rewrite bool_decide_true in H by done. cbn [negb orb] in H.
    apply elem_of_list_In in Hn. pose proof (proj1 (forallb_forall _ _) H n Hn) as H'. cbn beta in H'. by rewrite bool_decide_true in H'.
  - intros Hs. exists full. split; [apply full_sensible|]. unfold core_instruments in Hi. rewrite !elem_of_cons, elem_of_nil in Hi.
    assert (∀ n ls u a s i, page_name i = n → (∀ n' ls' q, HistShows n ls u a s n' ls' q → CoreShows full n' ls' q) → OnPage (page_name i) (core_page full)) as HH.
    { intros n ls u a s j <- H. eapply on_page; [apply full_sensible|apply H, HS_sum|]. unfold names_of. cbn. rewrite !elem_of_cons. auto. }
    destruct Hi as [-> |[-> |[-> |[-> |[-> |[-> |[-> |[-> |[-> |[-> |[-> |[-> |[-> |[-> |[]]]]]]]]]]]]]]].
    + eapply HH; [reflexivity|]. intros. eapply (CS_duration full "A"); [done|by apply is_utf8|eassumption].
    + eapply on_page; [apply full_sensible|apply (CS_errors full "A" "e"); [left|by apply is_utf8..]|left].
    + eapply HH; [reflexivity|]. intros. eapply CS_activations; [done|eassumption].
    + eapply HH; [reflexivity|]. intros. eapply CS_deactivations; [done|eassumption].
    + eapply HH; [reflexivity|]. intros. eapply CS_assignments; [done|eassumption].
    + eapply on_page; [apply full_sensible|by apply CS_watches|left].
    + eapply on_page; [apply full_sensible|apply (CS_matches full "f"); [done|by apply is_utf8]|left].
    + eapply on_page; [apply full_sensible|apply CS_active|left].
    + eapply on_page; [apply full_sensible|apply CS_inactive|left].
    + eapply on_page; [apply full_sensible|apply CS_assigned|left].
    + eapply HH; [reflexivity|]. intros. eapply CS_expiry; [done|eassumption].
    + destruct Hs. left.
    + destruct Hs. right. left.
    + destruct Hs. right. right. left.
Qed.
Lemma every_metric_refuted : ¬ (∀ i, i ∈ core_instruments → ∃ r, Sensible r ∧ OnPage (page_name i) (core_page r)).
Proof.
  intros H. assert (i_tickets_expired ∈ core_instruments) as Hi by (apply elem_of_list_lookup; by exists 12%nat).
  apply (proj1 (every_metric _ Hi) (H _ Hi)). right. left.
Qed.

Definition example_silent : list string := ["matchmaker_example-tickets_created"; "matchmaker_example-tickets_assigned"].
Lemma every_example_metric i : i ∈ example_instruments →
  ((∃ accepted rejected, OnPage (page_name i) (example_page accepted rejected)) ↔ in_name i ∉ example_silent).
Proof.
  intros Hi. split.
  - intros (a & b & l & n & ls & v & Hp & Hl & Hn) Hs. destruct (example_says a b) as (l' & Hp' & _ & Hb & _).
    rewrite (page_same _ _ Hp _ Hp') in Hl. destruct (Hb _ _ _ Hl) as (q & Hq & _).
    assert (n ∈ [page_name i_accepted; page_name i_rejected]) as Hc by (destruct Hq; [left|right; left]).
    assert (forallb (λ i, negb (bool_decide (in_name i ∈ example_silent)) ||
      forallb (λ n, negb (bool_decide (n ∈ [page_name i_accepted; page_name i_rejected]))) (names_of i)) example_instruments = true) as Hall by (vm_compute; reflexivity).
    apply elem_of_list_In in Hi. pose proof (proj1 (forallb_forall _ _) Hall i Hi) as H. cbn beta in H. rewrite bool_decide_true in H by done. cbn [negb orb] in H.
    apply elem_of_list_In in Hn. pose proof (proj1 (forallb_forall _ _) H n Hn) as H'. cbn beta in H'. by rewrite bool_decide_true in H'.
  - intros Hs. exists [1], [1]. destruct (example_says [1] [1]) as (l & Hp & _ & _ & Hl).
    unfold example_instruments in Hi. rewrite !elem_of_cons, elem_of_nil in Hi. destruct Hi as [-> |[-> |[-> |[-> |[]]]]].
    + destruct Hs. left.
    + destruct Hs. right. left.
    + destruct (Hl _ _ _ (ES_accepted [1] [1] ltac:(done))) as (v & Hv & _). exists l. do 3 eexists. split; [exact Hp|]. split; [exact Hv|left].
    + destruct (Hl _ _ _ (ES_rejected [1] [1] ltac:(done))) as (v & Hv & _). exists l. do 3 eexists. split; [exact Hp|]. split; [exact Hv|left].
Qed.

Lemma some_sensible : Sensible (Records (RpcMetrics [("CreateTicket", 1500); ("CreateTicket", 100); ("A", 7500000)] [("A", "x""y\")]) [3; 500] [] [1] [2; -1]
    [("f", 3); ("f", 4); ("g", 1)] [2000] 5 1234567 0).
Proof.
  split; [|split; [apply (measured_one 2000); lia|repeat constructor; lia]]. split; [|cbn; lia]. cbn [map snd rc_rpc m_durations]. repeat (apply Forall_cons_2; [lia|]). constructor.
Qed.
