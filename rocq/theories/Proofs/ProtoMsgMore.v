(** Messages that could be decoded can be encoded, and the number of bytes does
    not depend on the order of the maps. *)
From Coq Require Import Ascii String ZArith NArith Lia ZifyBool ZifyN ZifyNat.
From stdpp Require Import prelude strings gmap.
From Verif.Proofs Require Import ChunkMore.
From Verif.Model Require Import Types Wire Proto ProtoMsg Chunk Cache.
From Verif.Model Require Import Filter.
From Verif.Spec Require Import Utf8Spec HandlerSpec ChunkSpec.
From Verif.Proofs Require Import StringLemmas WireLemmas ProtoLemmas ProtoMsgLemmas Utf8Lemmas.
Local Open Scope string_scope.
Local Open Scope list_scope.

(** ** What decoding guarantees *)

Definition field_ok (f : field) : Prop :=
  match f.2 with WF64 d => (d < 2 ^ 64)%N | _ => True end.

Lemma dec_fixed_bound k s v r : dec_fixed k s = Some (v, r) → (v < 256 ^ N.of_nat k)%N.
Proof.
  revert s v r. induction k as [|k IH]; intros s v r H; cbn [dec_fixed] in H.
  - injection H as <- <-. done.
  - destruct s as [|c s]; [done|]. destruct (dec_fixed k s) as [[v' r']|] eqn:E; [|done].
    assert (Hv : v = (N_of_ascii c + 256 * v')%N) by congruence. clear H. subst v.
    apply IH in E. rewrite Nat2N.inj_succ, N.pow_succ_r by lia.
    pose proof (N_ascii_bounded c) as Hc. revert E Hc. generalize (256 ^ N.of_nat k)%N (N_of_ascii c).
    clear. intros. lia.
Qed.

Lemma dec_field_ok s f r : dec_field s = Some (f, r) → field_ok f.
Proof.
  unfold dec_field. intros H.
  destruct (dec_varint s) as [[tag r0]|]; [|done]. cbv zeta in H.
  destruct ((tag / 8 <? 1) || (2 ^ 29 <=? tag / 8))%N; [done|].
  destruct (tag mod 8 =? 0)%N.
  { destruct (dec_varint r0) as [[v r1]|]; [|done]. injection H as <- <-. done. }
  destruct (tag mod 8 =? 1)%N.
  { destruct (dec_fixed 8 r0) as [[v r1]|] eqn:E; [|done]. injection H as <- <-.
    apply dec_fixed_bound in E. exact E. }
  destruct (tag mod 8 =? 2)%N.
  { destruct (dec_varint r0) as [[v r1]|]; [|done]. destruct (slen r1 <? v)%N; [done|].
    destruct (split_at (N.to_nat v) r1) as [[a b]|]; [|done]. injection H as <- <-. done. }
  destruct (tag mod 8 =? 5)%N; [|done].
  destruct (dec_fixed 4 r0) as [[v r1]|]; [|done]. injection H as <- <-. done.
Qed.

Lemma dec_fields_ok_f n s fs : dec_fields_f n s = Some fs → Forall field_ok fs.
Proof.
  revert s fs. induction n as [|n IH]; intros s fs H.
  - destruct s; simpl in H; [|done]. injection H as <-. constructor.
  - destruct s as [|c s]; cbn [dec_fields_f] in H; [injection H as <-; constructor|].
    destruct (dec_field (String c s)) as [[f r]|] eqn:E; [|done].
    destruct (dec_fields_f n r) as [l|] eqn:E'; [|done]. injection H as <-.
    constructor; [by eapply dec_field_ok|by eapply IH].
Qed.

Definition keeps {A} (P : A → Prop) (step : A → field → option A) : Prop :=
  ∀ a f a', P a → field_ok f → step a f = Some a' → P a'.

Lemma keeps_unmarshal {A} (P : A → Prop) step a s a' :
  keeps P step → P a → unmarshal step a s = Some a' → P a'.
Proof.
  intros Hk Ha H. unfold unmarshal in H. destruct (dec_fields s) as [fs|] eqn:E; [|done].
  apply dec_fields_ok_f in E. revert a Ha H.
  induction E as [|f fs Hf _ IH]; intros a Ha H; simpl in H; [by injection H as <-|].
  destruct (step a f) as [a1|] eqn:E1; [|done]. eapply IH; [|exact H]. by eapply Hk.
Qed.

Definition keeps_p {A} (P : A → Prop) (part : A → field → A * bool) : Prop :=
  ∀ a f, P a → field_ok f → P (part a f).1.

Lemma dec_prefix_ok s : Forall field_ok (dec_prefix s).1.
Proof.
  unfold dec_prefix. generalize (String.length s). intros n. revert s.
  induction n as [|n IH]; intros [|c s]; cbn [dec_prefix_f]; try constructor.
  destruct (dec_field (String c s)) as [[f r]|] eqn:E; [|constructor].
  specialize (IH r). destruct (dec_prefix_f n r) as [l b]. simpl in *.
  constructor; [by eapply dec_field_ok|done].
Qed.

Lemma keeps_unmarshal_part {A} (P : A → Prop) part a s :
  keeps_p P part → P a → P (unmarshal_part part a s).1.
Proof.
  intros Hk Ha. unfold unmarshal_part. pose proof (dec_prefix_ok s) as Hs.
  destruct (dec_prefix s) as [fs ok]. simpl in Hs.
  assert (P (fold_part part a fs).1).
  { clear ok s. revert a Ha. induction Hs as [|f fs Hf _ IH]; intros a Ha; cbn [fold_part]; [done|].
    specialize (Hk a f Ha Hf). destruct (part a f) as [a' []]; [by apply IH|done]. }
  by destruct (fold_part part a fs) as [a' ok'].
Qed.

Lemma keeps_or_keep {A} (P : A → Prop) step : keeps P step → keeps_p P (or_keep step).
Proof.
  intros Hk a f Ha Hf. unfold or_keep. destruct (step a f) as [a'|] eqn:E; [|done]. by eapply Hk.
Qed.

Lemma u64_to_i64_range n : (- 2 ^ 63 <= u64_to_i64 n < 2 ^ 63)%Z.
Proof.
  unfold u64_to_i64. cbv zeta. change (2 ^ 64)%Z with 18446744073709551616%Z.
  change (2 ^ 63)%Z with 9223372036854775808%Z.
  pose proof (Z.mod_pos_bound (Z.of_N n) 18446744073709551616 ltac:(lia)).
  destruct (Z.of_N n mod 18446744073709551616 <? 9223372036854775808)%Z eqn:E; lia.
Qed.
Lemma u64_to_i32_range n : int32 (u64_to_i32 n).
Proof.
  unfold u64_to_i32, int32. cbv zeta. change (2 ^ 32)%Z with 4294967296%Z.
  change (2 ^ 31)%Z with 2147483648%Z.
  pose proof (Z.mod_pos_bound (Z.of_N n) 4294967296 ltac:(lia)).
  destruct (Z.of_N n mod 4294967296 <? 2147483648)%Z eqn:E; lia.
Qed.

(** ** Good messages *)

Definition good_any (a : any) : Prop := utf8_valid (any_url a) = true.
Definition good_ext (m : extensions) : Prop :=
  map_Forall (λ k a, utf8_valid k = true ∧ good_any a) m.
Definition good_filterable (a : filterable) : Prop :=
  Forall (λ t, utf8_valid t = true) (fd_tags a) ∧
  map_Forall (λ k v, utf8_valid k = true ∧ utf8_valid v = true) (fd_strings a) ∧
  map_Forall (λ k d, utf8_valid k = true ∧ (d < 2 ^ 64)%N) (fd_doubles a) ∧
  good_opt ts_wf (fd_ctime a).
Definition good_ticket (t : ticket) : Prop :=
  utf8_valid (tk_id t) = true ∧ good_opt ts_wf (tk_exp t) ∧
  good_opt good_filterable (tk_attrs t) ∧ good_ext (tk_ext t).
Definition good_assignment (a : assignment) : Prop :=
  utf8_valid (as_conn a) = true ∧ good_ext (as_ext a).
Definition good_roster (r : roster) : Prop :=
  utf8_valid (ro_name r) = true ∧ good_opt good_assignment (ro_assignment r) ∧
  Forall good_ticket (ro_tickets r) ∧ good_ext (ro_ext r).
Definition good_pool (p : pool) : Prop :=
  utf8_valid (po_name p) = true ∧ Forall (λ t, utf8_valid t = true) (po_tag_filters p) ∧
  Forall (λ f, utf8_valid f.1 = true ∧ utf8_valid f.2 = true) (po_string_filters p) ∧
  Forall (λ f, utf8_valid (df_arg f) = true ∧ double_filter_wf f) (po_double_filters p) ∧
  good_opt time_filter_wf (po_time_filter p) ∧ good_opt good_roster (po_participants p) ∧
  good_ext (po_ext p).
Definition good_map {A} (P : A → Prop) (m : gmap string A) : Prop :=
  map_Forall (λ k a, utf8_valid k = true ∧ P a) m.
Definition good_profile (p : profile) : Prop :=
  utf8_valid (pr_name p) = true ∧ good_map good_pool (pr_pools p) ∧ good_ext (pr_ext p).
Definition good_match (m : match_) : Prop :=
  utf8_valid (ma_id m) = true ∧ good_map good_roster (ma_rosters m) ∧ good_ext (ma_ext m).
Definition good_spec (f : mmf_spec) : Prop := spec_wf f ∧ utf8_spec f = true.
Definition good_request (r : request) : Prop :=
  good_opt good_profile (rq_profile r) ∧ Forall good_spec (rq_mmfs r).

Lemma keeps_ts : keeps ts_wf ts_step.
Proof.
  intros t [n v] t' [H1 H2] _ H. unfold ts_step in H.
  repeat (case_match; simplify_eq); (split; [|assumption] || split; [assumption|] || split);
    try done; try apply u64_to_i64_range; apply u64_to_i32_range.
Qed.

Lemma keeps_any : keeps good_any any_step.
Proof. intros t [n v] t' Ha _ H. unfold any_step in H. repeat (case_match; simplify_eq); done. Qed.

Lemma keeps_entry_any :
  keeps (λ kv, utf8_valid kv.1 = true ∧ good_any kv.2) entry_any_step.
Proof.
  intros t [n v] t' [Ha Hb] _ H. unfold entry_any_step in H.
  repeat (case_match; simplify_eq); try done.
  - split; [done|]. simpl. eapply (keeps_unmarshal good_any); [apply keeps_any| |eassumption]. done.
Qed.

Lemma keeps_dec_ext m s m' : good_ext m → dec_ext_entry m s = Some m' → good_ext m'.
Proof.
  intros Hm H. unfold dec_ext_entry in H.
  destruct (unmarshal entry_any_step ("", Any "" "") s) as [[k a]|] eqn:E; [|done].
  injection H as <-. apply map_Forall_insert_2; [|done].
  apply (keeps_unmarshal _ _ _ _ _ keeps_entry_any) in E; [exact E|done].
Qed.

Lemma keeps_entry_string :
  keeps (λ kv, utf8_valid kv.1 = true ∧ utf8_valid kv.2 = true) entry_string_step.
Proof.
  intros t [n v] t' [H1 H2] _ H. unfold entry_string_step in H.
  repeat (case_match; simplify_eq); done.
Qed.
Lemma keeps_entry_double :
  keeps (λ kv, utf8_valid kv.1 = true ∧ (kv.2 < 2 ^ 64)%N) entry_double_step.
Proof.
  intros t [n v] t' [H1 H2] Hf H. unfold entry_double_step in H.
  repeat (case_match; simplify_eq); done.
Qed.

Ltac inner K := match goal with E : unmarshal _ _ _ = Some _ |- _ =>
  apply (keeps_unmarshal _ _ _ _ _ K) in E; [exact E|] end.

Lemma keeps_filterable : keeps good_filterable filterable_step.
Proof.
  intros t [n v] t' (H1 & H2 & H3 & H4) Hf H. unfold filterable_step in H.
  repeat (case_match; simplify_eq); try done; unfold good_filterable;
    cbn [fd_tags fd_strings fd_doubles fd_ctime]; split_and!; try done.
  all: try (apply Forall_app; split; [done|]; by apply Forall_singleton).
  all: try (apply map_Forall_insert_2; [|done]; inner keeps_entry_string; done).
  all: try (apply map_Forall_insert_2; [|done]; inner keeps_entry_double; done).
  inner keeps_ts. destruct (fd_ctime t); [done|]. split; simpl; lia.
Qed.

Lemma good_ts0 (x : option timestamp) : good_opt ts_wf x → ts_wf (default (Timestamp 0 0) x).
Proof. destruct x; [done|]. intros _. split; simpl; lia. Qed.

Lemma keeps_ticket : keeps good_ticket ticket_step.
Proof.
  intros t [n v] t' (H1 & H2 & H3 & H4) Hf H. unfold ticket_step in H.
  repeat (case_match; simplify_eq); try done; unfold good_ticket;
    cbn [tk_id tk_exp tk_attrs tk_ext]; split_and!; try done.
  all: try (by eapply keeps_dec_ext).
  all: try (inner keeps_ts; by apply good_ts0).
  inner keeps_filterable.
  destruct (tk_attrs t); [done|]. split_and!; [constructor|by intros ???|by intros ???|done].
Qed.

Lemma keeps_assignment : keeps good_assignment assignment_step.
Proof.
  intros t [n v] t' (H1 & H2) Hf H. unfold assignment_step in H.
  repeat (case_match; simplify_eq); try done; split; try done. by eapply keeps_dec_ext.
Qed.

Lemma good_ext_empty : good_ext ∅.
Proof. apply map_Forall_empty. Qed.
Lemma good_map_empty {A} (P : A → Prop) : good_map P ∅.
Proof. apply map_Forall_empty. Qed.
Lemma good_empty_ticket : good_ticket empty_ticket.
Proof. split_and!; try done; try constructor; try apply good_ext_empty; try apply good_map_empty. Qed.
Lemma good_empty_assignment : good_assignment empty_assignment.
Proof. split_and!; try done; try constructor; try apply good_ext_empty; try apply good_map_empty. Qed.
Lemma good_empty_roster : good_roster empty_roster.
Proof. split_and!; try done; try constructor; try apply good_ext_empty; try apply good_map_empty. Qed.
Lemma good_empty_pool : good_pool empty_pool.
Proof. split_and!; try done; try constructor; try apply good_ext_empty; try apply good_map_empty. Qed.
Lemma good_empty_profile : good_profile empty_profile.
Proof. split_and!; try done; try constructor; try apply good_ext_empty; try apply good_map_empty. Qed.
Lemma good_empty_match : good_match empty_match.
Proof. split_and!; try done; try constructor; try apply good_ext_empty; try apply good_map_empty. Qed.

Lemma good_default {A} (P : A → Prop) init x : P init → good_opt P x → P (default init x).
Proof. by destruct x. Qed.

Lemma keeps_roster : keeps good_roster roster_step.
Proof.
  intros t [n v] t' (H1 & H2 & H3 & H4) Hf H. unfold roster_step in H.
  repeat (case_match; simplify_eq); try done; unfold good_roster;
    cbn [ro_name ro_assignment ro_tickets ro_ext]; split_and!; try done.
  all: try (by eapply keeps_dec_ext).
  all: try (inner keeps_assignment; apply good_default; [apply good_empty_assignment|done]).
  apply Forall_app. split; [done|]. apply Forall_singleton. inner keeps_ticket.
  apply good_empty_ticket.
Qed.

Lemma keeps_tag : keeps (λ t, utf8_valid t = true) tag_filter_step.
Proof. intros t [n v] t' Ha _ H. unfold tag_filter_step in H. repeat (case_match; simplify_eq); done. Qed.

Lemma keeps_double_filter :
  keeps (λ f, utf8_valid (df_arg f) = true ∧ double_filter_wf f) double_filter_step.
Proof.
  intros t [n v] t' (H0 & H1 & H2 & H3) Hf H. unfold double_filter_step in H.
  repeat (case_match; simplify_eq); unfold double_filter_wf;
    cbn [df_arg df_min df_max df_bounds]; split_and!; try done. apply u64_to_i32_range.
Qed.

Lemma keeps_time_filter : keeps time_filter_wf time_filter_step.
Proof.
  intros t [n v] t' (H1 & H2 & H3) Hf H. unfold time_filter_step in H.
  repeat (case_match; simplify_eq); unfold time_filter_wf; cbn [tf_start tf_end tf_bounds];
    split_and!; try done.
  all: try apply u64_to_i32_range.
  all: inner keeps_ts; by apply good_ts0.
Qed.

Lemma keeps_pool : keeps good_pool pool_step.
Proof.
  intros [na tg sf df tf pa ex] [n v] t' (H1 & H2 & H3 & H4 & H5 & H6 & H7) Hf H.
  unfold pool_step in H.
  cbn [po_name po_tag_filters po_string_filters po_double_filters po_time_filter po_participants po_ext] in *.
  repeat (case_match; simplify_eq); unfold good_pool;
  cbn [po_name po_tag_filters po_string_filters po_double_filters po_time_filter po_participants po_ext];
    split_and!; try done.
  all: try (by eapply keeps_dec_ext).
  all: try (apply Forall_app; split; [done|]; apply Forall_singleton; inner keeps_tag; done).
  all: try (apply Forall_app; split; [done|]; apply Forall_singleton; inner keeps_entry_string; done).
  all: try (apply Forall_app; split; [done|]; apply Forall_singleton; inner keeps_double_filter; done).
  all: try (inner keeps_time_filter; apply good_default; [|done]; done).
  inner keeps_roster. apply good_default; [apply good_empty_roster|done].
Qed.

Lemma keeps_entry {A} (P : A → Prop) step : keeps P step →
  keeps (λ kv, utf8_valid kv.1 = true ∧ P kv.2) (entry_step step).
Proof.
  intros Hk t [n v] t' [H1 H2] _ H. unfold entry_step in H.
  repeat (case_match; simplify_eq); split; try done. simpl.
  match goal with E : unmarshal _ _ _ = Some _ |- _ =>
    by apply (keeps_unmarshal _ _ _ _ _ Hk) in E end.
Qed.

Lemma keeps_dec_entry {A} (P : A → Prop) step init m s m' :
  keeps P step → P init → good_map P m → dec_entry step init m s = Some m' → good_map P m'.
Proof.
  intros Hk Hi Hm H. unfold dec_entry in H.
  destruct (unmarshal (entry_step step) ("", init) s) as [[k a]|] eqn:E; [|done].
  injection H as <-. apply map_Forall_insert_2; [|done].
  apply (keeps_unmarshal _ _ _ _ _ (keeps_entry P step Hk)) in E; [exact E|done].
Qed.

Lemma keeps_profile : keeps good_profile profile_step.
Proof.
  intros t [n v] t' (H1 & H2 & H3) Hf H. unfold profile_step in H.
  repeat (case_match; simplify_eq); split_and!; try done; cbn [pr_pools pr_ext].
  all: try (by eapply keeps_dec_ext).
  eapply keeps_dec_entry; [apply keeps_pool|apply good_empty_pool|exact H2|eassumption].
Qed.
Lemma keeps_match : keeps good_match match_step.
Proof.
  intros t [n v] t' (H1 & H2 & H3) Hf H. unfold match_step in H.
  repeat (case_match; simplify_eq); split_and!; try done; cbn [ma_rosters ma_ext].
  all: try (by eapply keeps_dec_ext).
  eapply keeps_dec_entry; [apply keeps_roster|apply good_empty_roster|exact H2|eassumption].
Qed.
Lemma keeps_spec : keeps good_spec spec_step.
Proof.
  intros t [n v] t' ((H1 & H2) & H3) Hf H. unfold spec_step in H. unfold utf8_spec in H3.
  apply andb_true_iff in H3 as [H3 H4].
  repeat (case_match; simplify_eq); split; try split; try done; unfold utf8_spec;
    cbn [mf_name mf_host mf_port mf_type]; try (by apply andb_true_iff).
  all: try apply u64_to_i32_range.
  unfold type_of_Z, type_wf. repeat case_match; try done; simplify_eq. split; [apply u64_to_i32_range|]. lia.
Qed.
Lemma keeps_request : keeps good_request request_step.
Proof.
  intros t [n v] t' (H1 & H2) Hf H. unfold request_step in H.
  repeat (case_match; simplify_eq); split; try done; cbn [rq_profile rq_mmfs].
  all: try (inner keeps_profile; apply good_default; [apply good_empty_profile|done]).
  apply Forall_app. split; [done|]. apply Forall_singleton. inner keeps_spec.
  repeat split; simpl; done.
Qed.
Lemma keeps_result : keeps (good_opt good_match) result_step.
Proof.
  intros t [n v] t' H1 Hf H. unfold result_step in H.
  repeat (case_match; simplify_eq); try done.
  inner keeps_match. apply good_default; [apply good_empty_match|done].
Qed.

(** ** Good messages are well formed and can be encoded *)

Lemma forallb_map {A} (f : string * A → bool) (m : gmap string A) :
  forallb f (map_to_list m) = true ↔ map_Forall (λ k a, f (k, a) = true) m.
Proof.
  rewrite forallb_forall. split.
  - intros H k a Hk. apply H, elem_of_list_In, elem_of_map_to_list. exact Hk.
  - intros H [k a] Hin. apply elem_of_list_In, elem_of_map_to_list in Hin. exact (H k a Hin).
Qed.

Lemma good_ext_utf8 m : good_ext m ↔ utf8_ext (map_to_list m) = true.
Proof.
  unfold utf8_ext. rewrite forallb_map. unfold good_ext. split; intros H k a Hk.
  - apply andb_true_iff. exact (H k a Hk).
  - specialize (H k a Hk). apply andb_true_iff in H. exact H.
Qed.

Lemma forallb_Forall_1 {A} (P : A → Prop) (f : A → bool) l :
  (∀ x, P x → f x = true) → Forall P l → forallb f l = true.
Proof. intros H. induction 1; simpl; [done|]. by rewrite H. Qed.

Lemma good_ticket_ok t : good_ticket t → ticket_wf t ∧ utf8_ticket_c t = true.
Proof.
  intros (H1 & H2 & H3 & H4). split.
  - split; [done|]. destruct (tk_attrs t) as [a|]; [|done]. destruct H3 as (_ & _ & H3 & H5).
    split; [|done]. unfold doubles_wf. apply Forall_forall. intros [k d] Hin.
    apply elem_of_map_to_list in Hin. exact (proj2 (H3 k d Hin)).
  - unfold utf8_ticket_c, utf8_ticket, canon_orders. cbn [o_ext o_strings o_doubles].
    apply andb_true_iff. split; [|by apply good_ext_utf8]. apply andb_true_iff. split; [done|].
    unfold strings_of, doubles_of. destruct (tk_attrs t) as [a|]; [|done].
    destruct H3 as (H3 & H5 & H6 & _). unfold utf8_filterable.
    apply andb_true_iff. split; [apply andb_true_iff; split|].
    + by eapply forallb_Forall_1; [|exact H3].
    + apply forallb_map. intros k v Hk. apply andb_true_iff. exact (H5 k v Hk).
    + apply forallb_map. intros k v Hk. exact (proj1 (H6 k v Hk)).
Qed.

Lemma good_assignment_ok a : good_assignment a → utf8_assignment_c a = true.
Proof. intros [H1 H2]. apply andb_true_iff. split; [done|by apply good_ext_utf8]. Qed.

Lemma good_roster_ok r : good_roster r → roster_wf r ∧ utf8_roster r = true.
Proof.
  intros (H1 & H2 & H3 & H4). split.
  - unfold roster_wf. eapply Forall_impl; [exact H3|]. intros t Ht. by apply good_ticket_ok.
  - unfold utf8_roster. rewrite !andb_true_iff. split_and!; try done.
    + destruct (ro_assignment r); [|done]. by apply good_assignment_ok.
    + eapply forallb_Forall_1; [|exact H3]. intros t Ht. by apply good_ticket_ok.
    + by apply good_ext_utf8.
Qed.

Lemma good_pool_ok p : good_pool p → pool_wf p ∧ utf8_pool p = true.
Proof.
  intros (H1 & H2 & H3 & H4 & H5 & H6 & H7). split.
  - split_and!; [|done|].
    + eapply Forall_impl; [exact H4|]. by intros f [_ Hf].
    + destruct (po_participants p); [|done]. by apply good_roster_ok.
  - unfold utf8_pool. rewrite !andb_true_iff. split_and!; try done.
    + by eapply forallb_Forall_1; [|exact H2].
    + eapply forallb_Forall_1; [|exact H3]. intros f Hf. by apply andb_true_iff.
    + eapply forallb_Forall_1; [|exact H4]. by intros f [Hf _].
    + destruct (po_participants p); [|done]. by apply good_roster_ok.
    + by apply good_ext_utf8.
Qed.

Lemma good_map_ok {A} (P : A → Prop) (Q : A → Prop) (f : A → bool) m :
  (∀ a, P a → Q a ∧ f a = true) → good_map P m →
  map_Forall (λ _ a, Q a) m ∧ utf8_map f m = true.
Proof.
  intros H Hm. split.
  - intros k a Hk. apply H. exact (proj2 (Hm k a Hk)).
  - unfold utf8_map. apply forallb_map. intros k a Hk. destruct (Hm k a Hk) as [H1 H2].
    apply andb_true_iff. split; [exact H1|]. by apply H.
Qed.

Lemma good_profile_ok p : good_profile p → profile_wf p ∧ utf8_profile p = true.
Proof.
  intros (H1 & H2 & H3). apply (good_map_ok _ _ _ _ good_pool_ok) in H2 as [H2 H2'].
  split; [exact H2|]. unfold utf8_profile. rewrite !andb_true_iff. split_and!; try done.
  by apply good_ext_utf8.
Qed.
Lemma good_match_ok m : good_match m → match_wf m ∧ utf8_match m = true.
Proof.
  intros (H1 & H2 & H3). apply (good_map_ok _ _ _ _ good_roster_ok) in H2 as [H2 H2'].
  split; [exact H2|]. unfold utf8_match. rewrite !andb_true_iff. split_and!; try done.
  by apply good_ext_utf8.
Qed.
Lemma good_request_ok r : good_request r → request_wf r ∧ utf8_request r = true.
Proof.
  intros (H1 & H2). split.
  - split.
    + destruct (rq_profile r); [|done]. by apply good_profile_ok.
    + eapply Forall_impl; [exact H2|]. by intros f [Hf _].
  - unfold utf8_request. rewrite andb_true_iff. split.
    + destruct (rq_profile r); [|done]. by apply good_profile_ok.
    + eapply forallb_Forall_1; [|exact H2]. by intros f [_ Hf].
Qed.

(** ** Encodings exist *)

Definition canon {A} (enc : A → list field → Prop) (g : A → list field) : Prop := ∀ a, enc a (g a).

Lemma canon_opt {A} n (enc : A → list field → Prop) g x :
  canon enc g → opt_fields n enc x (f_opt n g x).
Proof. intros H. destruct x; simpl; eauto. Qed.
Lemma canon_list {A} n (enc : A → list field → Prop) g l :
  canon enc g → list_fields n enc l (map (λ x, f_msg n (g x)) l).
Proof. intros H. induction l; simpl; constructor; eauto. Qed.
Lemma canon_ext n m : ext_fields n m (fields_ext n (map_to_list m)).
Proof. by exists (map_to_list m). Qed.
Lemma canon_ticket : canon ticket_fields fields_ticket_c.
Proof. intros t. exists (canon_orders t). by split. Qed.
Lemma canon_assignment : canon assignment_fields fields_assignment_c.
Proof. intros a. by exists (map_to_list (as_ext a)). Qed.
Lemma canon_roster : canon roster_fields fields_roster.
Proof.
  intros r. do 3 eexists. split_and!; [apply canon_opt, canon_assignment|apply canon_list, canon_ticket|
    apply canon_ext|done].
Qed.
Lemma canon_pool : canon pool_fields fields_pool.
Proof. intros p. do 2 eexists. split_and!; [apply canon_opt, canon_roster|apply canon_ext|done]. Qed.
Lemma canon_map {A} n (enc : A → list field → Prop) g m :
  canon enc g →
  map_fields n enc m (map (λ kv, f_msg n [(1%N, WLen kv.1); f_msg 2 (g kv.2)]) (map_to_list m)).
Proof.
  intros H. exists (map_to_list m). split; [done|].
  apply (canon_list n (entry_fields enc) (λ kv, [(1%N, WLen kv.1); f_msg 2 (g kv.2)])).
  intros kv. exists (g kv.2). by split.
Qed.
Lemma canon_profile : canon profile_fields fields_profile.
Proof.
  intros p. do 2 eexists. split_and!; [apply (canon_map 2 pool_fields fields_pool), canon_pool|
    apply canon_ext|done].
Qed.
Definition fields_match (m : match_) : list field :=
  f_string 1 (ma_id m) ++
  map (λ kv, f_msg 2 [(1%N, WLen kv.1); f_msg 2 (fields_roster kv.2)]) (map_to_list (ma_rosters m)) ++
  fields_ext 3 (map_to_list (ma_ext m)).
Lemma canon_match : canon match_fields fields_match.
Proof.
  intros m. do 2 eexists. split_and!; [apply (canon_map 2 roster_fields fields_roster), canon_roster|
    apply canon_ext|done].
Qed.
Lemma canon_chunk : canon chunk_fields fields_chunk.
Proof.
  intros c. exists [f_msg 1 (fields_profile (ch_profile c))]. split; [|done].
  eexists. split; [apply canon_profile|done].
Qed.
Lemma canon_request r : ∃ fs, request_fields r fs.
Proof. do 2 eexists. split; [apply canon_opt, canon_profile|done]. Qed.
Lemma canon_result m : ∃ fs, result_fields m fs.
Proof. eexists. apply canon_opt, canon_match. Qed.

(** ** Lengths *)

Definition same_len {A} (enc : A → list field → Prop) : Prop :=
  ∀ a fs fs', enc a fs → enc a fs' → fields_len fs = fields_len fs'.

Lemma msg_len n gs gs' : fields_len gs = fields_len gs' →
  String.length (enc_field (f_msg n gs)) = String.length (enc_field (f_msg n gs')).
Proof. intros H. by apply enc_field_len_wlen. Qed.

Lemma len_opt {A} n (enc : A → list field → Prop) x fs fs' : same_len enc →
  opt_fields n enc x fs → opt_fields n enc x fs' → fields_len fs = fields_len fs'.
Proof.
  intros H. destruct x as [a|]; simpl; [|by intros -> ->].
  intros (gs & Hg & ->) (gs' & Hg' & ->). rewrite !fields_len_cons. f_equal.
  apply msg_len. by eapply H.
Qed.
Lemma len_list {A} n (enc : A → list field → Prop) l fs fs' : same_len enc →
  list_fields n enc l fs → list_fields n enc l fs' → fields_len fs = fields_len fs'.
Proof.
  intros H Hl. revert fs'. induction Hl as [|a f l fs (gs & Hg & ->) _ IH]; intros fs' Hl'.
  - by inversion Hl'.
  - inversion Hl' as [|? f' ? fs'' (gs' & Hg' & ->) Hl'']; subst.
    rewrite !fields_len_cons. rewrite (msg_len n gs gs') by (by eapply H).
    by rewrite (IH fs'').
Qed.
Lemma list_fields_perm {A} n (enc : A → list field → Prop) l l' fs :
  l ≡ₚ l' → list_fields n enc l fs → ∃ fs', fs ≡ₚ fs' ∧ list_fields n enc l' fs'.
Proof.
  intros Hp. revert fs. induction Hp as [|x l l' _ IH|x y l|l l' l'' _ IH1 _ IH2]; intros fs H.
  - inversion H; subst. exists []. by split.
  - inversion H as [|? f ? fs0 Hf H0]; subst. destruct (IH _ H0) as (fs' & Hp & H').
    exists (f :: fs'). split; [by constructor|by constructor].
  - inversion H as [|? f ? fs0 Hf H0]; subst. inversion H0 as [|? g ? fs1 Hg H1]; subst.
    exists (g :: f :: fs1). split; [constructor|by repeat constructor].
  - destruct (IH1 _ H) as (f1 & Hp1 & H1). destruct (IH2 _ H1) as (f2 & Hp2 & H2).
    exists f2. split; [by etrans|done].
Qed.
Lemma len_ext n m fs fs' : ext_fields n m fs → ext_fields n m fs' → fields_len fs = fields_len fs'.
Proof.
  intros (l & Hl & ->) (l' & Hl' & ->). apply map_perm_len. by rewrite Hl, Hl'.
Qed.
Lemma len_entry {A} (enc : A → list field → Prop) : same_len enc → same_len (entry_fields enc).
Proof.
  intros H kv fs fs' (gs & Hg & ->) (gs' & Hg' & ->). rewrite !fields_len_cons.
  rewrite (msg_len 2 gs gs') by (by eapply H). done.
Qed.
Lemma len_map {A} n (enc : A → list field → Prop) m fs fs' : same_len enc →
  map_fields n enc m fs → map_fields n enc m fs' → fields_len fs = fields_len fs'.
Proof.
  intros H (l & Hl & H1) (l' & Hl' & H2).
  destruct (list_fields_perm n (entry_fields enc) l l' fs) as (fs0 & Hp & H0); [by rewrite Hl, Hl'|done|].
  rewrite (fields_len_perm _ _ Hp). exact (len_list n (entry_fields enc) l' _ _ (len_entry enc H) H0 H2).
Qed.
Lemma len_ticket : same_len ticket_fields.
Proof. intros t fs fs' (o & Ho & ->) (o' & Ho' & ->). by apply ticket_len_order. Qed.
Lemma len_assignment : same_len assignment_fields.
Proof.
  intros a fs fs' (l & Hl & ->) (l' & Hl' & ->). unfold fields_assignment. rewrite !fields_len_app.
  f_equal. apply map_perm_len. by rewrite Hl, Hl'.
Qed.
Lemma len_roster : same_len roster_fields.
Proof.
  intros r fs fs' (f2 & f3 & f4 & H2 & H3 & H4 & ->) (g2 & g3 & g4 & G2 & G3 & G4 & ->).
  rewrite !fields_len_app. f_equal.
  rewrite (len_opt _ _ _ _ _ len_assignment H2 G2), (len_list _ _ _ _ _ len_ticket H3 G3),
    (len_ext _ _ _ _ H4 G4). done.
Qed.
Lemma len_pool : same_len pool_fields.
Proof.
  intros p fs fs' (f6 & f7 & H6 & H7 & ->) (g6 & g7 & G6 & G7 & ->).
  rewrite !fields_len_app.
  rewrite (len_opt _ _ _ _ _ len_roster H6 G6), (len_ext _ _ _ _ H7 G7). done.
Qed.
Lemma len_profile : same_len profile_fields.
Proof.
  intros p fs fs' (f2 & f3 & H2 & H3 & ->) (g2 & g3 & G2 & G3 & ->).
  rewrite !fields_len_app.
  rewrite (len_map _ _ _ _ _ len_pool H2 G2), (len_ext _ _ _ _ H3 G3). done.
Qed.
Lemma len_chunk : same_len chunk_fields.
Proof.
  intros c fs fs' (f1 & H1 & ->) (g1 & G1 & ->). rewrite !fields_len_app. f_equal.
  exact (len_opt _ _ _ _ _ len_profile H1 G1).
Qed.

Lemma chunk_bytes_size c s : marshals_chunk c s → Z.of_nat (String.length s) = chunk_size c.
Proof.
  intros (_ & fs & Hfs & ->). unfold chunk_size. f_equal.
  exact (len_chunk c fs (fields_chunk c) Hfs (canon_chunk c)).
Qed.

(** ** The chunks om-core builds can always be encoded *)

Lemma utf8_valid_app s t : utf8_valid s = true → utf8_valid t = true → utf8_valid (s +:+ t) = true.
Proof.
  rewrite !utf8_valid_iff. intros (cs & Hc & ->) (ds & Hd & ->). exists (cs ++ ds).
  split; [by apply Forall_app|]. by rewrite map_app, concat_app, string_of_bytes_app.
Qed.

Lemma chunk_pool_good n ts : utf8_valid n = true → Forall good_ticket ts → good_pool (chunk_pool n ts).
Proof.
  intros Hn Ht. split_and!; try done; try constructor; try apply good_ext_empty.
  - by apply utf8_valid_app.
  - split_and!; [done|done|apply good_ext_empty].
Qed.

Lemma wrap32_range z : int32 (wrap32 z).
Proof.
  unfold wrap32, int32. change (2 ^ 32)%Z with 4294967296%Z. change (2 ^ 31)%Z with 2147483648%Z.
  Z.div_mod_to_equations. lia.
Qed.

Lemma chunk_request_good p k r :
  good_profile p → (∀ n ts, r !! n = Some ts → utf8_valid n = true ∧ Forall good_ticket ts) →
  good_profile (ch_profile (chunk_request p k r)) ∧ int32 (ch_num (chunk_request p k r)).
Proof.
  intros (H1 & H2 & H3) Hr. split; [|apply wrap32_range]. split_and!; try done.
  intros n q Hq. cbn [ch_profile chunk_request pr_pools] in Hq. rewrite map_lookup_imap in Hq.
  destruct (r !! n) as [ts|] eqn:E; [|done]. simpl in Hq. injection Hq as <-.
  destruct (Hr n ts E) as [Hn Ht]. split; [done|]. by apply chunk_pool_good.
Qed.

Lemma keeps_filterable_part : keeps_p good_filterable filterable_part.
Proof.
  intros a [n v] Ha Hf. unfold filterable_part.
  pose proof (keeps_or_keep _ _ keeps_filterable a (n, v) Ha Hf) as Hd.
  destruct (decide (n = 4%N)) as [->|Hn].
  2: { destruct v; by destruct n as [|[[[]|[]|]|[[]|[]|]|]]. }
  destruct v as [m|m|s|m]; try exact Hd. destruct Ha as (H1 & H2 & H3 & H4).
  pose proof (keeps_unmarshal_part ts_wf _ (default (Timestamp 0 0) (fd_ctime a)) s
                (keeps_or_keep _ _ keeps_ts) (good_ts0 _ H4)) as H.
  destruct (unmarshal_part _ _ s) as [t ok]. by split_and!.
Qed.

Lemma keeps_ticket_part : keeps_p good_ticket ticket_part.
Proof.
  intros a [n v] Ha Hf. unfold ticket_part.
  pose proof (keeps_or_keep _ _ keeps_ticket a (n, v) Ha Hf) as Hd.
  destruct (decide (n = 2%N)) as [->|Hn2]; [|destruct (decide (n = 3%N)) as [->|Hn3]].
  3: { destruct v; by destruct n as [|[[]|[]|]]. }
  - destruct v as [m|m|s|m]; try exact Hd. destruct Ha as (H1 & H2 & H3 & H4).
    pose proof (keeps_unmarshal_part ts_wf _ (default (Timestamp 0 0) (tk_exp a)) s
                  (keeps_or_keep _ _ keeps_ts) (good_ts0 _ H2)) as H.
    destruct (unmarshal_part _ _ s) as [t ok]. by split_and!.
  - destruct v as [m|m|s|m]; try exact Hd. destruct Ha as (H1 & H2 & H3 & H4).
    assert (Hg : good_filterable (default empty_filterable (tk_attrs a))).
    { destruct (tk_attrs a); [done|]. split_and!; [constructor|by intros ???|by intros ???|done]. }
    pose proof (keeps_unmarshal_part good_filterable _ _ s keeps_filterable_part Hg) as H.
    destruct (unmarshal_part _ _ s) as [t ok]. by split_and!.
Qed.

Lemma stored_ticket_good k v : utf8_valid k = true → good_ticket (stored_ticket k v).
Proof.
  intros Hk. unfold stored_ticket, unmarshal_ticket.
  pose proof (keeps_unmarshal_part good_ticket ticket_part empty_ticket v
                keeps_ticket_part good_empty_ticket) as (_ & H2 & H3 & H4).
  by split_and!.
Qed.

(** ** The statements *)

Lemma result_forwarded s m : unmarshal_result s = Some m →
  (∃ s', marshals_result m s') ∧
  ∀ s', marshals_result m s' → (slen s' < 2 ^ 64)%N → unmarshal_result s' = Some m.
Proof.
  intros H. apply (keeps_unmarshal _ _ _ _ _ keeps_result) in H; [|done].
  assert (Hm : match m with Some x => match_wf x ∧ utf8_match x = true | None => True end)
    by (destruct m; [by apply good_match_ok|done]).
  split.
  - destruct (canon_result m) as (fs & Hfs). exists (enc_fields fs). split; [|by exists fs].
    destruct m; [apply Hm|done].
  - intros s' Hs Hl. apply rt_result; try done. destruct m; [apply Hm|done].
Qed.

Lemma request_decoded s r : unmarshal_request s = Some r → good_request r.
Proof.
  intros H. apply (keeps_unmarshal _ _ _ _ _ keeps_request) in H; [done|].
  split; [done|constructor].
Qed.

Lemma ticket_decoded s t : unmarshal_ticket_err s = Some t → good_ticket t.
Proof.
  intros H. by apply (keeps_unmarshal _ _ _ _ _ keeps_ticket) in H; [|apply good_empty_ticket].
Qed.

Lemma good_ticket_client t : good_ticket t → ClientTicketOk t.
Proof.
  intros (H1 & H2 & H3 & H4). unfold ClientTicketOk, client_doubles, client_strings, client_tags.
  destruct (tk_attrs t) as [a|].
  - destruct H3 as (H3 & H5 & H6 & _). split_and!.
    + intros k d Hk. destruct (H6 k d Hk). by split.
    + intros k d Hk. exact (H5 k d Hk).
    + intros s Hs. rewrite Forall_forall in H3. by apply H3.
    + intros k x Hk. exact (H4 k x Hk).
  - split_and!; try (intros ?? Hk; by rewrite lookup_empty in Hk).
    + intros s Hs. by apply elem_of_nil in Hs.
    + intros k x Hk. exact (H4 k x Hk).
Qed.

Lemma ticket_decoded_client s t : unmarshal_ticket_err s = Some t → ClientTicketOk t.
Proof. intros H. by eapply good_ticket_client, ticket_decoded. Qed.

(** Every chunk built for a received request from cached tickets encodes, and
    the function decodes exactly it. *)
Lemma chunk_sent s r p k ro :
  unmarshal_request s = Some r → rq_profile r = Some p →
  (∀ n ts, ro !! n = Some ts → is_Some (pr_pools p !! n) ∧
     ∀ t, t ∈ ts → ∃ key v, utf8_valid key = true ∧ t = stored_ticket key v) →
  (∃ b, marshals_chunk (chunk_request p k ro) b) ∧
  ∀ b, marshals_chunk (chunk_request p k ro) b → (slen b < 2 ^ 64)%N →
    unmarshal_chunk b = Some (Some (ch_profile (chunk_request p k ro)), ch_num (chunk_request p k ro)).
Proof.
  intros Hs Hp Hro. apply request_decoded in Hs as [Hg _]. rewrite Hp in Hg. simpl in Hg.
  destruct (chunk_request_good p k ro Hg) as [Hc Hn].
  { intros n ts Hn. destruct (Hro n ts Hn) as [[q Hq] Ht]. destruct Hg as (_ & Hg & _).
    split; [exact (proj1 (Hg n q Hq))|]. apply Forall_forall. intros t Hin.
    destruct (Ht t Hin) as (key & v & Hk & ->). by apply stored_ticket_good. }
  apply good_profile_ok in Hc as [Hw Hu]. split.
  - exists (enc_fields (fields_chunk (chunk_request p k ro))). split; [done|].
    eexists. split; [apply canon_chunk|done].
  - intros b Hb Hl. apply rt_chunk; [by split|done|done].
Qed.

(** A ticket as a replica stores it: under an id, decoded from some bytes. *)
Definition cached (t : ticket) : Prop := ∃ key v, utf8_valid key = true ∧ t = stored_ticket key v.

Lemma chunks_sent s r p ts cs c :
  unmarshal_request s = Some r → rq_profile r = Some p →
  NamesFit p ts → Forall cached ts.*1 → build_requests p ts = Done cs → c ∈ cs →
  (∃ b, marshals_chunk c b) ∧
  ∀ b, marshals_chunk c b → (slen b < 2 ^ 64)%N →
    unmarshal_chunk b = Some (Some (ch_profile c), ch_num c).
Proof.
  intros Hs Hp Hf Hc H Hin. unfold build_requests in H.
  destruct (chunks_of _ _ _ _ _) as [rs|] eqn:E; [|done]. injection H as <-.
  unfold requests_of in Hin. apply elem_of_list_fmap in Hin as (ro & -> & Hr).
  eapply chunk_sent; [exact Hs|exact Hp|]. intros n l Hl. split.
  - destruct (chunk_pool_valid _ _ _ _ _ _ _ _ _ Hf E Hr Hl) as (q & Hq & _). by exists q.
  - intros t Ht. destruct (chunk_entry_eligible _ _ _ _ _ _ _ _ _ t Hf E Hr Hl Ht) as [_ Hin].
    rewrite Forall_forall in Hc. exact (Hc t Hin).
Qed.
