(** Proofs about Model/MatchWire.v: sizes of matches on the wire. *)
From Coq Require Import Ascii String ZArith NArith Lia.
From stdpp Require Import prelude strings gmap.
From Verif.Model Require Import GoStrings Types Wire Proto Filter Chunk Cache Handlers.
From Verif.Spec Require Import ChunkSpec.
From Verif.Proofs Require Import StringLemmas ChunkLemmas ChunkMore.
From Verif.Model Require Import ProtoMsg FnWire Mmf Samples MatchWire.
From Verif.Spec Require Import FnWireSpec MatchWireSpec.
From Verif.Proofs Require Import WireLemmas ProtoLemmas ProtoMsgLemmas ProtoMsgMore FnWireLemmas.
Local Open Scope string_scope.
Local Open Scope Z_scope.

(** ** The size of a result *)

Definition result_size (m : match_) : Z := slenZ (enc_fields [f_msg 1 (fields_match m)]).

Lemma len_match : same_len match_fields.
Proof.
  intros m fs fs' (f2 & f3 & H2 & H3 & ->) (g2 & g3 & G2 & G3 & ->).
  rewrite !fields_len_app.
  rewrite (len_map _ _ _ _ _ len_roster H2 G2), (len_ext _ _ _ _ H3 G3). done.
Qed.

Lemma result_bytes_size m b : marshals_result (Some m) b → slenZ b = result_size m.
Proof.
  intros (_ & fs & (gs & Hg & ->) & ->). unfold result_size.
  change (flen [f_msg 1 gs] = flen [f_msg 1 (fields_match m)]). rewrite !flen_one. f_equal.
  apply msg_len. exact (len_match m gs (fields_match m) Hg (canon_match m)).
Qed.

Notation roster_entry kv := (f_msg 2 [(1%N, WLen kv.1); f_msg 2 (fields_roster kv.2)]).

Lemma roster_min r : zsum ticket_size (ro_tickets r) <= flen (fields_roster r).
Proof.
  unfold fields_roster. rewrite !flen_app.
  pose proof (tickets_field_min (ro_tickets r)) as H.
  assert (0 <= zsum (λ _ : ticket, 1) (ro_tickets r)).
  { clear. induction (ro_tickets r) as [|t l IH]; cbn [foldr]; lia. }
  pose proof (flen_nonneg (f_string 1 (ro_name r))).
  pose proof (flen_nonneg (f_opt 2 fields_assignment_c (ro_assignment r))).
  pose proof (flen_nonneg (fields_ext 4 (map_to_list (ro_ext r)))). lia.
Qed.

Lemma roster_entry_min k r : zsum ticket_size (ro_tickets r) <= slenZ (enc_field (roster_entry (k, r))).
Proof.
  pose proof (roster_min r). cbn [fst snd].
  etrans; [|apply f_msg_min; done]. rewrite fields_len_cons, fields_len_cons, fields_len_nil.
  pose proof (f_msg_min 2 (fields_roster r) ltac:(done)). lia.
Qed.

Lemma weight_insert_r k r (m : gmap string roster) : m !! k = None →
  map_fold (λ _ r acc, zsum ticket_size (ro_tickets r) + acc) 0 (<[k := r]> m) =
  zsum ticket_size (ro_tickets r) + map_fold (λ _ r acc, zsum ticket_size (ro_tickets r) + acc) 0 m.
Proof. intros H. rewrite map_fold_insert_L; [done| |done]. intros. lia. Qed.

Lemma rosters_min (m : gmap string roster) :
  map_fold (λ _ r acc, zsum ticket_size (ro_tickets r) + acc) 0 m <=
  flen (map (λ kv, roster_entry kv) (map_to_list m)).
Proof.
  induction m as [|k r m Hk IH] using map_ind; [done|].
  rewrite weight_insert_r by done. rewrite (map_perm_len _ _ _ (map_to_list_insert _ k r Hk)).
  cbn [map]. rewrite fields_len_cons. pose proof (roster_entry_min k r). cbn [fst snd] in *. lia.
Qed.

(** The tickets alone need this many bytes. *)
Lemma result_size_min m : MatchWeight m <= result_size m.
Proof.
  unfold result_size, MatchWeight. change (MatchWeight m <= flen [f_msg 1 (fields_match m)]).
  rewrite flen_one. etrans; [|apply f_msg_min; done]. unfold fields_match. rewrite !flen_app.
  pose proof (rosters_min (ma_rosters m)) as H. fold (MatchWeight m) in H.
  pose proof (flen_nonneg (f_string 1 (ma_id m))).
  pose proof (flen_nonneg (fields_ext 3 (map_to_list (ma_ext m)))). lia.
Qed.

(** ** An upper bound *)

(** Bytes for extensions, generously. *)
Definition ext_cost (m : gmap string any) : Z :=
  map_fold (λ k a acc, 55 + slenZ k + slenZ (any_url a) + slenZ (any_value a) + acc) 0 m.
Lemma ext_cost_insert k a (m : gmap string any) : m !! k = None →
  ext_cost (<[k := a]> m) = 55 + slenZ k + slenZ (any_url a) + slenZ (any_value a) + ext_cost m.
Proof. intros H. unfold ext_cost. rewrite map_fold_insert_L; [done| |done]. intros. lia. Qed.
Lemma ext_cost_empty : ext_cost ∅ = 0.
Proof. apply map_fold_empty. Qed.

Lemma ext_max_gmap n (m : gmap string any) : (n < 16)%N → flen (fields_ext n (map_to_list m)) <= ext_cost m.
Proof.
  intros Hn. unfold fields_ext. induction m as [|k a m Hk IH] using map_ind; [done|].
  rewrite ext_cost_insert by done. rewrite (map_perm_len _ _ _ (map_to_list_insert _ k a Hk)).
  cbn [map]. rewrite fields_len_cons.
  assert (slenZ (enc_field (f_msg n (entry_any (k, a)))) <= 55 + slenZ k + slenZ (any_url a) + slenZ (any_value a)); [|lia].
  etrans; [apply f_msg_max; done|]. unfold entry_any. cbn [fst snd].
  rewrite fields_len_cons, fields_len_cons, fields_len_nil.
  pose proof (wlen_max 1 k ltac:(done)). pose proof (f_msg_max 2 (fields_any a) ltac:(done)) as H2.
  unfold fields_any in *. rewrite flen_app in H2.
  pose proof (f_string_max 1 (any_url a) ltac:(done)). pose proof (f_string_max 2 (any_value a) ltac:(done)). lia.
Qed.

Lemma ext_max n (m : extensions) : (n < 16)%N → flen (fields_ext n (map_to_list m)) <= ext_cost m.
Proof. exact (ext_max_gmap n m). Qed.

Lemma roster_entry_max k r : ro_assignment r = None → Forall (λ t, ticket_size t < 2 ^ 28) (ro_tickets r) →
  slenZ (enc_field (roster_entry (k, r))) <=
    44 + slenZ k + slenZ (ro_name r) + zsum ticket_size (ro_tickets r) + 5 * zsum (λ _, 1) (ro_tickets r) + ext_cost (ro_ext r).
Proof.
  intros Ha Ht. cbn [fst snd]. etrans; [apply f_msg_max; done|].
  rewrite fields_len_cons, fields_len_cons, fields_len_nil.
  pose proof (wlen_max 1 k ltac:(done)). pose proof (f_msg_max 2 (fields_roster r) ltac:(done)) as H2.
  unfold fields_roster in *. rewrite Ha in *. cbn [f_opt app] in *. rewrite !flen_app in H2.
  pose proof (f_string_max 1 (ro_name r) ltac:(done)). pose proof (tickets_field_max _ Ht).
  pose proof (ext_max 4 (ro_ext r) ltac:(done)). cbn beta in *. lia.
Qed.

Definition roster_cost (k : string) (r : roster) : Z :=
  44 + slenZ k + slenZ (ro_name r) + zsum ticket_size (ro_tickets r) + 5 * zsum (λ _ : ticket, 1) (ro_tickets r) + ext_cost (ro_ext r).
Definition rosters_cost (m : gmap string roster) : Z := map_fold (λ k r acc, roster_cost k r + acc) 0 m.
Lemma rosters_cost_insert k r m : m !! k = None → rosters_cost (<[k := r]> m) = roster_cost k r + rosters_cost m.
Proof. intros H. unfold rosters_cost. rewrite map_fold_insert_L; [done| |done]. intros. lia. Qed.

Definition plain_rosters (m : gmap string roster) : Prop :=
  map_Forall (λ _ r, ro_assignment r = None ∧ Forall (λ t, ticket_size t < 2 ^ 28) (ro_tickets r)) m.

Lemma rosters_max (m : gmap string roster) : plain_rosters m →
  flen (map (λ kv, roster_entry kv) (map_to_list m)) <= rosters_cost m.
Proof.
  induction m as [|k r m Hk IH] using map_ind; intros Hp; [done|].
  rewrite rosters_cost_insert by done. rewrite (map_perm_len _ _ _ (map_to_list_insert _ k r Hk)).
  cbn [map]. rewrite fields_len_cons.
  apply map_Forall_insert in Hp as [[Ha Ht] Hp]; [|done].
  pose proof (roster_entry_max k r Ha Ht). specialize (IH Hp). unfold roster_cost. cbn [fst snd] in *. lia.
Qed.

Lemma result_size_max m : plain_rosters (ma_rosters m) →
  result_size m <= 22 + slenZ (ma_id m) + rosters_cost (ma_rosters m) + ext_cost (ma_ext m).
Proof.
  intros Hp. unfold result_size. change (flen [f_msg 1 (fields_match m)] <= 22 + slenZ (ma_id m) + rosters_cost (ma_rosters m) + ext_cost (ma_ext m)).
  rewrite flen_one. etrans; [apply f_msg_max; done|]. unfold fields_match. rewrite !flen_app.
  pose proof (rosters_max (ma_rosters m) Hp). pose proof (f_string_max 1 (ma_id m) ltac:(done)).
  pose proof (ext_max 3 (ma_ext m) ltac:(done)). lia.
Qed.

(** ** Extensions of the samples *)

Lemma varint_field_max n z : (n < 16)%N → flen (f_int n z) <= 11.
Proof.
  intros Hn. unfold f_int. destruct (z =? 0); [vm_compute; discriminate|]. rewrite flen_one.
  unfold enc_field. cbn [fst snd wire_type]. rewrite app_length_s.
  pose proof (varint_len_small 1 (n * 8 + 0)) as H1. simpl in H1.
  pose proof (varint_len_max (int_to_u64 z)). lia.
Qed.

Lemma any_time_max now : slenZ (any_value (any_time now)) <= 22.
Proof.
  unfold any_time, any_of. cbn [any_value]. change (flen (fields_ts (ts_new now)) <= 22).
  unfold fields_ts. rewrite flen_app.
  pose proof (varint_field_max 1 (ts_seconds (ts_new now)) ltac:(done)).
  pose proof (varint_field_max 2 (ts_nanos (ts_new now)) ltac:(done)). lia.
Qed.

Lemma any_string_max s : slenZ (any_value (any_string s)) <= 11 + slenZ s.
Proof. unfold any_string, any_of. cbn [any_value]. exact (f_string_max 1 s ltac:(done)). Qed.

Lemma roster_ext_max now : ext_cost {[ "CreationTime" := any_time now ]} <= 144.
Proof.
  change ({[ "CreationTime" := any_time now ]} : extensions) with (<["CreationTime" := any_time now]> (∅ : gmap string any)).
  rewrite ext_cost_insert, ext_cost_empty by done.
  pose proof (any_time_max now).
  assert (slenZ (any_url (any_time now)) = 45) as -> by reflexivity.
  change (slenZ "CreationTime") with 12. lia.
Qed.

Lemma common_ext_max f prof : ext_cost (common_ext f prof) <= 450 + slenZ prof.
Proof.
  change (common_ext f prof) with
    (<["score" := any_int32 100]> (<["mmfName" := any_string (sample_name f)]> (<["profileName" := any_string prof]> (∅ : gmap string any)))).
  rewrite !ext_cost_insert, ext_cost_empty by done.
  pose proof (any_string_max prof). pose proof (any_string_max (sample_name f)).
  assert (slenZ (any_url (any_string prof)) = 47) as -> by reflexivity.
  assert (slenZ (any_url (any_string (sample_name f))) = 47) as -> by reflexivity.
  assert (slenZ (any_url (any_int32 100)) = 46) as -> by reflexivity.
  assert (slenZ (any_value (any_int32 100)) = 2) as -> by reflexivity.
  assert (slenZ (sample_name f) <= 30) by (destruct f; vm_compute; discriminate).
  change (slenZ "profileName") with 11. change (slenZ "mmfName") with 7. change (slenZ "score") with 5. lia.
Qed.

Lemma team_ext_max prof now :
  ext_cost (<["creationTime" := any_time now]> (common_ext Team prof)) <= 594 + slenZ prof.
Proof.
  change (<["creationTime" := any_time now]> (common_ext Team prof)) with
    (<["creationTime" := any_time now]> (common_ext Team prof : gmap string any)).
  rewrite ext_cost_insert by done. pose proof (common_ext_max Team prof). pose proof (any_time_max now).
  assert (slenZ (any_url (any_time now)) = 45) as -> by reflexivity.
  change (slenZ "creationTime") with 12. lia.
Qed.

Lemma says_profile f prof now m : SaysText (dress f prof now m) "profileName" prof.
Proof.
  exists (any_string prof). split; [|by destruct prof].
  destruct f; reflexivity.
Qed.
Lemma says_name f prof now m : SaysText (dress f prof now m) "mmfName" (sample_name f).
Proof.
  exists (any_string (sample_name f)). split; [|by destruct f].
  destruct f; reflexivity.
Qed.
