(** Lemmas for C116. *)
From Coq Require Import Ascii String ZArith NArith Lia ZifyBool ZifyN.
From stdpp Require Import prelude strings gmap.
From Verif.Model Require Import GoStrings Types Proto Cache Replica.
From Verif.Spec Require Import CacheSpec ForgetSpec.
From Verif.Proofs Require Import MemLemmas CacheLemmas HistoryLemmas.
Local Open Scope Z_scope.

Local Arguments stored_ticket : simpl never.
Local Arguments unmarshal_assignment : simpl never.

Lemma readings_bounded (l : list visit) (t : instant) : ∃ t2, t <= t2 ∧ ∀ v, v ∈ l → v.2 <= t2.
Proof.
  induction l as [|v l (t2 & H1 & H2)].
  - exists t. split; [lia|]. intros v Hv. by apply elem_of_nil in Hv.
  - exists (Z.max v.2 t2). split; [lia|]. intros w [->|Hw]%elem_of_cons; [apply Z.le_max_l|].
    specialize (H2 w Hw). etrans; [exact H2|apply Z.le_max_r].
Qed.

Lemma unix_secs_add T n : unix_secs (T + n * giga) = unix_secs T + n.
Proof. unfold unix_secs. apply Z.div_add. unfold giga. lia. Qed.

Lemma unix_secs_le T : unix_secs T * giga <= T.
Proof. unfold unix_secs. rewrite Z.mul_comm. apply Z.mul_div_le. unfold giga. lia. Qed.

Lemma forgotten cfg es o T k :
  0 <= cfg_ticket_ttl cfg → 0 <= cfg_assign_ttl cfg →
  orders_fit cfg o (hev_run cfg empty_cache es) → LongAfter cfg T o →
  InTime cfg (hev_updates es) k → IssuedBy T k →
  Forgotten (cycle cfg o (hev_run cfg empty_cache es)) k.
Proof.
  intros H0 H0' Hf Hl Ht Hk. unfold IssuedBy in Hk.
  set (t1 := T + (cfg_ticket_ttl cfg + cfg_assign_ttl cfg + 1) * giga) in *.
  destruct (readings_bounded (cycle_visits o) t1) as (t2 & H12 & Hb).
  destruct (expiry_between cfg o (hev_run cfg empty_cache es) t1 t2 Hf) as (E1 & _ & E3 & _ & E5 & _).
  { intros v Hv. split; [by apply Hl|by apply Hb]. }
  assert (U : unix_secs t1 = unix_secs T + (cfg_ticket_ttl cfg + cfg_assign_ttl cfg + 1))
    by apply unix_secs_add.
  split_and!.
  - intros Hi. apply E1 in Hi as [_ Hi]. apply Hi. unfold OlderThan. lia.
  - destruct (c_tickets _ !! k) as [tk|] eqn:E; [|done]. exfalso.
    apply E3 in E as (E & Hx & _). destruct (run_sound cfg es) as (S & _).
    apply S in E as (v & Hv & ->). apply Hx. apply last_Some_elem_of in Hv.
    apply Ht in Hv. unfold ExpiresInTime in Hv. unfold ExpiredAt.
    pose proof (unix_secs_le T) as HT. unfold t1. clear -Hv HT Hk H0 H0'.
    assert ((id_time k + cfg_ticket_ttl cfg + 1) * giga <=
            unix_secs T * giga + (cfg_ticket_ttl cfg + cfg_assign_ttl cfg + 1) * giga).
    { rewrite <- Z.mul_add_distr_r. apply Z.mul_le_mono_nonneg_r; [unfold giga; lia|lia]. }
    lia.
  - destruct (c_assign _ !! k) as [a|] eqn:E; [|done]. exfalso.
    apply E5 in E as [_ E]. apply E. unfold OlderThan. lia.
Qed.

(** Ids whose number lies in the future stay. *)
Lemma stays_inactive cfg es k :
  (∀ v, v ∈ hev_visits es → unix_secs v.2 <= id_time k + cfg_ticket_ttl cfg) →
  last (state_cmds_for k (hev_updates es)) = Some false →
  k ∈ c_inactive (hev_run cfg empty_cache es).
Proof.
  intros H. apply run_inactive_kept. intros v Hv. specialize (H v Hv). unfold OlderThan. lia.
Qed.

Lemma stays_assigned cfg es k x :
  (∀ v, v ∈ hev_visits es → unix_secs v.2 <= id_time k + cfg_ticket_ttl cfg + cfg_assign_ttl cfg) →
  last (assigns_for k (hev_updates es)) = Some x →
  c_assign (hev_run cfg empty_cache es) !! k = Some (unmarshal_assignment x).
Proof.
  intros H. apply run_assign_kept. intros v Hv. specialize (H v Hv). unfold OlderThan. lia.
Qed.
