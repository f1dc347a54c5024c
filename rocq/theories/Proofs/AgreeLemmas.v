(** Agreement of the instances on one Redis stream: lemmas. *)
From Coq Require Import Ascii String ZArith NArith Lia.
From stdpp Require Import prelude strings gmap relations.
From Verif.Model Require Import GoStrings Types Proto Cache Replica Queues RedisRepl System RedisSystem.
From Verif.Spec Require Import CacheSpec SystemSpec AgreeSpec.
From Verif.Proofs Require Import HistoryLemmas HistoryMore RedisSystemLemmas RedisSystemRead RedisSystemMore.
Local Open Scope nat_scope.

Lemma for_key_assigns k us : assigns_for k (for_key k us) = assigns_for k us.
Proof.
  induction us as [|[cm key v] us IH]; [done|]. unfold for_key in *. rewrite filter_cons.
  destruct (decide (u_key (Update cm key v) = k)) as [E|E]; simpl in *; unfold assigns_for in *; simpl.
  - by rewrite IH.
  - rewrite IH. destruct cm; simpl; try done. by rewrite decide_False.
Qed.

Lemma met {A} (P : A → Prop) `{∀ x, Decision (P x)} (l : list A) : (∃ v, v ∈ l ∧ P v) ∨ ∀ v, v ∈ l → ¬ P v.
Proof. destruct (decide (Exists P l)) as [E|E]; [left; by apply Exists_exists|]. right. intros v Hv Hp. apply E, Exists_exists. by exists v. Qed.

Lemma met_old {S} limit k (x : inst S) :
  MetOld limit k x ∨ ∀ v, v ∈ hev_visits (in_events x) → ¬ OlderThan limit v.2 k.
Proof. exact (met (λ v : string * instant, (limit < unix_secs v.2 - id_time k)%Z) (hev_visits (in_events x))). Qed.
Lemma met_expired {S} t (x : inst S) :
  MetExpired t x ∨ ∀ v, v ∈ hev_visits (in_events x) → ¬ ExpiredAt v.2 t.
Proof. exact (met (λ v : string * instant, (as_time (tk_exp t) < v.2)%Z) (hev_visits (in_events x))). Qed.

Section two.
Context {S S' : Type} (cfg : config) (x : inst S) (y : inst S') (k : string).
Hypothesis Hx : in_cache x = hev_run cfg empty_cache (in_events x).
Hypothesis Hy : in_cache y = hev_run cfg empty_cache (in_events y).
Hypothesis Hs : SameFor k x y.

Lemma same_lists :
  tickets_for k (applied x) = tickets_for k (applied y) ∧ state_cmds_for k (applied x) = state_cmds_for k (applied y) ∧
  assigns_for k (applied x) = assigns_for k (applied y).
Proof.
  assert (E : for_key k (applied x) = for_key k (applied y)) by exact Hs.
  split_and!; [rewrite <-!(for_key_tickets k (applied _)), E|rewrite <-!(for_key_states k (applied _)), E|rewrite <-!(for_key_assigns k (applied _)), E]; done.
Qed.

Lemma agree_ticket t : c_tickets (in_cache x) !! k = Some t →
  c_tickets (in_cache y) !! k = Some t ∨ MetOld (cfg_ticket_ttl cfg) k y ∨ MetExpired t y.
Proof.
  intros Ht. rewrite Hx in Ht. destruct (run_sound cfg (in_events x)) as (H1 & _). apply H1 in Ht as (v & Hv & ->).
  destruct (met_old (cfg_ticket_ttl cfg) k y) as [|Ho]; [by right; left|].
  destruct (met_expired (stored_ticket k v) y) as [|He]; [by right; right|]. left. rewrite Hy.
  apply run_ticket_kept; [done|done|]. change (hev_updates (in_events y)) with (applied y).
  destruct same_lists as (<- & _). done.
Qed.

Lemma agree_active t : Active (in_cache x) k → c_tickets (in_cache x) !! k = Some t →
  (Active (in_cache y) k ∧ c_tickets (in_cache y) !! k = Some t) ∨ MetOld (cfg_ticket_ttl cfg) k y ∨ MetExpired t y.
Proof.
  intros Ha Ht. destruct (agree_ticket t Ht) as [Hty|?]; [left|by right]. split; [|done]. split; [by eexists|].
  rewrite Hy. intros Hi. destruct (run_sound cfg (in_events y)) as (_ & H2 & _). apply H2 in Hi.
  rewrite Hx in Ha. apply run_active in Ha. change (hev_updates (in_events x)) with (applied x) in Ha.
  change (hev_updates (in_events y)) with (applied y) in Hi. destruct same_lists as (_ & E & _). congruence.
Qed.

Lemma agree_state t t' :
  c_tickets (in_cache x) !! k = Some t → c_tickets (in_cache y) !! k = Some t' →
  t = t' ∧ (Active (in_cache x) k ↔ Active (in_cache y) k).
Proof.
  intros Ht Ht'. destruct same_lists as (Et & Es & _). split.
  - rewrite Hx in Ht. rewrite Hy in Ht'. destruct (run_sound cfg (in_events x)) as (H1 & _). apply H1 in Ht as (v & Hv & ->).
    destruct (run_sound cfg (in_events y)) as (H1' & _). apply H1' in Ht' as (v' & Hv' & ->).
    change (hev_updates (in_events x)) with (applied x) in Hv. change (hev_updates (in_events y)) with (applied y) in Hv'. congruence.
  - split; intros Ha.
    + split; [by eexists|]. rewrite Hy. intros Hi. destruct (run_sound cfg (in_events y)) as (_ & H2 & _). apply H2 in Hi.
      rewrite Hx in Ha. apply run_active in Ha. change (hev_updates (in_events x)) with (applied x) in Ha.
      change (hev_updates (in_events y)) with (applied y) in Hi. congruence.
    + split; [by eexists|]. rewrite Hx. intros Hi. destruct (run_sound cfg (in_events x)) as (_ & H2 & _). apply H2 in Hi.
      rewrite Hy in Ha. apply run_active in Ha. change (hev_updates (in_events y)) with (applied y) in Ha.
      change (hev_updates (in_events x)) with (applied x) in Hi. congruence.
Qed.

Lemma agree_assign a : c_assign (in_cache x) !! k = Some a →
  c_assign (in_cache y) !! k = Some a ∨ MetOld (cfg_ticket_ttl cfg + cfg_assign_ttl cfg) k y.
Proof.
  intros Ha. rewrite Hx in Ha. destruct (run_sound cfg (in_events x)) as (_ & _ & H3). apply H3 in Ha as (v & Hv & ->).
  destruct (met_old (cfg_ticket_ttl cfg + cfg_assign_ttl cfg) k y) as [|Ho]; [by right|]. left. rewrite Hy.
  apply run_assign_kept; [done|]. change (hev_updates (in_events y)) with (applied y).
  destruct same_lists as (_ & _ & <-). done.
Qed.
End two.

Lemma red_agree_active cfg s n m x y k t :
  yreach cfg s → ry_insts s !! n = Some x → ry_insts s !! m = Some y → SameFor k (rx_inst x) (rx_inst y) →
  Active (in_cache (rx_inst x)) k → c_tickets (in_cache (rx_inst x)) !! k = Some t →
  (Active (in_cache (rx_inst y)) k ∧ c_tickets (in_cache (rx_inst y)) !! k = Some t) ∨
  MetOld (cfg_ticket_ttl cfg) k (rx_inst y) ∨ MetExpired t (rx_inst y).
Proof.
  intros Hr Hx Hy Hs. eapply agree_active; [by apply (red_cache _ _ _ _ Hr Hx)|by apply (red_cache _ _ _ _ Hr Hy)|done].
Qed.

Lemma red_agree_state cfg s n m x y k t t' :
  yreach cfg s → ry_insts s !! n = Some x → ry_insts s !! m = Some y → SameFor k (rx_inst x) (rx_inst y) →
  c_tickets (in_cache (rx_inst x)) !! k = Some t → c_tickets (in_cache (rx_inst y)) !! k = Some t' →
  t = t' ∧ (Active (in_cache (rx_inst x)) k ↔ Active (in_cache (rx_inst y)) k).
Proof.
  intros Hr Hx Hy Hs. eapply agree_state; [by apply (red_cache _ _ _ _ Hr Hx)|by apply (red_cache _ _ _ _ Hr Hy)|done].
Qed.

Lemma red_agree_ticket cfg s n m x y k t :
  yreach cfg s → ry_insts s !! n = Some x → ry_insts s !! m = Some y → SameFor k (rx_inst x) (rx_inst y) →
  c_tickets (in_cache (rx_inst x)) !! k = Some t →
  c_tickets (in_cache (rx_inst y)) !! k = Some t ∨ MetOld (cfg_ticket_ttl cfg) k (rx_inst y) ∨ MetExpired t (rx_inst y).
Proof.
  intros Hr Hx Hy Hs. eapply agree_ticket; [by apply (red_cache _ _ _ _ Hr Hx)|by apply (red_cache _ _ _ _ Hr Hy)|done].
Qed.

Lemma red_agree_assign cfg s n m x y k a :
  yreach cfg s → ry_insts s !! n = Some x → ry_insts s !! m = Some y → SameFor k (rx_inst x) (rx_inst y) →
  c_assign (in_cache (rx_inst x)) !! k = Some a →
  c_assign (in_cache (rx_inst y)) !! k = Some a ∨ MetOld (cfg_ticket_ttl cfg + cfg_assign_ttl cfg) k (rx_inst y).
Proof.
  intros Hr Hx Hy Hs. eapply agree_assign; [by apply (red_cache _ _ _ _ Hr Hx)|by apply (red_cache _ _ _ _ Hr Hy)|done].
Qed.

(** How [SameFor] comes about. *)
Lemma caught_up_same s x y k : CaughtUp s x → CaughtUp s y → SameFor k (rx_inst x) (rx_inst y).
Proof. unfold CaughtUp, SameFor. by intros -> ->. Qed.

Lemma red_same_count cfg s n m x y k :
  yreach cfg s → Untrimmed s → ry_insts s !! n = Some x → ry_insts s !! m = Some y →
  length (applied (rx_inst x)) = length (applied (rx_inst y)) → SameFor k (rx_inst x) (rx_inst y).
Proof.
  intros Hr Hu Hx Hy Hl. unfold SameFor. f_equal.
  destruct (red_same_order _ _ _ _ _ _ Hr Hu Hx Hy) as [[l E]|[l E]]; rewrite E, app_length in Hl;
    (assert (l = []) as -> by (apply nil_length_inv; lia)); rewrite app_nil_r in E; done.
Qed.

Lemma red_nothing_ahead cfg s n m x y k :
  yreach cfg s → Untrimmed s → ry_insts s !! n = Some x → ry_insts s !! m = Some y →
  (∀ u, u ∈ drop (length (applied (rx_inst x))) (history s) → u_key u ≠ k) →
  (∀ u, u ∈ drop (length (applied (rx_inst y))) (history s) → u_key u ≠ k) →
  SameFor k (rx_inst x) (rx_inst y).
Proof.
  intros Hr Hu Hx Hy H1 H2.
  assert (Hone : ∀ n x, ry_insts s !! n = Some x → (∀ u, u ∈ drop (length (applied (rx_inst x))) (history s) → u_key u ≠ k) →
    filter (λ u, u_key u = k) (history s) = filter (λ u, u_key u = k) (applied (rx_inst x))).
  { clear n m x y Hx Hy H1 H2. intros n x Hx H. destruct (red_prefix _ _ _ _ Hr Hu Hx) as [r E].
    rewrite E in H. rewrite drop_app in H. rewrite E, filter_app.
    assert (filter (λ u, u_key u = k) (on_the_way (rx_inst x) ++ r) = []) as ->; [|by rewrite app_nil_r].
    remember (on_the_way (rx_inst x) ++ r) as l eqn:El. clear El E. induction l as [|u l IH]; [done|].
    rewrite filter_cons, decide_False by (apply H; left). apply IH. intros u' Hu'. apply H. by right. }
  unfold SameFor. by rewrite <-(Hone _ _ Hx H1), <-(Hone _ _ Hy H2).
Qed.
