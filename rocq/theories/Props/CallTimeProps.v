(** C151: how long an invocation of functions takes. *)
From Coq Require Import String ZArith Lia.
From stdpp Require Import prelude.
From Verif.Model Require Import Types Settings NetSettings Connect CallTime.
From Verif.Spec Require Import SettingsSpec NetSpec ConnectSpec CallTimeSpec.
From Verif.Proofs Require Import NetLemmas CallTimeLemmas.
Local Open Scope Z_scope.

(** "A call is over within the time limit of the functions": false, even if sending matches and
    deactivating tickets takes no time; "... is over within a time that depends on that limit":
    false, as the caller can take matches slowly. *)
Definition C151_within : Prop := ∀ wait limit start fs served, Forall (SaneFn start) fs → served_ok wait limit start fs served → 0 <= limit →
  (∀ m, MatchOf fs m → m_send m = 0 ∧ m_update m = 0) → invoke_end wait limit start fs served <= start + limit.
Theorem C151_within_refuted : ¬ C151_within.
Proof. exact within_refuted. Qed.
Print Assumptions C151_within_refuted.
Definition C151_some_bound : Prop := ∃ B : Z → Z, ∀ wait limit start fs served, Forall (SaneFn start) fs → served_ok wait limit start fs served →
  (∀ m, MatchOf fs m → m_update m = 0) → invoke_end wait limit start fs served <= start + B limit.
Theorem C151_some_bound_refuted : ¬ C151_some_bound.
Proof. exact some_bound_refuted. Qed.
Print Assumptions C151_some_bound_refuted.

(** What holds: it is over within the limit, the longest deactivation, 100 ms and the time it
    takes to send all matches together. *)
Theorem C151_bounded_partial : ∀ wait limit start fs served U, Forall (SaneFn start) fs → served_ok wait limit start fs served →
  0 <= U → (∀ m, MatchOf fs m → m_update m <= U) →
  start <= invoke_end wait limit start fs served <= start + Z.max limit 0 + U + 100 * 1000000 + Sending fs.
Proof. exact bounded. Qed.
Print Assumptions C151_bounded_partial.
(** Within the limit, if the functions that end normally return no matches: it is over when the last
    function is. However slow the caller is: functions that fail do not wait for their
    matches. *)
Theorem C151_within_partial : ∀ wait limit start fs served, Forall (SaneFn start) fs → served_ok wait limit start fs served →
  (∀ f e, f ∈ fs → EndsWell limit start f e → fc_matches f = []) →
  Latest (λ t, t = start ∨ ∃ f, f ∈ fs ∧ FnEnds limit start f t) (invoke_end wait limit start fs served) ∧
  invoke_end wait limit start fs served <= start + Z.max limit 0.
Proof. exact within_partial. Qed.
Print Assumptions C151_within_partial.

(** If sending takes no time: the call is over when the functions are, and 100 ms after the last
    match of those that end normally. OM_MATCH_TICKET_DEACTIVATION_WAIT makes no
    difference. *)
Theorem C151_exact : ∀ wait limit start fs served, Forall (SaneFn start) fs → served_ok wait limit start fs served →
  (∀ m, MatchOf fs m → m_send m = 0) →
  Latest (WaitedFor limit start fs) (invoke_end wait limit start fs served).
Proof. exact exact_fast. Qed.
Print Assumptions C151_exact.
Theorem C151_same : ∀ w w' limit start fs served served', Forall (SaneFn start) fs → served_ok w limit start fs served → served_ok w' limit start fs served' →
  (∀ m, MatchOf fs m → m_send m = 0) → invoke_end w limit start fs served = invoke_end w' limit start fs served'.
Proof.
  intros w w' limit start fs served served' Hs H H' Hz.
  destruct (exact_fast w limit start fs served Hs H Hz) as [P L], (exact_fast w' limit start fs served' Hs H' Hz) as [P' L'].
  specialize (L _ P'). specialize (L' _ P). lia.
Qed.
Print Assumptions C151_same.

(** A match waits for no more than the sending of others. *)
Theorem C151_handover : ∀ wait limit start fs served x t, Forall (SaneFn start) fs → served_ok wait limit start fs served →
  (x, t) ∈ serve start served → ∃ others, served ≡ₚ x :: others ∧ it_ready x <= t <= it_ready x + Total (it_send <$> others).
Proof. exact handover. Qed.
Print Assumptions C151_handover.
(** All matches of a function that ends normally are handed over before the call is over; with the
    setting, they are ready 100 ms after the deactivation, else at once, and the call goes on
    for 100 ms. *)
Theorem C151_all_taken : ∀ limit start fs served served' i f m e, fs !! i = Some f →
  EndsWell limit start f e → m ∈ fc_matches f → m_after m <= fc_run f → let ready := e - fc_run f + m_after m + m_update m in
  (served_ok true limit start fs served → ∃ t, (Item i (ready + 100 * 1000000) (m_send m), t) ∈ serve start served ∧
    t <= invoke_end true limit start fs served) ∧
  (served_ok false limit start fs served' → ∃ t, (Item i ready (m_send m), t) ∈ serve start served' ∧
    t + 100 * 1000000 <= invoke_end false limit start fs served').
Proof.
  intros limit start fs served served' i f m e Hi He Hm Ha ready. split; intros Hok.
  - destruct (well_served true limit start fs served i f m e Hok Hi He Hm Ha) as (t & Ht & Hle). exists t.
    split; [exact Ht|]. lia.
  - destruct (well_served false limit start fs served' i f m e Hok Hi He Hm Ha) as (t & Ht & Hle). exists t.
    rewrite Z.add_0_r in Ht. split; [exact Ht|exact Hle].
Qed.
Print Assumptions C151_all_taken.

(** A function whose addresses say nothing holds the call for the whole limit, whatever the
    others do. *)
Theorem C151_silent : ∀ wait limit start fs served f k j, f ∈ fs → SaneFn start f →
  dn_first (fc_dns f) = replicate (S k) Silent → dn_other (fc_dns f) = replicate j Silent → dn_at (fc_dns f) < start + limit →
  start + limit <= invoke_end wait limit start fs served.
Proof. exact silent_holds. Qed.
Print Assumptions C151_silent.

(** With the limit of the setting OM_MMF_TIMEOUT_SECS. *)
Theorem C151_configured : ∀ env wait start fs served U, Forall (SaneFn start) fs → served_ok wait (mmf_time env) start fs served →
  0 <= U → (∀ m, MatchOf fs m → m_update m <= U) →
  (∀ z, IsSetTo env "OM_MMF_TIMEOUT_SECS" z → 0 <= z <= 9223372036 →
    invoke_end wait (mmf_time env) start fs served <= start + z * 1000000000 + U + 100 * 1000000 + Sending fs) ∧
  (NotGiven env "OM_MMF_TIMEOUT_SECS" →
    invoke_end wait (mmf_time env) start fs served <= start + 500 * 1000000000 + U + 100 * 1000000 + Sending fs).
Proof.
  intros env wait start fs served U Hs Hok HU Hu. pose proof (bounded wait _ start fs served U Hs Hok HU Hu) as Hb. split.
  - intros z Hz Hr. rewrite (mmf_time_range env z Hz) in * by lia. lia.
  - intros Hg. rewrite (proj1 (default_waits env) Hg) in *. lia.
Qed.
Print Assumptions C151_configured.

(** Example: ten seconds; a function with two matches and one that fails after its match, whose
    caller takes a second for each. *)
Definition ex_f : fcall := FCall (Dns 0 [Accepts 1000000] []) 2000000000 true
  [FMatch 1000000000 5000000 1000000000; FMatch 1000000000 5000000 1000000000; FMatch 3000000000 0 0].
Definition ex_g : fcall := FCall (Dns 0 [Accepts 1000000] []) 500000000 false [FMatch 400000000 5000000 1000000000].
Example C151_example : let limit := 10 * 1000000000 in
  let ready := 1006000000 in let x := Item 0 ready 1000000000 in let y := Item 1 406000000 1000000000 in
  all_items false limit 0 0 [ex_f; ex_g] = [x; x; y] ∧
  served_ok false limit 0 [ex_f; ex_g] [y; x; x] ∧ served_ok false limit 0 [ex_f; ex_g] [x; x] ∧ ¬ served_ok false limit 0 [ex_f; ex_g] [x; y] ∧
  ¬ served_ok false limit 0 [ex_f; ex_g] [x; x; y] ∧
  serve 0 [y; x; x] = [(y, 406000000); (x, 1406000000); (x, 2406000000)] ∧
  invoke_end false limit 0 [ex_f; ex_g] [y; x; x] = 2506000000 ∧
  invoke_end false limit 0 [ex_g] [] = 501000000 ∧
  invoke_end false limit 0 [ex_f; FCall (Dns 0 [Silent] []) 0 true []] [x; x] = limit ∧
  Forall (SaneFn 0) [ex_f; ex_g] ∧ Sending [ex_f; ex_g] = 3000000000 ∧ EndsWell limit 0 ex_f 2001000000.
Proof.
  intros limit ready x y. assert (all_items false limit 0 0 [ex_f; ex_g] = [x; x; y]) as E by done.
  assert (∀ rest : list item, (∀ z, z ∈ rest → z = y) → ∀ z f, z ∈ rest → [ex_f; ex_g] !! it_fn z = Some f → fn_complete limit 0 f = false) as Hr.
  { intros rest H z f ->%H. simpl. by intros [= <-]. }
  split; [done|]. split; [|split; [|split; [|split]]].
  - split; [repeat constructor; vm_compute; congruence|]. exists []. split; [rewrite E; apply (Permutation_app_comm [y] [x; x])|].
    apply Hr. by intros z ?%elem_of_nil.
  - split; [repeat constructor; vm_compute; congruence|]. exists [y]. split; [by rewrite E|].
    apply Hr. by intros z ->%elem_of_list_singleton.
  - intros [[H _] _]. apply Forall_cons in H as [H _]. vm_compute in H. congruence.
  - intros [[H _] _]. apply Forall_cons in H as [_ H]. apply Forall_cons in H as [H _]. vm_compute in H. congruence.
  - repeat split; try (vm_compute; congruence); try (repeat constructor; vm_compute; congruence).
    exists 1000000. repeat split; vm_compute; congruence.
Qed.
