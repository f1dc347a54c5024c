(** What the example matchmaker logs. *)
From Coq Require Import Ascii String ZArith NArith Lia.
From stdpp Require Import prelude strings gmap.
From Verif.Model Require Import GoStrings Types JsonMsg ExampleCalls Matchmaker.
From Verif.Spec Require Import ExampleCallsSpec MatchmakerSpec.
From Verif.Proofs Require Import MatchmakerLemmas.
Local Open Scope string_scope.
Local Open Scope list_scope.

Lemma activate_grpc ok ids p : activate_logs true ok ids p = [LFailed] ∧ ok = false ∨ activate_logs true ok ids p = [] ∧ ok = true.
Proof. destruct ok; cbn; auto. Qed.

Lemma activate_http_never ok ids p : LFailed ∉ activate_logs false ok ids p.
Proof.
  unfold activate_logs. rewrite app_nil_r, !elem_of_app. intros [H|[H|H]].
  - destruct (j_ids false ids); [by apply elem_of_nil in H|]. by apply elem_of_list_singleton in H.
  - destruct p; cbn in H; try (by apply elem_of_list_singleton in H). by apply elem_of_nil in H.
  - destruct p as [| |st b]; cbn in H; [by apply elem_of_nil in H..|]. destruct (r_empty b); [by apply elem_of_nil in H|].
    by apply elem_of_list_singleton in H.
Qed.

(** What is logged, exactly. *)
Lemma activate_http_exact ok ids p l : l ∈ activate_logs false ok ids p ↔
  l = LMarshal ∧ j_ids false ids = None ∨ l = LExecute ∧ p = PNoAnswer ∨ l = LRead ∧ p = PUnreadable ∨
  l = LUnmarshal ∧ ∃ st b, p = PAnswer st b ∧ b ≠ Some activated_body.
Proof.
  unfold activate_logs. rewrite app_nil_r, !elem_of_app.
  assert (Hb : ∀ b, r_empty b = true ↔ b = Some activated_body).
  { intros [[| | | |ls|[|kv ls]]|]; cbn; split; intros H; try done; by injection H. }
  split.
  - intros [H|[H|H]].
    + destruct (j_ids false ids); [by apply elem_of_nil in H|]. apply elem_of_list_singleton in H as ->. by left.
    + destruct p; cbn in H; try (apply elem_of_list_singleton in H as ->); [by right; left|by right; right; left|by apply elem_of_nil in H].
    + destruct p as [| |st b]; cbn in H; [by apply elem_of_nil in H..|]. destruct (r_empty b) eqn:E; [by apply elem_of_nil in H|].
      apply elem_of_list_singleton in H as ->. right; right; right. split; [done|]. exists st, b. split; [done|].
      intros Hn. apply Hb in Hn. congruence.
  - intros [[-> H]|[[-> ->]|[[-> ->]|(-> & st & b & -> & H)]]].
    + left. rewrite H. by left.
    + right; left. by left.
    + right; left. by left.
    + right; right. cbn. destruct (r_empty b) eqn:E; [|by left]. apply Hb in E. done.
Qed.

(** A call that om-core answered: something is logged exactly if it failed. *)
Lemma activate_http_omcore ok ids a p : j_ids false ids ≠ None → OmCoreAnswers a p → (∀ j, a = Some j → j = activated_body) →
  (activate_logs false ok ids p ≠ [] ↔ a = None).
Proof.
  intros Hm Ha Hj. destruct (j_ids false ids) as [x|] eqn:Ex; [|done]. unfold activate_logs. rewrite Ex.
  destruct Ha as [j|st num msg det Hst|]; cbn.
  - rewrite (Hj j eq_refl). cbn. split; done.
  - split; [done|]. by intros _.
  - split; [done|]. by intros _.
Qed.

(** Creating a ticket: an error is logged as one. *)
Lemma create_exact grpc reply mar p : LFailed ∈ (create_result grpc reply mar p).2 ↔
  if grpc then reply = None else ∀ st b, p = PAnswer st b → (r_create_response b).2 = false.
Proof.
  unfold create_result. destruct grpc.
  - destruct reply; cbn; split; intros H; try done; [by apply elem_of_nil in H|by left].
  - assert (Hm : LFailed ∉ if mar then [] else [LMarshal]).
    { destruct mar; intros H; [by apply elem_of_nil in H|by apply elem_of_list_singleton in H]. }
    destruct p as [| |st b]; cbn.
    + split; [done|]. intros _. apply elem_of_app. right. right. left.
    + split; [done|]. intros _. apply elem_of_app. right. right. left.
    + destruct (r_create_response b) as [id [|]] eqn:E; cbn.
      * rewrite app_nil_r. split; [done|]. intros H. specialize (H st b eq_refl). rewrite E in H. done.
      * split; [|intros _; apply elem_of_app; right; right; left]. intros _ st' b' [= <- <-]. by rewrite E.
Qed.

Lemma create_omcore reply mar a p : OmCoreAnswers a p → (∀ j, a = Some j → ∃ id, j = created_body id) →
  match a with
  | Some j => ∃ id, j = created_body id ∧ (create_result false reply mar p).1 = id ∧ LFailed ∉ (create_result false reply mar p).2
  | None => (create_result false reply mar p).1 = "" ∧ LFailed ∈ (create_result false reply mar p).2
  end.
Proof.
  intros Ha Hj. destruct Ha as [j|st num msg det Hst|].
  - destruct (Hj j eq_refl) as [id ->]. exists id. split; [done|]. split; [done|].
    rewrite create_exact. intros H. specialize (H _ _ eq_refl). done.
  - split; [done|]. apply create_exact. by intros st' b [= <- <-].
  - split; [done|]. apply create_exact. by intros st' b [= <- <-].
Qed.

(** Each id queued once is in at most one call. *)
Lemma concat_nodup_unique {A} (ls : list (list A)) n n' b b' x : NoDup (concat ls) →
  ls !! n = Some b → x ∈ b → ls !! n' = Some b' → x ∈ b' → n = n'.
Proof.
  revert n n'. induction ls as [|a ls IH]; intros n n' Hnd Hn Hx Hn' Hx'; [done|].
  cbn [concat] in Hnd. apply NoDup_app in Hnd as (_ & Hd & Hnd).
  assert (Hc : ∀ m c, ls !! m = Some c → x ∈ c → x ∈ concat ls).
  { intros m c Hm Hxc. apply elem_of_list_In, in_concat. exists c. split; apply elem_of_list_In; [by eapply elem_of_list_lookup_2|done]. }
  destruct n as [|n], n' as [|n']; cbn in Hn, Hn'.
  - done.
  - injection Hn as ->. destruct (Hd x Hx). by eapply Hc.
  - injection Hn' as ->. destruct (Hd x Hx'). by eapply Hc.
  - f_equal. by eapply IH.
Qed.

Lemma one_attempt q0 s n n' b b' id : a_later (a_init q0) s → NoDup (a_arrived s) →
  batches s !! n = Some b → id ∈ b → batches s !! n' = Some b' → id ∈ b' → n = n'.
Proof.
  intros H Hnd. destruct (activation_batches q0 s H) as (_ & _ & [k Hk] & _).
  eapply concat_nodup_unique. rewrite Hk in Hnd. by apply NoDup_app in Hnd as (? & _).
Qed.
