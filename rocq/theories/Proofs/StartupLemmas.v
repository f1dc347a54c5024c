(** Lemmas about the start of the server. *)
From Coq Require Import Ascii String ZArith NArith Lia.
From stdpp Require Import prelude strings.
From Verif.Model Require Import Startup.
From Verif.Spec Require Import StartupSpec.
Local Open Scope string_scope.

(** Before the process has ended. *)
Record going (s : startup) : Prop := Going {
  go_text : ∀ e, su_err s = Some e → ∃ f, f ∈ su_failures s ∧ error_text f = e;
  go_log : su_logged s = [];
  go_main_fatal : su_main s = SFatal → su_failures s ≠ [];
  go_grpc_fatal : su_grpc s = VFatal → su_failures s ≠ [];
  go_http_fatal : su_http s = VFatal → su_failures s ≠ [];
  go_stopped : su_main s = SStopped → su_signal s = true
}.

(** ... and before it was stopped. *)
Record starting (s : startup) : Prop := Starting {
  st_listen : su_main s = SListen → su_grpc s = VOff ∧ su_http s = VOff ∧ su_failures s = [];
  st_grpc_on : su_main s ≠ SListen → su_grpc s ≠ VOff;
  st_grpc : ∀ b e, GrpcFailed b e ∈ su_failures s → su_grpc s = VCheck ∨ su_grpc s = VFatal ∨ su_grpc s = VDone;
  st_grpc' : su_grpc s = VCheck ∨ su_grpc s = VFatal ∨ su_grpc s = VDone → ∃ b e, GrpcFailed b e ∈ su_failures s;
  st_http : ∀ e, HttpFailed e ∈ su_failures s → su_http s = VCheck ∨ su_http s = VFatal;
  st_http_on : su_main s = SWait → su_http s = VServing ∨ su_http s = VCheck ∨ su_http s = VFatal;
  st_http_off : su_main s ≠ SWait → su_http s = VOff;
  st_http_err : su_http s = VCheck ∨ su_http s = VFatal → su_err s ≠ None;
  st_register : ∀ e, RegisterFailed e ∈ su_failures s → (su_main s = SCheck ∨ su_main s = SFatal) ∧ su_err s ≠ None;
  st_late : ∀ e, GrpcFailed false e ∈ su_failures s → su_err s ≠ None ∧ su_grpc s ≠ VDone;
  st_fatal : su_main s = SFatal → su_err s ≠ None;
  st_heard : ∀ e, ListenFailed e ∉ su_failures s;
  st_early : ∀ e, su_main s = SRegister → GrpcFailed false e ∉ su_failures s
}.

Definition ended (s : startup) : Prop :=
  (su_exit s = Some 0 ∧ su_signal s = true ∧ su_logged s = []) ∨
  (su_exit s = Some 1 ∧ su_failures s ≠ [] ∧ ∃ l, su_logged s = [l] ∧
     match l with
     | Some e => ∃ f, f ∈ su_failures s ∧ error_text f = e
     | None => su_signal s = true ∨ ∃ e, GrpcFailed true e ∈ su_failures s
     end).

Definition su_inv (s : startup) : Prop :=
  match su_exit s with
  | None => going s ∧ (su_main s ≠ SStopped → starting s)
  | Some _ => ended s
  end.

Lemma app_ne_nil {A} (l : list A) x : (l ++ [x])%list ≠ [].
Proof. by destruct l. Qed.

Lemma su_inv0 : su_inv startup0.
Proof.
  cbn. split; [|intros _]; constructor; cbn; try done; try naive_solver.
  - by intros b e ?%elem_of_nil.
  - by intros e ?%elem_of_nil.
  - by intros e ?%elem_of_nil.
  - by intros e ?%elem_of_nil.
  - by intros e ?%elem_of_nil.
Qed.

Lemma in_snoc {A} (l : list A) x y : y ∈ (l ++ [x])%list ↔ y ∈ l ∨ y = x.
Proof. by rewrite elem_of_app, elem_of_list_singleton. Qed.

Lemma going_fails err e p p' g g' h h' sg lg fs f :
  going (Startup err p g h sg lg None fs) → error_text f = e → (p' = SStopped → p = SStopped) →
  going (Startup (Some e) p' g' h' sg lg None (fs ++ [f])).
Proof.
  intros [G1 G2 G3 G4 G5 G6] Hf Hp. constructor; cbn in *; try (intros; apply app_ne_nil); [|done|auto].
  intros e' [= <-]. exists f. split; [apply in_snoc; by right|done].
Qed.

Lemma su_inv_env s s' : su_env s s' → su_inv s → su_inv s'.
Proof.
  destruct 1; cbn; intros [G S].
  - right. split; [done|]. split; [apply app_ne_nil|]. pose proof (go_log _ G) as Hl; cbn in Hl; subst lg. exists (Some e). split; [done|].
    exists (ListenFailed e). split; [apply in_snoc; by right|done].
  - split; [by eapply going_fails|]. intros _.
    destruct (S ltac:(done)) as [S1 S2 S3 S3' S4 S5 S6 S7 S8 S9 S10 S11 S12]; cbn in *.
    constructor; cbn; try done; try setoid_rewrite in_snoc.
    + intros _. by apply S2.
    + intros b e' [H|H]; [by eapply S3|done].
    + intros H. destruct (S3' H) as (b & e' & ?). exists b, e'. by left.
    + intros e' [H|H]; [by eapply S4|done].
    + intros _. by apply S6.
    + intros e' [H|H]; (split; [by left|done]).
    + intros e' [H|H]; [|done]. split; [done|]. exact (proj2 (S9 e' H)).
    + intros e' [H|H]; [by eapply S11|done].
  - split; [by eapply going_fails|]. intros Hp.
    destruct (S Hp) as [S1 S2 S3 S3' S4 S5 S6 S7 S8 S9 S10 S11 S12]; cbn in *.
    constructor; cbn; try done; try setoid_rewrite in_snoc.
    + intros E. by destruct (S1 E).
    + intros b e' _. by left.
    + intros _. exists (is_register p), e. by right.
    + intros e' [H|H]; [by eapply S4|done].
    + intros e' [H|H]; [|done]. split; [exact (proj1 (S8 e' H))|done].
    + intros e' [H|H]; [by eapply S11|done].
    + intros e' -> [H|H]; [by eapply S12|done].
  - split; [by eapply going_fails|]. intros Hp.
    destruct (S Hp) as [S1 S2 S3 S3' S4 S5 S6 S7 S8 S9 S10 S11 S12]; cbn in *.
    constructor; cbn; try done; try setoid_rewrite in_snoc.
    + intros E. by destruct (S1 E) as (_ & ? & _).
    + intros b e' [H|H]; [by eapply S3|done].
    + intros H. destruct (S3' H) as (b & e' & ?). exists b, e'. by left.
    + intros e' _. by left.
    + intros _. by right; left.
    + intros E. by specialize (S6 E).
    + intros e' [H|H]; [|done]. split; [exact (proj1 (S8 e' H))|done].
    + intros e' [H|H]; [|done]. split; [done|]. exact (proj2 (S9 e' H)).
    + intros e' [H|H]; [by eapply S11|done].
    + intros e' E [H|H]; [by eapply S12|done].
  - destruct G as [G1 G2 G3 G4 G5 G6]. split; [by constructor|].
    intros Hp. destruct (S Hp) as [S1 S2 S3 S3' S4 S5 S6 S7 S8 S9 S10 S11 S12]; cbn in *. by constructor.
Qed.

Lemma su_inv_own s s' : su_own s s' → su_inv s → su_inv s'.
Proof.
  destruct 1; cbn; intros [[G1 G2 G3 G4 G5 G6] S]; cbn in *.
  - destruct (S ltac:(done)) as [S1 S2 S3 S3' S4 S5 S6 S7 S8 S9 S10 S11 S12]; cbn in *. destruct (S1 eq_refl) as (-> & -> & ->).
    split; [|intros _]; constructor; cbn; try done; try (intros [?|[?|?]]; done); try (intros [?|?]; done).
    all: try (by intros ? ?%elem_of_nil); try (by intros ? ? ?%elem_of_nil).
  - destruct (S ltac:(done)) as [S1 S2 S3 S3' S4 S5 S6 S7 S8 S9 S10 S11 S12]; cbn in *.
    split; [|intros _]; constructor; cbn; try done.
    + intros _. apply S2. done.
    + intros _. exact (S6 ltac:(done)).
    + rewrite (S6 ltac:(done)). intros [?|?]; done.
    + intros e H. destruct (S8 e H) as [[?|?] _]; done.
    + intros e H. by destruct (S12 e eq_refl).
  - destruct (S ltac:(done)) as [S1 S2 S3 S3' S4 S5 S6 S7 S8 S9 S10 S11 S12]; cbn in *.
    split; [|intros _]; constructor; cbn; try done.
    + intros _. by apply S2.
    + intros e H. specialize (S4 e H). rewrite (S6 ltac:(done)) in S4. by destruct S4.
    + by left.
    + intros [?|?]; done.
    + intros e H. destruct (S8 e H) as [_ ?]. done.
  - destruct (S ltac:(done)) as [S1 S2 S3 S3' S4 S5 S6 S7 S8 S9 S10 S11 S12]; cbn in *.
    split; [|intros _]; constructor; cbn; try done.
    + intros _ ->. destruct (G1 e eq_refl) as (f & Hf & _). by apply elem_of_nil in Hf.
    + intros _. by apply S2.
    + intros _. by apply S6.
    + intros e' H. destruct (S8 e' H). split; [by right|done].
  - right. split; [done|]. split; [by apply G3|]. subst lg. exists err. split; [done|].
    destruct err as [e|]; [by apply G1|]. destruct (S ltac:(done)) as [_ _ _ _ _ _ _ _ _ _ S10 _ _]; cbn in *. by destruct (S10 eq_refl).
  - split; [by constructor|]. intros H. by destruct H.
  - left. by rewrite G6.
  - split; [by constructor|]. intros H. by destruct H.
  - split; [by constructor|]. intros H.
    destruct (S H) as [S1 S2 S3 S3' S4 S5 S6 S7 S8 S9 S10 S11 S12]; cbn in *.
    constructor; cbn; try done.
    + intros E. destruct (S1 E) as [? _]. done.
    + intros b e Hb. by right; right.
    + intros _. apply S3'. by left.
    + intros e He. split; [by apply S9 in He as [? _]|]. by apply S9 in He as [? _].
  - split.
    { constructor; cbn; try done. intros _ ->. destruct (G1 e eq_refl) as (f & Hf & _). by apply elem_of_nil in Hf. }
    intros H. destruct (S H) as [S1 S2 S3 S3' S4 S5 S6 S7 S8 S9 S10 S11 S12]; cbn in *.
    constructor; cbn; try done.
    + intros E. destruct (S1 E) as [? _]. done.
    + intros b e' Hb. by right; left.
    + intros _. apply S3'. by left.
  - right. split; [done|]. split; [by apply G4|]. subst lg. exists err. split; [done|].
    destruct err as [e|]; [by apply G1|]. destruct p; try (left; by apply G6); right;
      (destruct (S ltac:(done)) as [S1 S2 S3 S3' S4 S5 S6 S7 S8 S9 S10 S11 S12]; cbn in *;
       destruct (S3' ltac:(by right; left)) as ([] & e & He); [by exists e|by destruct (proj1 (S9 e He))]).
  - split; [by constructor|]. intros H.
    destruct (S H) as [S1 S2 S3 S3' S4 S5 S6 S7 S8 S9 S10 S11 S12]; cbn in *. exfalso. by apply S7; [left|].
  - split.
    { constructor; cbn; try done. intros _ ->. destruct (G1 e eq_refl) as (f & Hf & _). by apply elem_of_nil in Hf. }
    intros H. destruct (S H) as [S1 S2 S3 S3' S4 S5 S6 S7 S8 S9 S10 S11 S12]; cbn in *.
    constructor; cbn; try done.
    + intros E. destruct (S1 E) as (_ & ? & _). done.
    + intros e' He. by right.
    + intros _. by right; right.
    + intros E. specialize (S6 E). done.
  - right. split; [done|]. split; [by apply G5|]. subst lg. exists err. split; [done|].
    destruct err as [e|]; [by apply G1|]. destruct p; try (left; by apply G6);
      (destruct (S ltac:(done)) as [S1 S2 S3 S3' S4 S5 S6 S7 S8 S9 S10 S11 S12]; cbn in *; exfalso; by apply S7; [right|]).
Qed.

Lemma su_holds s : su_reach s → su_inv s.
Proof.
  unfold su_reach. revert s. apply (rtc_ind_r (λ s, su_inv s)); [apply su_inv0|].
  intros s s' _ [Hs|Hs] IH; [by eapply su_inv_env|by eapply su_inv_own].
Qed.

(** ** The theorems *)

Lemma ends_with_signal s : su_reach s → su_exit s = Some 0 → su_signal s = true.
Proof.
  intros H%su_holds E. unfold su_inv in H. rewrite E in H. destruct H as [(_ & H & _)|(E' & _)]; [done|congruence].
Qed.

Lemma ends_with_failure s n : su_reach s → su_exit s = Some n → n ≠ 0 →
  n = 1 ∧ su_failures s ≠ [] ∧ ∃ l, su_logged s = [l] ∧
    match l with
    | Some e => ∃ f, f ∈ su_failures s ∧ error_text f = e
    | None => su_signal s = true ∨ ∃ e, GrpcFailed true e ∈ su_failures s
    end.
Proof.
  intros H%su_holds E Hn. unfold su_inv in H. rewrite E in H. destruct H as [(E' & _)|(E' & H)]; [congruence|].
  split; [congruence|done].
Qed.

Lemma goes_on s : su_reach s → Settled s → su_exit s = None →
  Serves s ∨ (su_main s = SWait ∧ su_grpc s = VDone ∧ su_http s = VServing ∧
    ∃ e, GrpcFailed true e ∈ su_failures s ∧ ∀ f, f ∈ su_failures s → ∃ e', f = GrpcFailed true e').
Proof.
  intros H%su_holds Hs E. destruct s as [err p g h sg lg ex fs]. cbn in E. subst ex.
  destruct H as [[G1 G2 G3 G4 G5 G6] S]. cbn [su_main su_grpc su_http su_failures] in *.
  assert (Hp : p = SWait).
  { destruct p; [| | | |done|]; exfalso.
    - exact (Hs _ (SU_listen _ _ _ _ _ _)).
    - exact (Hs _ (SU_register _ _ _ _ _ _)).
    - destruct err; [exact (Hs _ (SU_check_fails _ _ _ _ _ _))|exact (Hs _ (SU_check_ok _ _ _ _ _))].
    - exact (Hs _ (SU_fatal _ _ _ _ _ _)).
    - exact (Hs _ (SU_end _ _ _ _ _ _)). }
  subst p. destruct (S ltac:(done)) as [S1 S2 S3 S3' S4 S5 S6 S7 S8 S9 S10 S11 S12]; cbn in *.
  assert (Hh : h = VServing).
  { destruct (S5 eq_refl) as [?|[->| ->]]; [done| |]; exfalso.
    - destruct err; [exact (Hs _ (SU_http_fails2 _ _ _ _ _ _))|exact (Hs _ (SU_http_ok _ _ _ _ _))].
    - exact (Hs _ (SU_http_fatal _ _ _ _ _ _)). }
  subst h. destruct g.
  - by destruct S2.
  - by left.
  - exfalso. destruct err; [exact (Hs _ (SU_grpc_fails _ _ _ _ _ _))|exact (Hs _ (SU_grpc_ok _ _ _ _ _))].
  - exfalso. exact (Hs _ (SU_grpc_fatal _ _ _ _ _ _)).
  - right. do 3 (split; [done|]). destruct (S3' ltac:(by right; right)) as ([] & e & He); [|by destruct (S9 e He)].
    exists e. split; [done|]. intros [e'|[] e'|e'|e'] Hf; [by destruct (S11 e')|by exists e'|by destruct (S9 e' Hf)| |].
    + by destruct (S8 e' Hf) as [[?|?] _].
    + by destruct (S4 e' Hf).
Qed.

(** The process settles after few steps of its own. *)
Definition main_weight (p : start_pc) : nat :=
  match p with SListen => 13 | SRegister => 9 | SCheck => 8 | SFatal => 1 | SWait => 4 | SStopped => 1 end.
Definition serve_weight (g : serve_pc) : nat :=
  match g with VOff => 0 | VServing => 3 | VCheck => 2 | VFatal => 1 | VDone => 0 end.
Definition su_weight (s : startup) : nat :=
  match su_exit s with
  | Some _ => 0
  | None => 1 + main_weight (su_main s) + serve_weight (su_grpc s) + serve_weight (su_http s)
  end.

Lemma su_own_weight s s' : su_own s s' → su_weight s' < su_weight s.
Proof. destruct 1; unfold su_weight; cbn; lia. Qed.

Lemma late_failure_ends s f : su_reach s → Settled s → su_signal s = false → f ∈ su_failures s →
  (∀ e, f ≠ GrpcFailed true e) → su_exit s = Some 1.
Proof.
  intros H Hs Hg Hf Hl. destruct (su_exit s) as [n|] eqn:E.
  - destruct n as [|n]; [pose proof (ends_with_signal s H E); congruence|].
    by destruct (ends_with_failure s (S n) H E ltac:(done)) as [-> _].
  - destruct (goes_on s H Hs E) as [(_ & H1 & H2 & H3)|(_ & _ & _ & e & _ & H1)].
    + exfalso. apply su_holds in H. unfold su_inv in H. rewrite E in H. destruct H as [_ St]. rewrite H1 in St.
      destruct (St ltac:(done)) as [S1 S2 S3 S3' S4 S5 S6 S7 S8 S9 S10 S11 S12].
      destruct f as [e|b e|e|e].
      * exact (S11 e Hf).
      * rewrite H2 in S3. destruct (S3 b e Hf) as [?|[?|?]]; done.
      * rewrite H1 in S8. destruct (S8 e Hf) as [[?|?] _]; done.
      * rewrite H3 in S4. destruct (S4 e Hf) as [?|?]; done.
    + destruct (H1 f Hf) as [e' ->]. by destruct (Hl e').
Qed.

Lemma late_failure_logged s : su_reach s → Settled s → su_signal s = false → su_failures s ≠ [] →
  (∀ e, GrpcFailed true e ∉ su_failures s) →
  su_exit s = Some 1 ∧ ∃ f, f ∈ su_failures s ∧ su_logged s = [Some (error_text f)].
Proof.
  intros H Hs Hg Hf Hl.
  assert (Hx : ∃ f, f ∈ su_failures s) by (destruct (su_failures s) as [|f fs]; [done|exists f; left]).
  destruct Hx as [f Hin].
  assert (E : su_exit s = Some 1). { apply (late_failure_ends s f); try done. intros e ->. exact (Hl e Hin). }
  split; [done|]. destruct (ends_with_failure s 1 H E ltac:(done)) as (_ & _ & l & Hlg & Hm).
  destruct l as [e|]; [|exfalso; destruct Hm as [?|[e He]]; [congruence|exact (Hl e He)]].
  destruct Hm as (f' & Hf' & <-). by exists f'.
Qed.

(** One failure, on its own. *)
Lemma settled_exit s n : su_exit s = Some n → Settled s.
Proof. intros E s' Hs. destruct Hs; cbn in E; done. Qed.
Lemma su_weight_bound s : su_weight s <= 20.
Proof. destruct s as [err p g h sg lg [|] fs]; unfold su_weight; cbn; [lia|]. destruct p, g, h; cbn; lia. Qed.
