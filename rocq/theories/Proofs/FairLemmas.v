(** Leads-to reasoning for fair infinite executions. *)
From Coq Require Import Ascii String ZArith NArith Lia.
From stdpp Require Import prelude strings gmap.
From Verif.Model Require Import GoStrings Types Cache Replica Handlers System RedisRepl RedisSystem.
From Verif.Spec Require Import SystemSpec FairSpec.
Local Open Scope nat_scope.

(** An execution of a part of a system, which pauses while other parts move. *)
Definition Pausing {St} (step : St → St → Prop) (f : nat → St) : Prop := ∀ n, f (S n) = f n ∨ step (f n) (f (S n)).
Lemma execution_pausing {St} (step : St → St → Prop) f : Execution step f → Pausing step f.
Proof. intros H n. right. apply H. Qed.
Lemma pausing_later {St} (step : St → St → Prop) f m k : Pausing step f → m <= k → rtc step (f m) (f k).
Proof. intros H. induction 1 as [|k _ IH]; [constructor|]. destruct (H k) as [->|Hs]; [done|]. by eapply rtc_r. Qed.

Section fair.
Context {St : Type} (step : St → St → Prop) (f : nat → St).

(** What is kept until something else happens. *)
Lemma kept (P Q : St → Prop) :
  (∀ n, P (f n) → P (f (S n)) ∨ Q (f (S n))) →
  ∀ n m, n <= m → P (f n) → P (f m) ∨ ∃ j, n <= j ∧ j <= m ∧ Q (f j).
Proof.
  intros H n m Hle Hp. induction Hle as [|m Hle IH]; [by left|].
  destruct IH as [IH|(j & H1 & H2 & H3)].
  - destruct (H m IH) as [Hq|Hq]; [by left|]. right. exists (S m). split; [lia|]. split; [lia|done].
  - right. exists j. split; [lia|]. split; [lia|done].
Qed.

Lemma kept_mu (P Q : St → Prop) (mu : St → nat) :
  (∀ n, P (f n) → (P (f (S n)) ∧ mu (f (S n)) <= mu (f n)) ∨ Q (f (S n))) →
  ∀ n m, n <= m → P (f n) → (P (f m) ∧ mu (f m) <= mu (f n)) ∨ ∃ j, n <= j ∧ j <= m ∧ Q (f j).
Proof.
  intros H n m Hle Hp. induction Hle as [|m Hle IH]; [left; split; [done|lia]|].
  destruct IH as [[IH Hm]|(j & H1 & H2 & H3)].
  - destruct (H m IH) as [[Hq Hm']|Hq]; [left; split; [done|lia]|]. right. exists (S m). split; [lia|]. split; [lia|done].
  - right. exists j. split; [lia|]. split; [lia|done].
Qed.

(** From [P], with [A] steps going down, to [Q]. *)
Lemma leads_to (A : St → St → Prop) (P Q : St → Prop) (mu : St → nat) :
  FairTo step f A →
  (∀ n, P (f n) → (P (f (S n)) ∧ mu (f (S n)) <= mu (f n)) ∨ Q (f (S n))) →
  (∀ n, P (f n) → A (f n) (f (S n)) → mu (f (S n)) < mu (f n) ∨ Q (f (S n))) →
  (∀ n, P (f n) → ∃ m, n <= m ∧ (Q (f m) ∨ ∃ s, step (f m) s ∧ A (f m) s)) →
  ∀ n, P (f n) → ∃ m, n <= m ∧ Q (f m).
Proof.
  intros HF Hk Hd He n. remember (mu (f n)) as w eqn:Ew. revert n Ew.
  induction (lt_wf w) as [w _ IH]. intros n -> Hp.
  destruct (HF n) as [(m & Hle & Ha)|(k & Hk2)].
  - destruct (kept_mu P Q mu Hk n m Hle Hp) as [[Hpm Hmu]|(j & H1 & H2 & H3)]; [|by exists j].
    destruct (Hd m Hpm Ha) as [Hlt|Hq]; [|exists (S m); split; [lia|done]].
    destruct (Hk m Hpm) as [[Hpm' _]|Hq]; [|exists (S m); split; [lia|done]].
    destruct (IH (mu (f (S m))) ltac:(lia) (S m) eq_refl Hpm') as (j & Hj & Hq). exists j. split; [lia|done].
  - destruct (kept_mu P Q mu Hk n (n `max` k) ltac:(lia) Hp) as [[Hpm _]|(j & H1 & H2 & H3)]; [|by exists j].
    destruct (He _ Hpm) as (m & Hm & [Hq|(s & Hs & Ha)]).
    + exists m. split; [lia|done].
    + exfalso. exact (Hk2 m s ltac:(lia) Hs Ha).
Qed.

(** An [A] step from [P] reaches [Q] at once. *)
Lemma leads_at_once (A : St → St → Prop) (P Q : St → Prop) :
  FairTo step f A →
  (∀ n, P (f n) → P (f (S n)) ∨ Q (f (S n))) →
  (∀ n, P (f n) → A (f n) (f (S n)) → Q (f (S n))) →
  (∀ n, P (f n) → ∃ m, n <= m ∧ (Q (f m) ∨ ∃ s, step (f m) s ∧ A (f m) s)) →
  ∀ n, P (f n) → ∃ m, n <= m ∧ Q (f m).
Proof.
  intros HF Hk Hd He. apply (leads_to A P Q (λ _, 0) HF).
  - intros n Hp. destruct (Hk n Hp); [left; split; [done|lia]|by right].
  - intros n Hp Ha. right. by apply Hd.
  - done.
Qed.
End fair.

(** ** What a step inside an instance can do *)
From Verif.Model Require Import Queues MemRepl Proto.
From Verif.Proofs Require Import HistoryLemmas InstLemmas.

Section local.
Context {S : Type} (cfg : config) (begin : list request → S).

Lemma lstep_call x x' i c : lstep cfg begin x x' → in_calls x !! i = Some c →
  ∃ c', in_calls x' !! i = Some c' ∧ cl_ups c' = cl_ups c ∧
    ((cl_sent c' = cl_sent c ∧ cl_got c' = cl_got c) ∨
     (cl_sent c' = Datatypes.S (cl_sent c) ∧ cl_sent c < length (cl_ups c) ∧ cl_got c' = cl_got c) ∨
     (cl_sent c' = cl_sent c ∧ waiting c ∧ length (cl_got c') = Datatypes.S (length (cl_got c)))).
Proof.
  assert (Hset : ∀ (cs : list call) j d d', cs !! j = Some d → cs !! i = Some c →
    (i = j ∧ d = c ∧ <[j := d']> cs !! i = Some d') ∨ <[j := d']> cs !! i = Some c).
  { intros cs j d d' Hj Hi. destruct (decide (i = j)) as [->|Hne].
    - left. split; [done|]. split; [congruence|]. apply list_lookup_insert. by eapply lookup_lt_Some.
    - right. by rewrite list_lookup_insert_ne by done. }
  destruct 1 as [cs o p st x c0 ev us cap Hiss|cs b p st x c0 ev j cl u Hi Hu|cs b p st x c0 ev
    |cs j r l p st x c0 ev cl Hi Hcap Hw|cs j r l p st x c0 ev cl Hi Hnr Hb|cs j r l p st x c0 ev cl Hi Hr|cs p st x c0 ev
    |cs o p st x c0 ev j cl r buf Hi Hw Hbuf|cs o u l st x c0 ev Hl|cs o st x c0 ev|cs o p u st c0 ev|cs o u l c0 ev
    |cs o p st c0 ev|cs o p st c0 ev orders Hfit]; cbn [in_calls]; intros Hc;
    try (exists c; split; [done|]; split; [done|]; by left).
  - exists c. split; [by apply lookup_app_l_Some|]. split; [done|]. by left.
  - destruct (Hset cs j cl (sent_one cl) Hi Hc) as [(-> & -> & E)|E]; rewrite E.
    + eexists. split; [done|]. split; [done|]. right. left. cbn. split; [done|]. split; [|done]. by eapply lookup_lt_Some.
    + exists c. split; [done|]. split; [done|]. by left.
  - destruct (Hset cs j cl (receive r [] cl) Hi Hc) as [(-> & -> & E)|E]; rewrite E.
    + eexists. split; [done|]. split; [done|]. right. right. cbn. split; [done|]. split; [done|]. rewrite app_length. cbn. lia.
    + exists c. split; [done|]. split; [done|]. by left.
  - destruct (Hset cs j cl (buffer r cl) Hi Hc) as [(-> & -> & E)|E]; rewrite E.
    + eexists. split; [done|]. split; [done|]. by left.
    + exists c. split; [done|]. split; [done|]. by left.
  - destruct (Hset cs j cl (receive r buf cl) Hi Hc) as [(-> & -> & E)|E]; rewrite E.
    + eexists. split; [done|]. split; [done|]. right. right. cbn. split; [done|]. split; [done|]. rewrite app_length. cbn. lia.
    + exists c. split; [done|]. split; [done|]. by left.
Qed.

(** The incoming side. *)
Inductive incoming (x x' : inst S) : Prop :=
| In_same : applied x' = applied x → in_stream x' = in_stream x → in_poll x' = in_poll x → incoming x x'
| In_push u l : in_poll x = PPush (u :: l) → in_poll x' = PPush l → in_stream x' = in_stream x ++ [u] →
    applied x' = applied x → length (in_stream x) < cfg_in_max cfg → incoming x x'
| In_pushed : in_poll x = PPush [] → in_poll x' = PGet [] → in_stream x' = in_stream x → applied x' = applied x → incoming x x'
| In_apply u : in_stream x = u :: in_stream x' → in_poll x' = in_poll x → applied x' = applied x ++ [u] →
    in_expiring x' = false → incoming x x'
| In_direct u l : in_stream x = [] → in_stream x' = [] → in_poll x = PPush (u :: l) → in_poll x' = PPush l →
    applied x' = applied x ++ [u] → in_expiring x' = false → incoming x x'.

Lemma lstep_incoming x x' : lstep cfg begin x x' → incoming x x'.
Proof.
  destruct 1; try (apply In_same; reflexivity).
  - eapply In_push; try reflexivity. done.
  - apply In_pushed; reflexivity.
  - eapply In_apply; try reflexivity. unfold applied. cbn [in_events]. by rewrite hev_updates_app.
  - eapply In_direct; try reflexivity. unfold applied. cbn [in_events]. by rewrite hev_updates_app.
  - apply In_same; try reflexivity. unfold applied. cbn [in_events]. rewrite hev_updates_app. cbn. by rewrite app_nil_r.
Qed.

(** The outgoing side. *)
Inductive outgoing (x x' : inst S) : Prop :=
| Out_same : in_out x' = in_out x → outgoing x x'
| Out_collect b q : in_out x = OCollect b → in_out x' = OCollect (b ++ [q]) →
    (Z.of_nat (length (b ++ [q])) < cfg_out_threshold cfg)%Z → outgoing x x'
| Out_send b b' : in_out x = OCollect b → in_out x' = OStore (begin b') → outgoing x x'
| Out_deliver d l : in_out x = ODeliver (d :: l) → in_out x' = ODeliver l → outgoing x x'
| Out_crash : in_out x' = OCrash → outgoing x x'
| Out_done : in_out x = ODeliver [] → in_out x' = OCollect [] → outgoing x x'.

Lemma lstep_outgoing x x' : lstep cfg begin x x' → outgoing x x'.
Proof.
  destruct 1 as [cs o p st x c0 ev us cap Hiss|cs b p st x c0 ev j cl u Hi Hu|cs b p st x c0 ev
    |cs j r l p st x c0 ev cl Hi Hcap Hw|cs j r l p st x c0 ev cl Hi Hnr Hb|cs j r l p st x c0 ev cl Hi Hr|cs p st x c0 ev
    |cs o p st x c0 ev j cl r buf Hi Hw Hbuf|cs o u l st x c0 ev Hl|cs o st x c0 ev|cs o p u st c0 ev|cs o u l c0 ev
    |cs o p st c0 ev|cs o p st c0 ev orders Hfit]; try (apply Out_same; reflexivity).
  - destruct (after_select_cases begin (cfg_out_threshold cfg) b (QReq (Request u j))) as [[E [E2|E2]]|[_ E]].
    + by destruct b.
    + eapply Out_collect; [reflexivity|cbn [in_out]; exact E|exact E2].
    + eapply Out_send; [reflexivity|cbn [in_out]; exact E].
  - destruct (after_select_cases begin (cfg_out_threshold cfg) b QTimeout) as [[E _]|[_ E]].
    + apply Out_same. cbn [in_out]. by rewrite E, app_nil_r.
    + eapply Out_send; [reflexivity|cbn [in_out]; exact E].
  - eapply Out_deliver; reflexivity.
  - eapply Out_deliver; reflexivity.
  - by apply Out_crash.
  - by apply Out_done.
Qed.
End local.

(** ** Fair executions can be extended to the front *)
Lemma fair_prepend {St I} (step : St → St → Prop) (A : I → St → St → Prop) s s' :
  rtc step s s' →
  (∃ g : nat → St, g 0 = s' ∧ Execution step g ∧ ∀ i, FairTo step g (A i)) →
  ∃ g : nat → St, g 0 = s ∧ Execution step g ∧ ∀ i, FairTo step g (A i).
Proof.
  induction 1 as [s|s s1 s' Hs _ IH]; intros Hg; [done|]. destruct (IH Hg) as (g & E & He & Hf).
  exists (λ n, match n with 0 => s | S n => g n end). split; [done|]. split.
  - intros [|n]; [by rewrite E|apply He].
  - intros i n. destruct (Hf i n) as [(m & Hm & Ha)|(k & Hk)].
    + left. exists (S m). split; [lia|done].
    + right. exists (S k). intros [|m] s2 Hm Hs2; [lia|]. apply Hk; [lia|done].
Qed.

(** ... so that they pass through the state in question. *)
Lemma fair_through {St I} (step : St → St → Prop) (A : I → St → St → Prop) s s' :
  rtc step s s' →
  (∃ g : nat → St, g 0 = s' ∧ Execution step g ∧ ∀ i, FairTo step g (A i)) →
  ∃ g : nat → St, g 0 = s ∧ (∃ k, g k = s') ∧ Execution step g ∧ ∀ i, FairTo step g (A i).
Proof.
  induction 1 as [s|s s1 s' Hs _ IH]; intros Hg; [destruct Hg as (g & E & H); exists g; split; [done|]; split; [by exists 0|done]|].
  destruct (IH Hg) as (g & E & [k0 Ek] & He & Hf).
  exists (λ n, match n with 0 => s | S n => g n end). split; [done|]. split; [by exists (S k0)|]. split.
  - intros [|n]; [by rewrite E|apply He].
  - intros i n. destruct (Hf i n) as [(m & Hm & Ha)|(k & Hk)].
    + left. exists (S m). split; [lia|done].
    + right. exists (S k). intros [|m] s2 Hm Hs2; [lia|]. apply Hk; [lia|done].
Qed.

(** ** Instances with nothing to do *)
Definition resting {S} (x : inst S) : Prop :=
  Forall returned (in_calls x) ∧ in_out x = OCollect [] ∧ in_stream x = [] ∧ (in_poll x = PGet [] ∨ in_poll x = PPush []).

Lemma quiescent_resting {S} (x : inst S) : Quiescent x → in_poll x ≠ PCrash → resting x.
Proof.
  intros (H1 & H2 & H3) Hp. unfold on_the_way in H3. apply app_eq_nil in H3 as [H3 H4].
  split; [done|]. split; [done|]. split; [done|]. destruct (in_poll x) as [l|l|]; subst; auto. done.
Qed.

Lemma resting_still {S} (cfg : config) (begin : list request → S) x x' :
  lstep cfg begin x x' → resting x →
  in_out x' = in_out x ∧ applied x' = applied x ∧
  (∀ i c, in_calls x !! i = Some c → in_calls x' !! i = Some c).
Proof.
  destruct 1 as [cs o p st x c0 ev us cap Hiss|cs b p st x c0 ev j cl u Hi Hu|cs b p st x c0 ev
    |cs j r l p st x c0 ev cl Hi Hcap Hw|cs j r l p st x c0 ev cl Hi Hnr Hb|cs j r l p st x c0 ev cl Hi Hr|cs p st x c0 ev
    |cs o p st x c0 ev j cl r buf Hi Hw Hbuf|cs o u l st x c0 ev Hl|cs o st x c0 ev|cs o p u st c0 ev|cs o u l c0 ev
    |cs o p st c0 ev|cs o p st c0 ev orders Hfit]; intros (R1 & R2 & R3 & R4); cbn [in_calls in_out in_stream in_poll] in *;
    unfold applied; cbn [in_events]; try (by split_and!).
  - split_and!; [done|done|]. intros i c Hc. by apply lookup_app_l_Some.
  - exfalso. rewrite Forall_lookup in R1. destruct (R1 j cl Hi) as [E _]. rewrite E in Hu.
    by rewrite lookup_ge_None_2 in Hu by done.
  - injection R2 as ->. by split_and!.
  - exfalso. rewrite Forall_lookup in R1. destruct (R1 j cl Hi) as [_ E]. destruct Hw. lia.
  - by destruct R4.
  - split_and!; [done| |done]. rewrite hev_updates_app. cbn. by rewrite app_nil_r.
Qed.

Lemma lookup_still (cs cs' : list call) i c c' :
  (∀ i c, cs !! i = Some c → cs' !! i = Some c) → cs !! i = Some c → cs' !! i = Some c' → c' = c.
Proof. intros H H1 H2. rewrite (H _ _ H1) in H2. congruence. Qed.
