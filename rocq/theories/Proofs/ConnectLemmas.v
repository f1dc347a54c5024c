(** Connections to functions (C147). *)
From Coq Require Import ZArith Lia.
From stdpp Require Import prelude.
From Verif.Model Require Import Types Connect.
From Verif.Spec Require Import ConnectSpec.
Local Open Scope Z_scope.

Lemma second_val : second = 1000000000. Proof. reflexivity. Qed.
Lemma share_bounds a k : 0 < a → (0 < k)%nat → 0 < share a k <= a ∧ a / Z.of_nat k <= share a k.
Proof.
  intros Ha Hk. assert (a / Z.of_nat k <= a) as H.
  { apply Z.div_le_upper_bound; [lia|]. nia. }
  assert (0 <= a / Z.of_nat k) as H0 by (apply Z.div_pos; lia).
  unfold share. rewrite second_val. destruct (Z.ltb_spec (a / Z.of_nat k) (2 * 1000000000)); [destruct (Z.ltb_spec a (2 * 1000000000))|]; lia.
Qed.
Lemma share_exact a k q : (0 < k)%nat → 2 * 1000000000 <= q → q * Z.of_nat k <= a →
  share a k = a / Z.of_nat k ∧ q <= share a k ∧ q * (Z.of_nat k - 1) <= a - share a k.
Proof.
  intros Hk Hq H. assert (q <= a / Z.of_nat k) as Hd by (apply Z.div_le_lower_bound; lia).
  assert (share a k = a / Z.of_nat k) as E.
  { unfold share. rewrite second_val. destruct (Z.ltb_spec (a / Z.of_nat k) (2 * 1000000000)); [lia|done]. }
  rewrite E. split; [done|]. split; [done|]. pose proof (Z.mul_div_le a (Z.of_nat k) ltac:(lia)). nia.
Qed.

Lemma single_bounds pd now a : Sane a → now < pd →
  now <= time_of (dial_single pd now a) <= pd ∧ ∀ t, dial_single pd now a = Connected t → t < pd.
Proof.
  intros Hs Hp. destruct a as [d|d|]; cbn in *.
  - destruct (Z.ltb_spec (now + d) pd); cbn; split; [lia|by intros t [= <-]|lia|done].
  - destruct (Z.ltb_spec (now + d) pd); cbn; split; [lia|done|lia|done].
  - split; [lia|done].
Qed.
Lemma serial_bounds dl l : Forall Sane l → ∀ now, now <= dl →
  now <= time_of (dial_serial dl now l) <= dl ∧ ∀ t, dial_serial dl now l = Connected t → t < dl.
Proof.
  induction 1 as [|a l Ha Hl IH]; intros now Hn; cbn [dial_serial]; [cbn; split; [lia|done]|].
  destruct (Z.leb_spec (dl - now) 0); [cbn; split; [lia|done]|].
  pose proof (share_bounds (dl - now) (length (a :: l)) ltac:(lia) ltac:(cbn; lia)) as [Hb _].
  destruct (single_bounds (now + share (dl - now) (length (a :: l))) now a Ha ltac:(lia)) as [H1 H2].
  destruct (dial_single _ now a) as [t|t] eqn:E; cbn [time_of] in H1.
  - cbn. specialize (H2 t eq_refl). split; [lia|]. intros t' [= <-]. lia.
  - destruct (IH t ltac:(lia)) as [H3 H4]. split; [lia|done].
Qed.

(** An address that accepts is reached if there is time for all. *)
Lemma serial_reach dl d l q : Forall Sane l → Accepts d ∈ l → d < q → ∀ now, Enough dl now l q →
  ∃ t, dial_serial dl now l = Connected t.
Proof.
  intros Hl Hin Hd. induction Hl as [|a l Ha Hl IH]; intros now [Hq He]; [by apply elem_of_nil in Hin|].
  destruct (share_exact (dl - now) (length (a :: l)) q ltac:(cbn; lia) Hq He) as (_ & Hs & Hr).
  pose proof (share_bounds (dl - now) (length (a :: l)) ltac:(cbn [length] in He; nia) ltac:(cbn; lia)) as [Hb _].
  cbn [dial_serial]. rewrite (proj2 (Z.leb_gt (dl - now) 0)) by (cbn [length] in He; nia).
  destruct (single_bounds (now + share (dl - now) (length (a :: l))) now a Ha ltac:(lia)) as [H1 _].
  apply elem_of_cons in Hin as [<- |Hin].
  - cbn [dial_single]. rewrite (proj2 (Z.ltb_lt _ _)) by lia. by eexists.
  - destruct (dial_single _ now a) as [t|t] eqn:E; [by eexists|]. cbn [time_of] in H1. apply IH; [done|]. split; [done|].
    cbn [length] in Hr, H1 |- *. lia.
Qed.
(** Addresses that refuse cost their time only. *)
Lemma serial_refusals dl d q rest : ∀ ds now, Forall (λ x, 0 <= x) ds → 0 <= d → Total ds + d < q →
  Enough dl now (map Refuses ds ++ Accepts d :: rest) q →
  dial_serial dl now (map Refuses ds ++ Accepts d :: rest) = Connected (now + Total ds + d).
Proof.
  induction ds as [|x ds IH]; intros now Hds Hd Ht [Hq He].
  - cbn [map app dial_serial Total] in *. destruct (share_exact (dl - now) (length (Accepts d :: rest)) q ltac:(cbn; lia) Hq He) as (_ & Hs & _).
    rewrite (proj2 (Z.leb_gt (dl - now) 0)) by (cbn [length] in He; nia).
    cbn [dial_single]. rewrite (proj2 (Z.ltb_lt _ _)) by lia. f_equal. lia.
  - apply Forall_cons in Hds as [Hx Hds]. cbn [map app dial_serial Total] in *. set (l := (map Refuses ds ++ Accepts d :: rest)) in *.
    assert (0 <= Total ds) as H0. { clear -Hds. induction Hds; cbn; lia. }
    destruct (share_exact (dl - now) (length (Refuses x :: l)) q ltac:(cbn; lia) Hq He) as (_ & Hs & _).
    rewrite (proj2 (Z.leb_gt (dl - now) 0)) by (cbn [length] in He; nia).
    cbn [dial_single]. rewrite (proj2 (Z.ltb_lt _ _)) by lia. rewrite IH; [f_equal; lia|done|done|lia|]. split; [done|].
    cbn [length] in He. nia.
Qed.
Lemma serial_refused dl q : ∀ ds now, Forall (λ x, 0 <= x) ds → Total ds < q → Enough dl now (map Refuses ds) q →
  dial_serial dl now (map Refuses ds) = Failed (now + Total ds).
Proof.
  induction ds as [|x ds IH]; intros now Hds Ht [Hq He]; cbn [map dial_serial Total] in *; [f_equal; lia|].
  apply Forall_cons in Hds as [Hx Hds].
  assert (0 <= Total ds) as H0. { clear -Hds. induction Hds; cbn; lia. }
  destruct (share_exact (dl - now) (length (Refuses x :: map Refuses ds)) q ltac:(cbn; lia) Hq He) as (_ & Hs & _).
  rewrite (proj2 (Z.leb_gt (dl - now) 0)) by (cbn [length] in He; nia).
  cbn [dial_single]. rewrite (proj2 (Z.ltb_lt _ _)) by lia. rewrite IH; [f_equal; lia|done|lia|]. split; [done|]. cbn [length] in He. nia.
Qed.
Lemma serial_none dl l : (∀ d, Accepts d ∉ l) → ∀ now, ∃ t, dial_serial dl now l = Failed t.
Proof.
  induction l as [|a l IH]; intros Hn now; cbn [dial_serial]; [by eexists|]. destruct (dl - now <=? 0); [by eexists|].
  destruct a as [d|d|]; [destruct (Hn d); left|..]; cbn [dial_single]; [destruct (_ <? _)|]; apply IH; intros d' Hd; apply (Hn d'); by right.
Qed.
(** Silence lasts to the deadline. *)
Lemma serial_silent dl k : ∀ now, now < dl → dial_serial dl now (replicate (S k) Silent) = Failed dl.
Proof.
  induction k as [|k IH]; intros now Hn.
  - cbn [replicate dial_serial]. rewrite (proj2 (Z.leb_gt _ _)) by lia. cbn [dial_single length]. f_equal.
    unfold share. rewrite Z.div_1_r. destruct (dl - now <? 2 * second); lia.
  - change (replicate (S (S k)) Silent) with (Silent :: replicate (S k) Silent). cbn [dial_serial]. rewrite (proj2 (Z.leb_gt _ _)) by lia.
    cbn [dial_single].
    pose proof (share_bounds (dl - now) (length (Silent :: replicate (S k) Silent)) ltac:(lia) ltac:(cbn; lia)) as [Hb _].
    set (t := now + share _ _) in *. destruct (Z.lt_ge_cases t dl); [by apply IH|].
    cbn [replicate dial_serial]. rewrite (proj2 (Z.leb_le _ _)) by lia. f_equal. lia.
Qed.
(** The first silent address takes its share of the time. *)
Lemma serial_waits dl now l t : Forall Sane l → now < dl → dial_serial dl now (Silent :: l) = Connected t →
  now + (dl - now) / Z.of_nat (S (length l)) <= t.
Proof.
  intros Hl Hn. cbn [dial_serial dial_single]. rewrite (proj2 (Z.leb_gt _ _)) by lia. intros E.
  pose proof (share_bounds (dl - now) (length (Silent :: l)) ltac:(lia) ltac:(cbn; lia)) as [Hb Hs].
  destruct (serial_bounds dl l Hl (now + share (dl - now) (length (Silent :: l))) ltac:(lia)) as [H1 _]. rewrite E in H1. cbn [time_of length] in *. lia.
Qed.

Lemma serial_late dl now l t : dl <= now → dial_serial dl now l ≠ Connected t.
Proof. intros H. destruct l as [|a l]; [done|]. cbn [dial_serial]. by rewrite (proj2 (Z.leb_le _ _)) by lia. Qed.
Lemma parallel_bounds dl now p f : Forall Sane p → Forall Sane f → now <= dl →
  now <= time_of (dial_parallel dl now p f) <= dl ∧ ∀ t, dial_parallel dl now p f = Connected t → t < dl.
Proof.
  intros Hp Hf Hn. destruct (serial_bounds dl p Hp now Hn) as [H1 H2]. unfold dial_parallel. destruct f as [|a f]; [done|].
  assert (0 <= fallback_delay) by (unfold fallback_delay, millisecond; lia).
  destruct (dial_serial dl now p) as [t|t]; cbn [time_of] in *.
  - destruct (dial_serial dl (now + fallback_delay) (a :: f)) as [t'|t'] eqn:E; (split; [|intros t2 [= <-]]); specialize (H2 t eq_refl); cbn [time_of]; [|lia..].
    destruct (Z.le_gt_cases (now + fallback_delay) dl) as [Hl|Hl]; [|by apply serial_late in E; [|lia]].
    destruct (serial_bounds dl (a :: f) Hf _ Hl) as [H3 _]. rewrite E in H3. cbn in H3. lia.
  - destruct (serial_bounds dl (a :: f) Hf (Z.min t (now + fallback_delay)) ltac:(lia)) as [H3 H4].
    destruct (dial_serial dl _ (a :: f)) as [t'|t']; cbn [time_of] in *; (split; [lia|]); [|done].
    intros t2 [= <-]. by apply H4.
Qed.
(** One family is enough. *)
Lemma parallel_first dl now p f t : dial_serial dl now p = Connected t → ∃ t', dial_parallel dl now p f = Connected t' ∧ t' <= t.
Proof.
  intros E. unfold dial_parallel. destruct f as [|a f]; [rewrite E; exists t; split; [done|lia]|]. rewrite E.
  destruct (dial_serial dl _ (a :: f)); eexists; (split; [done|lia]).
Qed.
Lemma parallel_other dl now p f : Forall Sane p → f ≠ [] → now <= dl →
  ∃ s, now <= s <= now + fallback_delay ∧ ∀ t, dial_serial dl s f = Connected t → ∃ t', dial_parallel dl now p f = Connected t' ∧ t' <= t.
Proof.
  intros Hp Hf Hn. assert (0 <= fallback_delay) by (unfold fallback_delay, millisecond; lia). destruct (serial_bounds dl p Hp now Hn) as [H1 _].
  unfold dial_parallel. destruct f as [|a f]; [done|]. destruct (dial_serial dl now p) as [t|t]; cbn [time_of] in H1.
  - exists (now + fallback_delay). split; [lia|]. intros t' ->. eexists. split; [done|lia].
  - exists (Z.min t (now + fallback_delay)). split; [lia|]. intros t' ->. by eexists.
Qed.

Lemma connect_bounds limit start n : SaneDns start n → start <= time_of (connect limit start n) <= start + Z.max limit 0 ∧
  ∀ t, connect limit start n = Connected t → t < start + limit ∧ 0 < limit.
Proof.
  intros (Hs & Hp & Hf). unfold connect, backoff. destruct (Z.leb_spec (start + Z.max limit 0) (dn_at n)); [cbn; split; [lia|done]|].
  destruct (parallel_bounds _ (dn_at n) _ _ Hp Hf ltac:(apply Z.lt_le_incl; exact H)) as [H1 H2]. split; [lia|]. intros t E.
  specialize (H2 t E). rewrite E in H1. cbn in H1. lia.
Qed.
Lemma run_bounded limit start called n : SaneDns start n → start <= called →
  ∃ t, Ends (run_call limit start called n) t ∧ called <= t <= called + Z.max limit 0 ∧
    (run_call limit start called n = Open t → t < called + limit ∧ time_left limit called (run_call limit start called n) = called + limit - t).
Proof.
  intros Hn Hc. destruct (connect_bounds limit start n Hn) as [H1 H2]. unfold run_call.
  destruct (Z.leb_spec (called + limit) called); [exists called; split; [by right|]; split; [lia|done]|].
  destruct (Z.leb_spec (called + limit) (time_of (connect limit start n))); [exists (called + limit); split; [by right|]; split; [lia|done]|].
  destruct (connect limit start n) as [t|t]; cbn [time_of] in *; exists (Z.max t called).
  - split; [by left|]. split; [lia|]. intros _. cbn. lia.
  - split; [by right|]. split; [lia|done].
Qed.
Lemma run_open limit start called n t : SaneDns start n → start <= called → connect limit start n = Connected t →
  run_call limit start called n = Open (Z.max t called).
Proof.
  intros Hn Hc E. destruct (connect_bounds limit start n Hn) as [_ H2]. specialize (H2 t E). unfold run_call. rewrite E. cbn [time_of].
  rewrite (proj2 (Z.leb_gt _ _)) by lia. by rewrite (proj2 (Z.leb_gt _ _)) by lia.
Qed.
Lemma connect_early limit start n : dn_at n < start + limit → start <= dn_at n →
  connect limit start n = dial_parallel (start + limit) (dn_at n) (dn_first n) (dn_other n).
Proof. intros H H'. unfold connect, backoff. rewrite Z.max_l by lia. by rewrite (proj2 (Z.leb_gt _ _)) by lia. Qed.

Lemma enough_lt dl now a l q : Enough dl now (a :: l) q → now < dl.
Proof. intros [H1 H2]. cbn [length] in H2. nia. Qed.
Lemma reached_first limit start called n d q : SaneDns start n → start <= called → Accepts d ∈ dn_first n → d < q →
  Enough (start + limit) (dn_at n) (dn_first n) q → ∃ t, run_call limit start called n = Open t.
Proof.
  intros Hn Hc Hin Hd He. pose proof Hn as (Hs & Hp & Hf).
  destruct (serial_reach (start + limit) d (dn_first n) q Hp Hin Hd (dn_at n) He) as (t & Et).
  destruct (parallel_first _ _ _ (dn_other n) _ Et) as (t' & Et' & _).
  eexists. apply run_open; [done|done|]. rewrite connect_early; [exact Et'| |done].
  destruct (dn_first n); [by apply elem_of_nil in Hin|by eapply enough_lt].
Qed.
Lemma enough_sooner dl now now' l q : now' <= now → Enough dl now l q → Enough dl now' l q.
Proof. intros H [H1 H2]. split; [done|lia]. Qed.
Lemma reached_other limit start called n d q : SaneDns start n → start <= called → Accepts d ∈ dn_other n → d < q →
  Enough (start + limit) (dn_at n + 300 * 1000000) (dn_other n) q → ∃ t, run_call limit start called n = Open t.
Proof.
  intros Hn Hc Hin Hd He. pose proof Hn as (Hs & Hp & Hf). assert (dn_at n + 300 * 1000000 < start + limit) as Hlt.
  { destruct (dn_other n); [by apply elem_of_nil in Hin|by eapply enough_lt]. }
  destruct (parallel_other (start + limit) (dn_at n) (dn_first n) (dn_other n) Hp) as (s & Hb & H); [intros E; rewrite E in Hin; by apply elem_of_nil in Hin|lia|].
  destruct (serial_reach (start + limit) d (dn_other n) q Hf Hin Hd s) as (t & Et).
  { eapply enough_sooner; [|exact He]. unfold fallback_delay, millisecond in Hb. lia. }
  destruct (H t Et) as (t' & Et' & _). eexists. apply run_open; [done|done|]. rewrite connect_early; [exact Et'|lia|done].
Qed.

Lemma soon_first limit start called n ds d rest q : SaneDns start n → start <= called → dn_first n = map Refuses ds ++ Accepts d :: rest →
  Total ds + d < q → Enough (start + limit) (dn_at n) (dn_first n) q →
  ∃ t, run_call limit start called n = Open t ∧ t <= Z.max called (dn_at n + Total ds + d).
Proof.
  intros Hn Hc E Ht He. pose proof Hn as (Hs & Hp & Hf).
  assert (Forall (λ x, 0 <= x) ds ∧ 0 <= d) as [Hds Hd].
  { rewrite E in Hp. apply Forall_app in Hp as [Hp1 Hp2]. split; [|by apply Forall_cons in Hp2 as [? _]].
    clear -Hp1. induction ds as [|x ds IH]; [constructor|]. cbn in Hp1. apply Forall_cons in Hp1 as [? ?]. constructor; auto. }
  assert (dn_at n < start + limit) as Hlt. { rewrite E in He. destruct ds; cbn [map app] in He; by eapply enough_lt. }
  pose proof He as He'. rewrite E in He'. pose proof (serial_refusals (start + limit) d q rest ds (dn_at n) Hds Hd Ht He') as Et. rewrite <- E in Et.
  destruct (parallel_first _ _ _ (dn_other n) _ Et) as (t' & Et' & Hle).
  eexists. split; [apply run_open; [done|done|rewrite connect_early; [exact Et'|done|done]]|lia].
Qed.
Lemma soon_other limit start called n ds d rest q : SaneDns start n → start <= called → dn_other n = map Refuses ds ++ Accepts d :: rest →
  Total ds + d < q → Enough (start + limit) (dn_at n + 300 * 1000000) (dn_other n) q →
  ∃ t, run_call limit start called n = Open t ∧ t <= Z.max called (dn_at n + 300 * 1000000 + Total ds + d).
Proof.
  intros Hn Hc E Ht He. pose proof Hn as (Hs & Hp & Hf).
  assert (Forall (λ x, 0 <= x) ds ∧ 0 <= d) as [Hds Hd].
  { rewrite E in Hf. apply Forall_app in Hf as [Hp1 Hp2]. split; [|by apply Forall_cons in Hp2 as [? _]].
    clear -Hp1. induction ds as [|x ds IH]; [constructor|]. cbn in Hp1. apply Forall_cons in Hp1 as [? ?]. constructor; auto. }
  assert (dn_at n + 300 * 1000000 < start + limit) as Hlt. { rewrite E in He. destruct ds; cbn [map app] in He; by eapply enough_lt. }
  destruct (parallel_other (start + limit) (dn_at n) (dn_first n) (dn_other n) Hp) as (s & Hb & H); [rewrite E; by destruct ds|lia|].
  unfold fallback_delay, millisecond in Hb.
  assert (Enough (start + limit) s (dn_other n) q) as He' by (eapply enough_sooner; [|exact He]; lia).
  rewrite E in He'. pose proof (serial_refusals (start + limit) d q rest ds s Hds Hd Ht He') as Et. rewrite <- E in Et.
  destruct (H _ Et) as (t' & Et' & Hle). eexists. split; [apply run_open; [done|done|rewrite connect_early; [exact Et'|lia|done]]|lia].
Qed.

Lemma silent_first limit start called n l t : SaneDns start n → start <= called → dn_first n = Silent :: l → dn_other n = [] →
  run_call limit start called n = Open t →
  dn_at n + (start + limit - dn_at n) / Z.of_nat (length (dn_first n)) <= t.
Proof.
  intros Hn Hc E1 E2 Er. pose proof Hn as (Hs & Hp & Hf). unfold run_call in Er.
  destruct (called + limit <=? called); [done|]. destruct (called + limit <=? time_of _); [done|]. destruct (connect limit start n) as [t'|t'] eqn:Ec; [|done].
  injection Er as <-. destruct (connect_bounds limit start n Hn) as [_ H2]. destruct (H2 t' Ec) as [H3 H4].
  assert (dn_at n < start + limit) as Hlt.
  { destruct (Z.lt_ge_cases (dn_at n) (start + limit)); [done|]. unfold connect, backoff in Ec. by rewrite (proj2 (Z.leb_le _ _)) in Ec by lia. }
  rewrite connect_early in Ec by done. unfold dial_parallel in Ec. rewrite E2, E1 in Ec. rewrite E1 in Hp. apply Forall_cons in Hp as [_ Hp].
  pose proof (serial_waits _ _ _ _ Hp Hlt Ec). rewrite E1. cbn [length]. lia.
Qed.

Lemma never_open limit start called n : SaneDns start n → start <= called →
  limit <= 0 ∨ (∀ d, Accepts d ∉ dn_first n ++ dn_other n) → ∃ t, run_call limit start called n = NotOpen t.
Proof.
  intros Hn Hc H. destruct (connect_bounds limit start n Hn) as [_ H2]. unfold run_call.
  destruct (_ <=? _); [by eexists|]. destruct (_ <=? _); [by eexists|]. destruct (connect limit start n) as [t|t] eqn:E; [|by eexists]. exfalso.
  specialize (H2 t eq_refl). destruct H as [H|H]; [lia|].
  unfold connect in E. destruct (_ <=? _); [done|]. unfold dial_parallel in E.
  destruct (serial_none (start + Z.max limit backoff) (dn_first n)) with (now := dn_at n) as (t1 & E1); [intros d Hd; apply (H d), elem_of_app; by left|].
  destruct (dn_other n) as [|a f] eqn:Ef; [congruence|]. rewrite E1 in E.
  destruct (serial_none (start + Z.max limit backoff) (a :: f)) with (now := Z.min t1 (dn_at n + fallback_delay)) as (t2 & E2); [intros d Hd; apply (H d), elem_of_app; by right|].
  by rewrite E2 in E.
Qed.
Lemma refused_soon limit start called n ds q : SaneDns start n → start <= called → dn_first n = map Refuses ds → ds ≠ [] → dn_other n = [] →
  Total ds < q → Enough (start + limit) (dn_at n) (dn_first n) q →
  run_call limit start called n = NotOpen (Z.max called (dn_at n + Total ds)).
Proof.
  intros Hn Hc E1 Hne E2 Ht He. pose proof Hn as (Hs & Hp & _).
  assert (Forall (λ x, 0 <= x) ds) as Hds.
  { rewrite E1 in Hp. clear -Hp. induction ds as [|x ds IH]; [constructor|]. cbn in Hp. apply Forall_cons in Hp as [? ?]. constructor; auto. }
  assert (dn_at n < start + limit ∧ q <= start + limit - dn_at n) as [Hlt Hq]. { rewrite E1 in He. destruct ds; [done|]. destruct He as [? He]. cbn [map length] in He. nia. }
  assert (connect limit start n = Failed (dn_at n + Total ds)) as Ec.
  { rewrite connect_early by done. unfold dial_parallel. rewrite E2, E1. apply (serial_refused _ q); [done|done|by rewrite <- E1]. }
  unfold run_call. rewrite Ec. cbn [time_of]. rewrite !(proj2 (Z.leb_gt _ _)) by lia. f_equal. lia.
Qed.
Lemma silent_all limit start called n k : SaneDns start n → start <= called → dn_first n = replicate (S k) Silent → dn_other n = [] →
  dn_at n < start + limit → run_call limit start called n = NotOpen (Z.max called (start + limit)).
Proof.
  intros Hn Hc E1 E2 Hlt. pose proof Hn as (Hs & _). assert (connect limit start n = Failed (start + limit)) as Ec.
  { rewrite connect_early by done. unfold dial_parallel. rewrite E2, E1. by apply serial_silent. }
  unfold run_call. rewrite Ec. cbn [time_of]. rewrite (proj2 (Z.leb_gt _ _)) by lia.
  destruct (Z.leb_spec (called + limit) (start + limit)); f_equal; lia.
Qed.

(** ** Both families *)
Lemma refuses_sane ds : Forall Sane (map Refuses ds) → Forall (λ x, 0 <= x) ds.
Proof. induction ds as [|x ds IH]; cbn; [constructor|]. intros [? ?]%Forall_cons. constructor; auto. Qed.
Lemma total_pos ds : Forall (λ x, 0 <= x) ds → 0 <= Total ds.
Proof. induction 1; cbn; lia. Qed.
Lemma other_at_once limit start called n ds es d rest q : SaneDns start n → start <= called →
  dn_first n = map Refuses ds → Total ds < 2 * 1000000000 → Enough (start + limit) (dn_at n) (dn_first n) (2 * 1000000000) →
  dn_other n = map Refuses es ++ Accepts d :: rest → Total es + d < q → Enough (start + limit) (dn_at n + 300 * 1000000) (dn_other n) q →
  run_call limit start called n = Open (Z.max called (dn_at n + Z.min (Total ds) (300 * 1000000) + Total es + d)).
Proof.
  intros Hn Hc E1 Ht1 He1 E2 Ht2 He2. pose proof Hn as (Hs & Hp & Hf). rewrite E1 in Hp, He1. rewrite E2 in Hf, He2. apply refuses_sane in Hp.
  apply Forall_app in Hf as [Hf1 Hf2]. apply refuses_sane in Hf1. apply Forall_cons in Hf2 as [Hd _].
  assert (dn_at n + 300 * 1000000 < start + limit) as Hlt by (destruct es; cbn [map app] in He2; by eapply enough_lt).
  pose proof (total_pos _ Hp) as Hds.
  assert (connect limit start n = Connected (dn_at n + Z.min (Total ds) (300 * 1000000) + Total es + d)) as Ec.
  { rewrite connect_early by lia. unfold dial_parallel. rewrite E1, E2.
    rewrite (serial_refused _ (2 * 1000000000)) by done.
    assert (fallback_delay = 300 * 1000000) as -> by reflexivity.
    replace (Z.min (dn_at n + Total ds) (dn_at n + 300 * 1000000)) with (dn_at n + Z.min (Total ds) (300 * 1000000)) by lia.
    rewrite (serial_refusals _ d q rest es); [by destruct es|done|done|done|]. eapply enough_sooner; [|exact He2]. lia. }
  rewrite (run_open _ _ _ _ _ Hn Hc Ec). f_equal. lia.
Qed.
Lemma refused_both limit start called n ds es q : SaneDns start n → start <= called →
  dn_first n = map Refuses ds → dn_other n = map Refuses es → es ≠ [] → Total ds < q → Total es < q →
  Enough (start + limit) (dn_at n) (dn_first n) q → Enough (start + limit) (dn_at n + 300 * 1000000) (dn_other n) q →
  run_call limit start called n = NotOpen (Z.max called (dn_at n + Z.max (Total ds) (Z.min (Total ds) (300 * 1000000) + Total es))).
Proof.
  intros Hn Hc E1 E2 Hne Ht1 Ht2 He1 He2. pose proof Hn as (Hs & Hp & Hf). rewrite E1 in Hp, He1. rewrite E2 in Hf, He2.
  apply refuses_sane in Hp. apply refuses_sane in Hf. pose proof (total_pos _ Hp) as Hds. pose proof (total_pos _ Hf) as Hes.
  assert (dn_at n + 300 * 1000000 + q <= start + limit) as Hlt. { destruct es; [done|]. destruct He2 as [? He]. cbn [map length] in He. nia. }
  assert (2 * 1000000000 <= q) as Hq by apply He1.
  assert (connect limit start n = Failed (dn_at n + Z.max (Total ds) (Z.min (Total ds) (300 * 1000000) + Total es))) as Ec.
  { rewrite connect_early by lia. unfold dial_parallel. rewrite E1, E2.
    rewrite (serial_refused _ q) by done.
    assert (fallback_delay = 300 * 1000000) as -> by reflexivity.
    replace (Z.min (dn_at n + Total ds) (dn_at n + 300 * 1000000)) with (dn_at n + Z.min (Total ds) (300 * 1000000)) by lia.
    rewrite (serial_refused _ q es); [|done|done|eapply enough_sooner; [|exact He2]; lia].
    destruct es; [done|]. cbn [map]. f_equal. lia. }
  unfold run_call. rewrite Ec. cbn [time_of]. rewrite (proj2 (Z.leb_gt _ _)) by lia. rewrite (proj2 (Z.leb_gt _ _)) by lia. f_equal. lia.
Qed.
Lemma silent_both limit start called n k j : SaneDns start n → start <= called → dn_first n = replicate (S k) Silent → dn_other n = replicate j Silent →
  dn_at n < start + limit → run_call limit start called n = NotOpen (Z.max called (start + limit)).
Proof.
  intros Hn Hc E1 E2 Hlt. destruct j as [|j]; [by apply (silent_all _ _ _ _ k)|]. pose proof Hn as (Hs & Hp & Hf).
  assert (0 <= fallback_delay) by (unfold fallback_delay, millisecond; lia).
  assert (connect limit start n = Failed (start + limit)) as Ec.
  { rewrite connect_early by done. unfold dial_parallel. rewrite E2, E1, serial_silent by done. change (replicate (S j) Silent) with (Silent :: replicate j Silent) at 1.
    cbv iota. destruct (Z.lt_ge_cases (Z.min (start + limit) (dn_at n + fallback_delay)) (start + limit)) as [Hm|Hm].
    - rewrite serial_silent by done. f_equal. lia.
    - rewrite Z.min_l by lia. cbn [replicate dial_serial]. rewrite (proj2 (Z.leb_le _ _)) by lia. f_equal. lia. }
  unfold run_call. rewrite Ec. cbn [time_of]. rewrite (proj2 (Z.leb_gt _ _)) by lia.
  destruct (Z.leb_spec (called + limit) (start + limit)); f_equal; lia.
Qed.

(** ** Counterexamples *)
Definition silent_then (d : Z) : dns := Dns 0 [Silent; Accepts d] [].
Lemma silent_then_sane d : 0 <= d → SaneDns 0 (silent_then d).
Proof. intros H. split; [cbn; lia|]. split; repeat constructor; done. Qed.
Lemma promptly_refuted : ¬ ∃ B, ∀ limit start called n d, SaneDns start n → start <= called → dn_at n <= called →
  Accepts d ∈ dn_first n ++ dn_other n → d <= 1000000 → 60 * 1000000000 <= limit → (length (dn_first n ++ dn_other n) <= 2)%nat →
  ∃ t, run_call limit start called n = Open t ∧ t <= called + B.
Proof.
  intros (B & H). set (L := 60 * 1000000000 + 4 * Z.max B 0).
  destruct (H L 0 0 (silent_then 0) 0) as (t & Et & Ht); [by apply silent_then_sane|lia|cbn; lia|cbn; right; left|lia|unfold L; lia|cbn; lia|].
  apply (silent_first _ _ _ _ [Accepts 0]) in Et; [|by apply silent_then_sane|lia|done|done]. cbn [silent_then dn_at dn_first length] in Et.
  change (Z.of_nat 2) with 2 in Et. assert (30 * 1000000000 + 2 * Z.max B 0 <= (0 + L - 0) / 2) by (apply Z.div_le_lower_bound; unfold L; lia). lia.
Qed.
Lemma reached_refuted : ¬ ∀ limit start called n d, SaneDns start n → start <= called → dn_at n <= called →
  Accepts d ∈ dn_first n ++ dn_other n → d <= 1000000 → 3 * 1000000000 <= limit →
  ∃ t, run_call limit start called n = Open t.
Proof.
  intros H. destruct (H (3 * 1000000000) 0 0 (Dns 0 [Silent; Silent; Accepts 0] []) 0) as (t & Et);
    [split; [cbn; lia|split; repeat constructor; done]|lia|cbn; lia|cbn; right; right; left|lia|lia|]. by vm_compute in Et.
Qed.
