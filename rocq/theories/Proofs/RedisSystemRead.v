(** Several instances and one Redis stream: what every instance reads
    (Model/RedisSystem.v). *)
From Coq Require Import Ascii String ZArith NArith Lia ZifyBool ZifyN.
From stdpp Require Import prelude strings gmap relations.
From Verif.Model Require Import GoStrings Types Filter Proto Cache Replica Handlers MemRepl Queues RedisRepl RedisReader System RedisSystem.
From Verif.Spec Require Import IdSpec RedisSpec SystemSpec.
From Verif.Proofs Require Import StringLemmas MemLemmas RedisLemmas RedisSendLemmas RedisReadLemmas HistoryLemmas InstLemmas MemSystemLemmas RedisSystemLemmas.
Local Open Scope Z_scope.

Definition lg2 (l : list logent) : list (sid * update) := map (λ e, (le_id e, rq_update (le_req e))) l.
Definition view (s : stream) (x : rinst) : rstate := RState s (rx_cursor x) (read_so_far (rx_inst x)) false.

Record yread (cfg : config) (s : rsys) (slog : list (sid * update)) : Prop := {
  yr_log : LogOk (st_last (ry_stream s)) (lg2 (ry_log s));
  yr_slog : slog `sublist_of` lg2 (ry_log s);
  yr_holds : Forall2 Holds (st_entries (ry_stream s)) slog;
  yr_all : Untrimmed s → slog = lg2 (ry_log s);
  yr_inst : ∀ n x, ry_insts s !! n = Some x →
    poll_fine (in_poll (rx_inst x)) ∧
    ∃ dlog, RInv (view (ry_stream s) x) (lg2 (ry_log s)) slog dlog ∧
            (Untrimmed s → dlog = filter (λ p, Until (rx_cursor x) p) (lg2 (ry_log s)))
}.

Lemma lg2_app l k : lg2 (l ++ k) = lg2 l ++ lg2 k.
Proof. apply map_app. Qed.

Lemma send_one ttl now s ms q c :
  redis_encode (rq_update q) = inr c →
  (redis_send ttl now s (PipeFail [XaddOk ms]) [rq_update q]).1 = (xadd s ms c).1 ∧
  log_batch (st_last s) [rq_update q] [XaddOk ms] = [((xadd s ms c).2, rq_update q)].
Proof.
  intros E. split.
  - unfold redis_send. cbn [sent_cmds]. rewrite E. done.
  - cbn [log_batch]. rewrite decide_True; [done|]. apply encode_sendable. by eexists.
Qed.

Lemma send_none ttl now s : (redis_send ttl now s (PipeOk []) []).1 = xtrim_minid s (unix_secs now - ttl).
Proof. done. Qed.

Lemma untrimmed_mono xs s os lg ts xs' s' os' lg' ts' :
  Untrimmed (RSys xs' s' os' (lg ++ lg') (ts ++ ts')) → Untrimmed (RSys xs s os lg ts).
Proof.
  intros H t e Ht He. cbn [ry_trims ry_log] in *. apply H; cbn [ry_trims ry_log]; apply elem_of_app; by left.
Qed.

Lemma untrimmed_log xs s os lg ts xs' s' os' lg' :
  Untrimmed (RSys xs' s' os' (lg ++ lg') ts) → Untrimmed (RSys xs s os lg ts).
Proof. intros H. eapply (untrimmed_mono _ _ _ _ _ xs' s' os' lg' []). by rewrite app_nil_r. Qed.
Lemma untrimmed_trims xs s os lg ts xs' s' os' ts' :
  Untrimmed (RSys xs' s' os' lg (ts ++ ts')) → Untrimmed (RSys xs s os lg ts).
Proof. intros H. eapply (untrimmed_mono _ _ _ _ _ xs' s' os' [] ts'). by rewrite app_nil_r. Qed.

Lemma xadd_last s ms c : st_last (xadd s ms c).1 = (xadd s ms c).2 ∧ LexLt (st_last s) (xadd s ms c).2.
Proof. split; [done|]. apply next_sid_gt. Qed.

(** ** One more entry *)
Lemma read_xadd cfg xs s os lg ts slog xs' os' q c ms n :
  redis_encode (rq_update q) = inr c →
  yread cfg (RSys xs s os lg ts) slog →
  (∀ m y, xs' !! m = Some y → ∃ y0, xs !! m = Some y0 ∧ rx_cursor y = rx_cursor y0 ∧ in_poll (rx_inst y) = in_poll (rx_inst y0) ∧
                                    read_so_far (rx_inst y) = read_so_far (rx_inst y0)) →
  yread cfg (RSys xs' (xadd s ms c).1 os' (lg ++ [LogEnt (xadd s ms c).2 q n]) ts) (slog ++ [((xadd s ms c).2, rq_update q)]).
Proof.
  intros He [H1 H2 H3 H4 H5] Hxs. cbn [ry_insts ry_stream ry_log] in *.
  destruct (send_one 0 0 s ms q c He) as [Es Eb].
  assert (Hstep : ∀ st dlog, rs_stream st = s → RInv st (lg2 lg) slog dlog →
    RInv (RState (xadd s ms c).1 (rs_cursor st) (rs_out st) false)
         (lg2 lg ++ [((xadd s ms c).2, rq_update q)]) (slog ++ [((xadd s ms c).2, rq_update q)]) dlog).
  { intros st dlog Hst HI. pose proof (step_inv 0 0 st _ _ _ (RSend 0 (PipeFail [XaddOk ms]) [rq_update q]) HI) as H.
    cbn [step_logs rstep slog_after executed] in H. rewrite Hst, Eb, Es, (ri_fine _ _ _ _ HI) in H. exact H. }
  assert (Hlog : LogOk (st_last (xadd s ms c).1) (lg2 lg ++ [((xadd s ms c).2, rq_update q)])).
  { pose proof (LogOk_extend (st_last s) (lg2 lg) [rq_update q] [XaddOk ms] H1) as H. rewrite Eb in H. exact H. }
  split; cbn [ry_insts ry_stream ry_log].
  - by rewrite lg2_app.
  - rewrite lg2_app. by apply sublist_app.
  - unfold xadd. cbn [fst st_entries]. apply Forall2_app; [done|]. constructor; [|done].
    split; [done|]. by apply round_trip.
  - intros Hu. rewrite lg2_app. rewrite H4; [done|]. by eapply untrimmed_log.
  - intros m y Hy. destruct (Hxs m y Hy) as (y0 & Hy0 & Ec & Ep & Er). destruct (H5 m y0 Hy0) as (Hp & dlog & HI & Hd).
    split; [by rewrite Ep|]. exists dlog. rewrite lg2_app. split.
    + unfold view. rewrite Ec, Er. exact (Hstep (view s y0) dlog eq_refl HI).
    + intros Hu. rewrite Ec, filter_app.
      rewrite (filter_none (λ p, Until (rx_cursor y0) p) (lg2 [_])); [rewrite app_nil_r; apply Hd; by eapply untrimmed_log|].
      intros p Hp'%elem_of_list_singleton. subst p. unfold Until. cbn [fst le_id]. intros Hn. apply Hn.
      destruct (xadd_last s ms c) as [_ Hlt]. eapply le_lt_trans; [|exact Hlt].
      exact (cursor_le_last _ _ _ _ HI).
Qed.

(** ** One more XTRIM *)
Lemma read_trim cfg xs s os lg ts slog xs' os' thr :
  yread cfg (RSys xs s os lg ts) slog →
  (∀ m y, xs' !! m = Some y → ∃ y0, xs !! m = Some y0 ∧ rx_cursor y = rx_cursor y0 ∧ in_poll (rx_inst y) = in_poll (rx_inst y0) ∧
                                    read_so_far (rx_inst y) = read_so_far (rx_inst y0)) →
  yread cfg (RSys xs' (xtrim_minid s thr) os' lg (ts ++ [thr])) (filter (λ p, ¬ (0 <= thr ∧ p.1.1 < thr)) slog).
Proof.
  intros [H1 H2 H3 H4 H5] Hxs. cbn [ry_insts ry_stream ry_log] in *.
  assert (El : st_last (xtrim_minid s thr) = st_last s) by (unfold xtrim_minid; by destruct (thr <? 0)).
  assert (Hh : Forall2 Holds (st_entries (xtrim_minid s thr)) (filter (λ p, ¬ (0 <= thr ∧ p.1.1 < thr)) slog)).
  { rewrite trim_spec. by apply Forall2_filter_kept. }
  assert (Hsl : filter (λ p, ¬ (0 <= thr ∧ p.1.1 < thr)) slog `sublist_of` lg2 lg).
  { etrans; [apply filter_sublist|done]. }
  split; cbn [ry_insts ry_stream ry_log]; try done.
  - by rewrite El.
  - intros Hu. rewrite H4 by (by eapply untrimmed_trims). apply filter_all.
    intros p Hp [_ Hlt]. unfold lg2 in Hp. apply elem_of_list_fmap in Hp as (e & -> & Hin). cbn [fst] in Hlt.
    specialize (Hu thr e). cbn [ry_trims ry_log] in Hu.
    assert (thr <= (le_id e).1); [|lia]. apply Hu; [|done]. apply elem_of_app. right. apply elem_of_list_here.
  - intros m y Hy. destruct (Hxs m y Hy) as (y0 & Hy0 & Ec & Ep & Er). destruct (H5 m y0 Hy0) as (Hp & dlog & HI & Hd).
    split; [by rewrite Ep|]. exists dlog. split.
    + destruct HI as [A1 A2 A3 A4 A5 A6 A7 A8]. unfold view in *. cbn [rs_stream rs_cursor rs_out rs_panicked] in *.
      split; cbn [rs_stream rs_cursor rs_out rs_panicked]; rewrite ?El, ?Ec, ?Er; done.
    + intros Hu. rewrite Ec. apply Hd. by eapply untrimmed_trims.
Qed.

Lemma read_frame cfg xs s os lg ts slog xs' os' :
  yread cfg (RSys xs s os lg ts) slog →
  (∀ m y, xs' !! m = Some y → ∃ y0, xs !! m = Some y0 ∧ rx_cursor y = rx_cursor y0 ∧ (poll_fine (in_poll (rx_inst y0)) → poll_fine (in_poll (rx_inst y))) ∧
                                    read_so_far (rx_inst y) = read_so_far (rx_inst y0)) →
  yread cfg (RSys xs' s os' lg ts) slog.
Proof.
  intros [H1 H2 H3 H4 H5] Hxs. split; try done. cbn [ry_insts ry_stream ry_log] in *.
  intros m y Hy. destruct (Hxs m y Hy) as (y0 & Hy0 & Ec & Ep & Er). destruct (H5 m y0 Hy0) as (Hp & dlog & HI & Hd).
  split; [by apply Ep|]. exists dlog. unfold view. rewrite Ec, Er. split; [done|]. intros Hu. by apply Hd.
Qed.

(** Replacing one instance by one that has read the same. *)
Lemma upd_same (xs : list rinst) n x x' :
  xs !! n = Some x → rx_cursor x' = rx_cursor x → in_poll (rx_inst x') = in_poll (rx_inst x) →
  read_so_far (rx_inst x') = read_so_far (rx_inst x) →
  ∀ m y, <[n:=x']> xs !! m = Some y → ∃ y0, xs !! m = Some y0 ∧ rx_cursor y = rx_cursor y0 ∧ in_poll (rx_inst y) = in_poll (rx_inst y0) ∧
                                    read_so_far (rx_inst y) = read_so_far (rx_inst y0).
Proof.
  intros Hn E1 E2 E3. eapply (upd_inst xs n x x' (λ m y, ∃ y0, xs !! m = Some y0 ∧ _)); [done|by exists x|].
  intros m y _ Hy. by exists y.
Qed.


Lemma ystep_read cfg s s' slog : ystep cfg s s' → yinv cfg s → yread cfg s slog → ∃ slog', yread cfg s' slog'.
Proof.
  destruct 1 as [xs s os lg ts|xs s os lg ts n x i' Hx Hl|xs s os lg ts n x b q c cmds rs ms Hx Eo
    |xs s os lg ts n x b q c cmds rs Hx Eo|xs s os lg ts n x b rs now Hx Eo|xs s os lg ts n x b cmds rs Hx Eo
    |xs s os lg ts k n q c cmds ms Hk|xs s os lg ts k n now Hk|xs s os lg ts k o Hk|xs s os lg ts n x ok Hx Hp];
    intros HI HR; cbn [ry_insts ry_log ry_orphans] in *.
  - exists slog. destruct HR as [H1 H2 H3 H4 H5]. split; try done. cbn [ry_insts ry_stream ry_log] in *.
    intros n x Hn. apply lookup_app_Some in Hn as [Hn|[Hge Hn]]; [by apply (H5 n)|].
    apply list_lookup_singleton_Some in Hn as [_ <-]. split; [by left|]. exists []. split.
    + split; cbn; try done; [apply sublist_nil_l| |by left]. by intros p ?%elem_of_nil.
    + intros _. symmetry. apply filter_none. intros p Hp Hn. apply Hn. destruct H1 as (_ & H1 & _). by apply H1.
  - exists slog. eapply read_frame; [exact HR|].
    apply (upd_inst xs n x _ (λ m y, ∃ y0, xs !! m = Some y0 ∧ rx_cursor y = rx_cursor y0 ∧ (poll_fine (in_poll (rx_inst y0)) → poll_fine (in_poll (rx_inst y))) ∧
                                    read_so_far (rx_inst y) = read_so_far (rx_inst y0))); [done| |].
    + exists x. split_and!; try done; [by eapply lstep_poll|by eapply lstep_read].
    + intros m y _ Hy. by exists y.
  - eexists. eapply read_xadd; [|exact HR|].
    + destruct HI as [_ _ _ [HI _]]. eapply HI; [exact Hx|]. rewrite Eo. apply elem_of_list_here.
    + by eapply upd_same.
  - exists slog. eapply read_frame; [exact HR|]. intros m y Hy.
    eapply upd_same in Hy as (y0 & ? & ? & Hy1 & ?); [|exact Hx|done|done|done]. exists y0. rewrite Hy1. done.
  - eexists. eapply read_trim; [exact HR|]. by eapply upd_same.
  - exists slog. eapply read_frame; [exact HR|]. intros m y Hy.
    eapply upd_same in Hy as (y0 & ? & ? & Hy1 & ?); [|exact Hx|done|done|done]. exists y0. rewrite Hy1. done.
  - eexists. eapply read_xadd; [|exact HR|].
    + destruct HI as [_ _ _ [_ HI]]. eapply HI; [by eapply elem_of_list_lookup_2|]. apply elem_of_list_here.
    + intros m y Hy. by exists y.
  - eexists. eapply read_trim; [exact HR|]. intros m y Hy. by exists y.
  - exists slog. eapply read_frame; [exact HR|]. intros m y Hy. by exists y.
  - exists slog. destruct HR as [H1 H2 H3 H4 H5]. split; try done. cbn [ry_insts ry_stream ry_log] in *.
    apply (upd_inst xs n x _ (λ m y, poll_fine (in_poll (rx_inst y)) ∧
      ∃ dlog, RInv (view s y) (lg2 lg) slog dlog ∧
              (Untrimmed (RSys (<[n:=poll_redis cfg s ok x]> xs) s os lg ts) → dlog = filter (λ p, Until (rx_cursor y) p) (lg2 lg)))); [done| |intros m y _ Hy; by apply (H5 m)].
    destruct (H5 n x Hx) as (Hpf & dlog & HV & Hd).
    pose proof (step_inv 0 (cfg_in_max cfg) (view s x) _ _ _ (RPoll ok) HV) as HS.
    assert (Hread : ∀ us, read_so_far (set_poll (PPush us) (rx_inst x)) = read_so_far (rx_inst x) ++ us).
    { intros us. unfold read_so_far. cbn [set_poll in_events in_stream in_poll poll_list]. rewrite Hp. simpl. by rewrite app_nil_r, <-app_assoc. }
    destruct ok.
    + pose proof (poll_spec 0 (cfg_in_max cfg) (view s x) _ _ _ HV) as EP. cbv zeta in EP.
      cbn [rstep view rs_panicked rs_stream rs_cursor rs_out] in EP. unfold poll_redis.
      set (d := take (cfg_in_max cfg) (filter (After (rx_cursor x)) slog)) in *.
      destruct (redis_get (cfg_in_max cfg) s (rx_cursor x) true) as [[us|] c] eqn:E; [|by injection EP].
      split; [right; by eexists|]. exists (dlog ++ d). split.
      * cbn [step_logs rstep view rs_panicked rs_stream rs_cursor rs_out] in HS. rewrite E in HS.
        unfold view. cbn [rx_cursor rx_inst]. rewrite Hread. exact HS.
      * intros Hu. cbn [rx_cursor].
        assert (Hu' : Untrimmed (RSys xs s os lg ts)) by exact Hu.
        assert (HG : NoGap (view s x) (lg2 lg) slog dlog).
        { split; [by rewrite (H4 Hu')|by apply Hd]. }
        pose proof (step_nogap 0 (cfg_in_max cfg) (view s x) _ _ _ (RPoll true) HV HG) as HG'.
        cbn [step_logs rstep view rs_panicked rs_stream rs_cursor rs_out] in HG'. rewrite E in HG'.
        destruct HG' as [_ HG']; [done|]. exact HG'.
    + unfold poll_redis. cbn [redis_get]. split; [right; by eexists|]. exists dlog. split.
      * unfold view. cbn [rx_cursor rx_inst]. by rewrite Hread, app_nil_r.
      * intros Hu. cbn [rx_cursor]. by apply Hd.
Qed.

Lemma yread0 cfg : yread cfg rsys0 [].
Proof.
  split; try done; cbn.
  - split; [constructor|]. split_and!; try (by intros p ?%elem_of_nil). by left.
  - constructor.
Qed.

Lemma yreach_read cfg s : yreach cfg s → ∃ slog, yread cfg s slog.
Proof.
  intros H. cut (yinv cfg s ∧ ∃ slog, yread cfg s slog); [by intros [_ ?]|].
  revert s H. apply (rtc_ind_r (λ s, yinv cfg s ∧ ∃ slog, yread cfg s slog)).
  - split; [apply yinv0|]. eexists. apply yread0.
  - intros s s' _ Hs [HI [slog HR]]. split; [by eapply ystep_inv|by eapply ystep_read].
Qed.
