(** What wrong settings lead to. *)
From Coq Require Import Ascii String ZArith NArith Lia ZifyBool.
From stdpp Require Import prelude strings gmap.
From Verif.Model Require Import GoStrings Types Wire Proto Logging Filter MemRepl Cache Handlers Settings.
From Verif.Spec Require Import StringSpec MiscSpec FilterSpec HandlerSpec SettingsSpec.
From Verif.Proofs Require Import StringLemmas MiscLemmas HandlerLemmas HandlerMore SettingsLemmas.
Local Open Scope string_scope.
Local Open Scope Z_scope.

Lemma stored_zero now id t stored a cr ex :
  StoredAs 0 now id t stored → tk_attrs stored = Some a → fd_ctime a = Some cr → tk_exp stored = Some ex →
  ∃ x y, Denotes ex x ∧ Denotes cr y ∧ x <= y.
Proof.
  intros (_ & _ & a' & cr' & ex' & z & Ha & _ & _ & _ & Hc & He & _ & Hz & H1 & H2) Ha' Hc' He'.
  rewrite Ha in Ha'. injection Ha' as <-. rewrite Hc in Hc'. injection Hc' as <-. rewrite He in He'. injection He' as <-.
  rewrite Z.mul_0_l, Z.add_0_r in *.
  destruct (tk_exp t) as [e|] eqn:Et; [|exists z, z; split; [apply H2; naive_solver|done]].
  destruct (decide (ValidTs e)) as [Hv|Hv].
  - destruct (decide (ts_seconds e * 1000000000 + ts_nanos e <= z)) as [Hle|Hle].
    + pose proof (H1 e _ eq_refl Hv eq_refl Hle) as ->. exists (ts_seconds e * 1000000000 + ts_nanos e), z. done.
    + exists z, z. split; [|done]. apply H2. intros e' z' [= <-] _ Hd. unfold Denotes in Hd. lia.
  - exists z, z. split; [|done]. apply H2. intros e' z' [= <-] Hv'. done.
Qed.

Lemma unit_ttl env st cfg s now o t :
  start env = Done (st, cfg) → env "OM_CACHE_TICKET_TTL_SECS" = Some s → HasUnit s →
  SaneNow now → ClientTicketOk t → orders_ok (prepare_ticket (cfg_ticket_ttl cfg) now t) o →
  ∃ v, create_ticket (cfg_ticket_ttl cfg) now o (Some t) = Send [Update CmdTicket "" v] ∧
    ((slen v < 2 ^ 64)%N → ∀ id, ∃ a cr ex x y,
      tk_attrs (stored_ticket id v) = Some a ∧ fd_ctime a = Some cr ∧ tk_exp (stored_ticket id v) = Some ex ∧
      Denotes ex x ∧ Denotes cr y ∧ x <= y).
Proof.
  intros Hst Hs Hu Hn Ht Ho. apply start_some in Hst as (Httl & _).
  unfold ticket_ttl in Httl. rewrite (get_int_unit _ _ _ _ Hs Hu) in Httl. rewrite Httl in *.
  destruct (create_ticket_spec 0 now o t) as (v & Hv & Hst); [by split|done..|].
  exists v. split; [done|]. intros Hl id. specialize (Hst Hl id). pose proof Hst as (_ & _ & a & cr & ex & z & Ha & _ & _ & _ & Hc & He & _).
  destruct (stored_zero _ _ _ _ _ _ _ Hst Ha Hc He) as (x & y & ? & ? & ?). by exists a, cr, ex, x, y.
Qed.

Lemma unit_updates env st cfg s c ids :
  start env = Done (st, cfg) → env "OM_MAX_STATE_UPDATES_PER_CALL" = Some s → HasUnit s →
  set_active_start cfg c ids = Reject InvalidArgument.
Proof.
  intros Hst Hs Hu. apply start_some in Hst as (_ & _ & Hm & _).
  unfold max_updates in Hm. rewrite (get_int_unit _ _ _ _ Hs Hu) in Hm.
  apply set_active_rejects. rewrite Hm. destruct ids; [by left|right; cbn; lia].
Qed.

(** ** Logging *)
Lemma format_spec env s : env "OM_LOGGING_FORMAT" = Some s → s ≠ "" →
  (log_format env = FJson ↔ Folds s "json") ∧ (log_format env = FStackdriver ↔ Folds s "stackdriver") ∧
  (log_format env = FText ↔ ¬ Folds s "json" ∧ ¬ Folds s "stackdriver").
Proof.
  intros H1 H2. unfold log_format, get_string.
  assert (env_value env "OM_LOGGING_FORMAT" = Some s) as -> by by apply env_value_some.
  unfold new_formatter. cbv zeta.
  rewrite <-(folds_eqb s "json") by done. rewrite <-(folds_eqb s "stackdriver") by done.
  destruct (String.eqb_spec (lower s) "stackdriver") as [->|E1].
  { change (String.eqb "stackdriver" "json") with false. naive_solver. }
  destruct (String.eqb (lower s) "json"); naive_solver.
Qed.
Lemma not_given_default env :
  (env "OM_LOGGING_FORMAT" = None ∨ env "OM_LOGGING_FORMAT" = Some "" → log_format env = FJson) ∧
  (env "OM_LOGGING_LEVEL" = None ∨ env "OM_LOGGING_LEVEL" = Some "" → log_level env = LInfo).
Proof.
  unfold log_format, log_level, get_string, env_value.
  split; intros [-> | ->]; reflexivity.
Qed.
Lemma debug_ignores env env' : env "LOGGING.LEVEL" = env' "LOGGING.LEVEL" → is_debug_enabled env = is_debug_enabled env'.
Proof. intros H. unfold is_debug_enabled, get_string, env_value. by rewrite H. Qed.
