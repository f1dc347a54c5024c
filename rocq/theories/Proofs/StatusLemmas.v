(** Lemmas about Model/StatusWire.v: statuses over gRPC and over HTTP. *)
From Coq Require Import Ascii String ZArith NArith Lia.
From stdpp Require Import prelude strings gmap.
From Verif.Model Require Import GoStrings Types Wire Proto Handlers JsonMsg HttpStream JsonText JsonBytes ExampleCalls ExampleCycle Details StatusWire.
From Verif.Spec Require Import HttpSpec JsonTextSpec JsonBytesSpec StatusSpec.
From Verif.Proofs Require Import StringLemmas WireLemmas ProtoLemmas JsonTextLemmas Utf8TextLemmas JsonBytesLemmas StatusMessage.
Local Open Scope N_scope.

Lemma is_utf8 s : IsUtf8 s ↔ utf8_valid s = true.
Proof. unfold IsUtf8. split; [intros [t H]; by apply utf8_iff in H as [H _]|intros H; exists (runes s); by apply utf8_iff]. Qed.
Lemma not_utf8 s : ¬ IsUtf8 s → utf8_valid s = false.
Proof. rewrite is_utf8. by destruct (utf8_valid s). Qed.

(** ** Over gRPC *)
Lemma code_round z : (0 <= z < 2 ^ 31)%Z → parse_code (format_Z z) = Some z.
Proof.
  intros Hz. unfold parse_code. rewrite format_Z_nonneg by lia.
  rewrite parse_int_digits; [|apply format_N_digits|apply format_N_nonempty|rewrite dv_format_N; unfold max_i64; lia].
  rewrite dv_format_N, Z2N.id by lia. destruct (Z.leb_spec (- 2 ^ 31) z), (Z.ltb_spec z (2 ^ 31)); cbn [andb]; (done || lia).
Qed.
Lemma shape_status st : Forall shape_ok (fields_status st).
Proof. unfold fields_status. shape. Qed.
Lemma fold_details l : ∀ st, Forall (λ a, IsUtf8 (any_url a)) l → Forall (λ a, fits (fields_any a)) l →
  fold_fields status_step st (map (λ a, f_msg 3 (fields_any a)) l) = Some (RpcStatus (st_code st) (st_msg st) (st_details st ++ l)).
Proof.
  induction l as [|a l IH]; intros st HU HF; [cbn; rewrite app_nil_r; by destruct st|].
  apply Forall_cons in HU as [Ha HU]. apply Forall_cons in HF as [Fa HF]. cbn [map fold_fields]. unfold f_msg at 1. cbn [status_step].
  rewrite unmarshal_enc by (apply shape_wf; [apply shape_any|done]). rewrite rt_any by (by apply is_utf8). cbn [mbind option_bind].
  rewrite IH by done. cbn [st_code st_msg st_details]. by rewrite <- app_assoc.
Qed.
Lemma status_round st : Fits st → IsUtf8 (st_msg st) → ∃ b, marshal_status st = Some b ∧ unmarshal status_step (RpcStatus 0 "" []) b = Some st.
Proof.
  intros (Hc & Hf & Hu) Hm. unfold marshal_status. rewrite (proj1 (is_utf8 _) Hm).
  assert (forallb utf8_any (st_details st) = true) as ->.
  { apply forallb_forall. intros a Ha. apply elem_of_list_In in Ha. rewrite Forall_forall in Hu. by apply is_utf8, Hu. }
  eexists. split; [reflexivity|]. rewrite unmarshal_enc by (apply shape_wf; [apply shape_status|done]).
  assert (Forall (λ a, fits (fields_any a)) (st_details st)) as Hfa.
  { apply Forall_forall. intros a Ha. apply (fits_msg 3 _ (fields_status st)); [|done]. unfold fields_status. rewrite !elem_of_app. right. right.
    apply elem_of_list_fmap. by exists a. }
  unfold fields_status. rewrite fold_fields_app.
  assert (fold_fields status_step (RpcStatus 0 "" []) (f_int 1 (st_code st)) = Some (RpcStatus (st_code st) "" [])) as ->.
  { unfold f_int. destruct (Z.eqb_spec (st_code st) 0) as [->|]; [done|]. cbn [fold_fields status_step st_msg st_details].
    rewrite i32_roundtrip by lia. done. }
  cbv iota beta. rewrite fold_fields_app.
  assert (fold_fields status_step (RpcStatus (st_code st) "" []) (f_string 2 (st_msg st)) = Some (RpcStatus (st_code st) (st_msg st) [])) as ->.
  { unfold f_string. destruct (st_msg st) as [|c m] eqn:E; [done|]. cbn [fold_fields status_step st_code st_details].
    rewrite (proj1 (is_utf8 _) Hm). done. }
  cbv iota beta. rewrite fold_details by done. by destruct st.
Qed.
Lemma grpc_same st : Fits st → IsUtf8 (st_msg st) → over_grpc st = st.
Proof.
  intros HF Hm. destruct (status_round st HF Hm) as (b & Eb & Hb). pose proof HF as (Hc & _).
  unfold over_grpc, read_status, write_status. cbn [tl_status tl_message tl_bin]. rewrite code_round by done.
  destruct (st_details st) as [|a l] eqn:Ed.
  - rewrite mended_same by done. by destruct st; cbn in *; subst.
  - rewrite Eb. cbn [fmap option_fmap option_map]. rewrite bin_round, Hb, Z.eqb_refl. done.
Qed.
Lemma grpc_mended st : Fits st → ¬ IsUtf8 (st_msg st) →
  over_grpc st = RpcStatus (st_code st) (decode_message (encode_message (st_msg st))) [].
Proof.
  intros (Hc & _) Hm. unfold over_grpc, read_status, write_status. cbn [tl_status tl_message tl_bin]. rewrite code_round by done.
  unfold marshal_status. rewrite (not_utf8 _ Hm). cbn [andb]. by destruct (st_details st).
Qed.
Lemma grpc_message st : Fits st → IsUtf8 (st_msg (over_grpc st)) ∧ Mended (byte_list (st_msg st)) (byte_list (st_msg (over_grpc st))).
Proof.
  intros HF. pose proof (message_mended (st_msg st)) as HM. destruct (utf8_valid (st_msg st)) eqn:E.
  - apply is_utf8 in E. rewrite grpc_same by done. split; [done|]. by rewrite mended_same in HM.
  - assert (¬ IsUtf8 (st_msg st)) as Hn by (rewrite is_utf8, E; done). rewrite grpc_mended by done. cbn [st_msg]. split; [|done].
    destruct (mended_valid _ _ HM) as [t Ht]. by exists t.
Qed.
Lemma trailers_headers st : HeaderText (tl_message (write_status st)) ∧ ∀ v, tl_bin (write_status st) = Some v → HeaderText v.
Proof.
  split; [apply message_header|]. intros v. cbn [write_status tl_bin]. destruct (st_details st); [done|]. destruct (marshal_status st); [|done].
  intros [= <-]. apply bin_header.
Qed.

(** ** Violations *)
Lemma shape_violation v : Forall shape_ok (fields_violation v).
Proof. unfold fields_violation. shape. Qed.
Lemma violation_round v : IsUtf8 v.1 → IsUtf8 v.2 → fold_fields violation_step ("", "")%string (fields_violation v) = Some v.
Proof.
  rewrite !is_utf8. destruct v as [f d]. unfold fields_violation. cbn [fst snd]. intros H1 H2. unfold f_string.
  destruct f as [|cf f]; destruct d as [|cd d]; cbn [app fold_fields violation_step fst snd]; rewrite ?H1, ?H2; cbn [fst snd]; rewrite ?H2; done.
Qed.
Lemma fold_bad vs : ∀ acc, GoodViolations vs → Forall (λ v, fits (fields_violation v)) vs → fold_fields bad_step acc (fields_bad vs) = Some (acc ++ vs).
Proof.
  induction vs as [|v vs IH]; intros acc HG HF; [cbn; by rewrite app_nil_r|].
  apply Forall_cons in HG as [[H1 H2] HG]. apply Forall_cons in HF as [Hf HF]. unfold fields_bad. cbn [map fold_fields]. unfold f_msg at 1. cbn [bad_step].
  rewrite unmarshal_enc by (apply shape_wf; [apply shape_violation|done]). rewrite violation_round by done. cbn [mbind option_bind].
  rewrite IH by done. by rewrite <- app_assoc.
Qed.
Lemma shape_bad vs : Forall shape_ok (fields_bad vs).
Proof. unfold fields_bad. shape. Qed.
Lemma bad_round vs : GoodViolations vs → fits (fields_bad vs) → read_bad_request (bad_request vs) = Some vs.
Proof.
  intros HG HF. unfold read_bad_request, bad_request. cbn [any_url any_value]. rewrite String.eqb_refl.
  rewrite unmarshal_enc by (apply shape_wf; [apply shape_bad|done]). apply (fold_bad vs []); [done|].
  apply Forall_forall. intros v Hv. apply (fits_msg 1 _ (fields_bad vs)); [|done]. apply elem_of_list_fmap. by exists v.
Qed.
Lemma detail_fits st vs : Fits st → bad_request vs ∈ st_details st → fits (fields_bad vs).
Proof.
  intros (_ & Hf & _) Hin. assert (fits (fields_any (bad_request vs))) as Ha.
  { apply (fits_msg 3 _ (fields_status st)); [|done]. unfold fields_status. rewrite !elem_of_app. right. right. apply elem_of_list_fmap. by eexists. }
  unfold fields_any in Ha. apply fits_app_r in Ha. cbn [any_value bad_request] in Ha. unfold f_string in Ha. unfold fits, fields_len in *.
  destruct (enc_fields (fields_bad vs)) as [|c s] eqn:E; [cbn; lia|]. cbn [enc_fields] in Ha. rewrite app_length_s in Ha. unfold enc_field in Ha.
  cbn [fst snd] in Ha. rewrite !app_length_s in Ha. lia.
Qed.

(** ** Over HTTP *)
Lemma w_text_true s : IsUtf8 s → w_text true s = Some (Some (JsonMsg.JText s)).
Proof. rewrite is_utf8. intros H. unfold w_text, j_text. destruct (String.eqb_spec s "") as [->|]; [done|]. by rewrite H. Qed.
Lemma violation_json v : IsUtf8 v.1 → IsUtf8 v.2 → j_violation v = Some (ViolationJson v).
Proof. intros H1 H2. unfold j_violation, w_msg. cbn [build]. rewrite !w_text_true by done. done. Qed.
Lemma violations_json vs : GoodViolations vs → mapM j_violation vs = Some (map ViolationJson vs).
Proof.
  induction vs as [|v vs IH]; intros HG; [done|]. apply Forall_cons in HG as [[H1 H2] HG]. cbn [mapM]. rewrite violation_json, IH by done. done.
Qed.
Lemma detail_json vs : GoodViolations vs → fits (fields_bad vs) → j_detail (bad_request vs) = Some (DetailJson vs).
Proof.
  intros HG HF. unfold j_detail. rewrite bad_round by done. cbn [mbind option_bind build].
  assert (w_list true j_violation vs = Some (Some (JList (map ViolationJson vs)))) as ->.
  { unfold w_list. destruct vs as [|v vs]; [done|]. rewrite violations_json by done. done. }
  done.
Qed.
Lemma details_json vss : Forall GoodViolations vss → Forall (λ vs, fits (fields_bad vs)) vss → mapM j_detail (map bad_request vss) = Some (map DetailJson vss).
Proof.
  induction vss as [|vs vss IH]; intros HG HF; [done|]. apply Forall_cons in HG as [G HG]. apply Forall_cons in HF as [F HF].
  cbn [map mapM]. rewrite detail_json, IH by done. done.
Qed.
Lemma failure_writable code msg vss : IsUtf8 msg → Forall GoodViolations vss → Writable (FailureJson code msg vss).
Proof.
  intros Hm HG. apply is_utf8 in Hm. constructor. intros k v Hin. rewrite !elem_of_cons, elem_of_nil in Hin.
  destruct Hin as [[= -> ->]|[[= -> ->]|[[= -> ->]|[]]]]; (split; [done|]).
  - constructor. apply format_number.
  - by constructor.
  - constructor. intros d Hd. apply elem_of_list_fmap in Hd as (vs & -> & Hvs). rewrite Forall_forall in HG. pose proof (HG vs Hvs) as Gv.
    constructor. intros k' v' Hin'. rewrite !elem_of_cons, elem_of_nil in Hin'. destruct Hin' as [[= -> ->]|[[= -> ->]|[]]]; (split; [done|]).
    + by constructor.
    + constructor. intros w Hw. apply elem_of_list_fmap in Hw as (x & -> & Hx). unfold GoodViolations in Gv. rewrite Forall_forall in Gv.
      destruct (Gv x Hx) as [U1 U2]. apply is_utf8 in U1. apply is_utf8 in U2.
      constructor. intros k'' v'' Hin''. rewrite !elem_of_cons, elem_of_nil in Hin''. destruct Hin'' as [[= -> ->]|[[= -> ->]|[]]]; (split; [done|by constructor]).
Qed.
Lemma body_of sp v : Writable v → BodyOf (client_bytes sp v) v.
Proof.
  intros HW. unfold BodyOf, client_bytes. exists (print sp (tree v)), (tree v). split_and!; [|apply value_text, printed_value, tree_scalars, HW|by apply tree_value].
  pose proof (tree_runes sp v HW) as [Hr _]. apply utf8_iff. split; [by apply enc_valid|]. unfold runes. by rewrite (dec_enc_whole _ Hr).
Qed.
Lemma http_code code : (0 <= code)%Z → http_status (Z.to_N code) = HttpCode code.
Proof.
  intros H. destruct (Z.lt_ge_cases code 17) as [Hlt|Hge].
  - assert (∃ n, (n < 17)%nat ∧ code = Z.of_nat n) as (n & Hn & ->) by (exists (Z.to_nat code); lia). do 17 (destruct n as [|n]; [reflexivity|]). lia.
  - unfold http_status. rewrite lookup_ge_None_2 by (cbn [length]; lia). cbn [default].
    destruct code as [|p|p]; [lia| |lia]. do 5 (destruct p as [p|p|]; try lia; try reflexivity).
Qed.
Lemma http_failure sp st resp vss : Fits st → st_details st = map bad_request vss → Forall GoodViolations vss → st_code st ≠ 0%Z →
  ∃ body, gateway_unary sp (over_grpc st) resp = HAnswer (HttpCode (st_code st)) body false ∧
    BodyOf body (FailureJson (st_code st) (st_msg (over_grpc st)) (if utf8_valid (st_msg st) then vss else [])).
Proof.
  intros HF Hd HG Hc. destruct (grpc_message st HF) as [Hu _]. pose proof HF as ([Hc0 _] & _).
  assert (st_code (over_grpc st) = st_code st ∧ st_details (over_grpc st) = map bad_request (if utf8_valid (st_msg st) then vss else [])) as [E1 E2].
  { destruct (utf8_valid (st_msg st)) eqn:E; [rewrite grpc_same by (done || by apply is_utf8); done|].
    rewrite grpc_mended by (done || rewrite is_utf8, E; done). done. }
  set (vss' := if utf8_valid (st_msg st) then vss else []) in *.
  assert (Forall GoodViolations vss') as HG' by (unfold vss'; destruct (utf8_valid (st_msg st)); [done|constructor]).
  assert (Forall (λ vs, fits (fields_bad vs)) vss') as HF'.
  { unfold vss'. destruct (utf8_valid (st_msg st)); [|constructor]. apply Forall_forall. intros vs Hvs. apply (detail_fits st); [done|].
    rewrite Hd. apply elem_of_list_fmap. by eexists. }
  unfold gateway_unary. rewrite E1. destruct (Z.eqb_spec (st_code st) 0); [done|].
  unfold j_failure, failure_of. cbn [fl_details fl_msg fl_code]. rewrite E1, E2, details_json by done.
  rewrite (proj1 (is_utf8 _) Hu). rewrite <- format_Z_nonneg, http_code by done. eexists. split; [reflexivity|].
  apply (body_of sp (FailureJson _ _ _)). by apply failure_writable.
Qed.
Lemma http_success sp st resp : Fits st → st_code st = 0%Z → gateway_unary sp (over_grpc st) resp = HAnswer 200 (client_bytes sp resp) false.
Proof.
  intros HF Hc. assert (st_code (over_grpc st) = st_code st) as E.
  { destruct (utf8_valid (st_msg st)) eqn:E; [rewrite grpc_same by (done || by apply is_utf8); done|]. rewrite grpc_mended by (done || rewrite is_utf8, E; done). done. }
  unfold gateway_unary. by rewrite E, Hc.
Qed.

(** ** Activations *)
Lemma details_good vs : details_marshal vs = true → GoodViolations vs.
Proof.
  unfold details_marshal. intros H. apply Forall_forall. intros v Hv. apply elem_of_list_In in Hv.
  pose proof (proj1 (forallb_forall _ _) H v Hv) as [H1 H2]%andb_true_iff. split; by apply is_utf8.
Qed.
Lemma told_cases errs : let t := error_details errs in
  td_code t = OK ∧ td_violations t = [] ∨ td_code t = InvalidArgument ∧ td_violations t ≠ [] ∧ GoodViolations (td_violations t).
Proof.
  cbn zeta. unfold error_details. destruct (bool_decide_reflect (errs = ∅)) as [->|Hne]; [by left|].
  destruct (details_marshal (violations errs)) eqn:E; [|by left]. right. cbn [td_code td_violations]. split_and!; [done| |by apply details_good].
  unfold violations. intros H%map_eq_nil. by apply Hne, map_to_list_empty_iff.
Qed.
Lemma told_reaches c ids rs sp resp : let t := set_active_told c ids rs in let st := told_status t in Fits st →
  over_grpc st = st ∧
  (td_code t = OK → gateway_unary sp (over_grpc st) resp = HAnswer 200 (client_bytes sp resp) false) ∧
  (td_code t ≠ OK → read_bad_request <$> st_details (over_grpc st) = [Some (td_violations t)] ∧
    ∃ body, gateway_unary sp (over_grpc st) resp = HAnswer 400 body false ∧
      BodyOf body (FailureJson 3 "One or more state update arguments were invalid" [td_violations t])).
Proof.
  cbn zeta. unfold set_active_told. set (errs := collect_texts _ _ _). set (t := error_details errs). intros HF.
  assert (IsUtf8 (st_msg (told_status t))) as Hu by (apply is_utf8; unfold told_status; by destruct (td_code t)).
  rewrite (grpc_same _ HF Hu). split; [done|]. pose proof (told_cases errs) as HC. cbn zeta in HC. fold t in HC. split.
  - intros Ht. rewrite <- (grpc_same _ HF Hu). apply http_success; [done|]. unfold told_status. by rewrite Ht.
  - intros Ht. destruct HC as [[? _]|(Hc & Hv & HG)]; [done|].
    assert (st_details (told_status t) = map bad_request [td_violations t]) as Ed.
    { unfold told_status. cbn [st_details map]. by destruct (td_violations t). }
    split.
    + rewrite Ed. cbn [map fmap list_fmap]. rewrite bad_round; [done|done|]. apply (detail_fits (told_status t)); [done|]. rewrite Ed. left.
    + assert (Forall GoodViolations [td_violations t]) as HG' by (by constructor).
      assert (st_code (told_status t) = 3%Z) as Ec by (unfold told_status; by rewrite Hc).
      destruct (http_failure sp (told_status t) resp [td_violations t] HF Ed HG') as (body & E & HB); [by rewrite Ec|].
      rewrite (grpc_same _ HF Hu) in E, HB. rewrite Ec in E, HB. rewrite (proj1 (is_utf8 _) Hu) in HB.
      exists body. split; [exact E|]. replace (st_msg (told_status t)) with "One or more state update arguments were invalid"%string in HB; [exact HB|].
      unfold told_status. by rewrite Hc.
Qed.

(** ** Trailers of other servers *)
Lemma unreadable_details a m v b : decode_bin v = Some b → unmarshal status_step (RpcStatus 0 "" []) b = None →
  read_status (Trailers a m (Some v)) = read_status (Trailers a m None).
Proof. intros Hd Hu. unfold read_status. cbn [tl_status tl_bin tl_message]. destruct (parse_code a); [|done]. by rewrite Hd, Hu. Qed.
Lemma code_sent t c : parse_code (tl_status t) = Some c → st_code (read_status t) = c ∨ st_code (read_status t) = internal.
Proof.
  intros Hc. unfold read_status. rewrite Hc. destruct (tl_bin t); [|by left]. destruct (decode_bin _); [|by right].
  destruct (unmarshal _ _ _); [|by left]. destruct (_ =? _)%Z eqn:E; [|by right]. apply Z.eqb_eq in E. by left.
Qed.
