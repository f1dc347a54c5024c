(** Lemmas about Model/NetSettings.v. *)
From Coq Require Import Ascii String ZArith NArith Lia.
From stdpp Require Import prelude strings.
From Verif.Model Require Import GoStrings Types Settings Dial NetSettings.
From Verif.Spec Require Import StringSpec MiscSpec SettingsSpec DialSpec NetSpec.
From Verif.Proofs Require Import StringLemmas MiscLemmas SettingsLemmas DialLemmas.
Local Open Scope string_scope.
Local Open Scope Z_scope.

(** ** Durations *)
Lemma wrap64_iff z : wrap64 z = z ↔ FitsInt64 z.
Proof.
  unfold wrap64, FitsInt64. split.
  - intros E. pose proof (Z.mod_pos_bound (z + 2 ^ 63) (2 ^ 64) ltac:(done)). lia.
  - intros H. rewrite Z.mod_small; lia.
Qed.
Lemma get_int_set_to env k z d : IsSetTo env k z → get_int env k d = z.
Proof. intros (s & H1 & H2 & H3). by eapply get_int_plain. Qed.
Lemma duration_iff u env k z d : IsSetTo env k z → duration u (get_int env k d) = z * u ↔ FitsInt64 (z * u).
Proof. intros H. rewrite (get_int_set_to _ _ _ _ H). apply wrap64_iff. Qed.
Lemma mmf_time_iff env z : IsSetTo env "OM_MMF_TIMEOUT_SECS" z → mmf_time env = z * 1000000000 ↔ FitsInt64 (z * 1000000000).
Proof. apply (duration_iff second). Qed.
Lemma in_wait_iff env z : IsSetTo env "OM_CACHE_IN_WAIT_TIMEOUT_MS" z → in_wait env = z * 1000000 ↔ FitsInt64 (z * 1000000).
Proof. apply (duration_iff millisecond). Qed.
Lemma out_wait_iff env z : IsSetTo env "OM_CACHE_OUT_WAIT_TIMEOUT_MS" z → out_wait env = z * 1000000 ↔ FitsInt64 (z * 1000000).
Proof. apply (duration_iff millisecond). Qed.
Lemma mmf_time_range env z : IsSetTo env "OM_MMF_TIMEOUT_SECS" z → -9223372036 <= z <= 9223372036 → mmf_time env = z * 1000000000.
Proof. intros H Hz. apply mmf_time_iff; [done|]. unfold FitsInt64. lia. Qed.
Lemma mmf_time_unit env s : env "OM_MMF_TIMEOUT_SECS" = Some s → HasUnit s → expired_at_once (mmf_time env) = true.
Proof. intros H Hu. unfold mmf_time. by rewrite (get_int_unit _ _ _ _ H Hu). Qed.

(** ** BLOCK *)
Lemma block_iff env s : env "OM_CACHE_IN_WAIT_TIMEOUT_MS" = Some s → s ≠ "" →
  ∀ z, redis_block (block_arg env) = Some z ↔ s = format_Z z ∧ FitsInt64 z ∧ 0 <= z.
Proof.
  intros H Hne z. unfold block_arg, get_string. rewrite (proj2 (env_value_some _ _ _) (conj H Hne)).
  unfold redis_block. destruct (redis_int s) as [w|] eqn:E.
  - apply redis_int_iff in E as [E1 E2]. destruct (Z.ltb_spec w 0) as [Hw|Hw].
    + split; [done|]. intros (Hs & Hf & Hz). exfalso.
      assert (redis_int s = Some w) as R1 by by apply redis_int_iff. assert (redis_int s = Some z) as R2 by by apply redis_int_iff.
      rewrite R1 in R2. injection R2. lia.
    + split; [intros [= <-]; done|]. intros (Hs & Hf & Hz).
      assert (redis_int s = Some w) as <- by by apply redis_int_iff. by apply redis_int_iff.
  - split; [done|]. intros (Hs & Hf & _). rewrite (proj2 (redis_int_iff s z)) in E by done. done.
Qed.
Lemma block_same env z : redis_block (block_arg env) = Some z → get_int env "OM_CACHE_IN_WAIT_TIMEOUT_MS" 1500 = z.
Proof.
  unfold redis_block, block_arg, get_string, get_int. destruct (env_value env _) as [s|].
  - destruct (redis_int s) as [w|] eqn:E; [|done]. destruct (w <? 0); [done|]. intros [= <-]. by apply redis_agrees.
  - intros H. change (redis_int (format_Z 1500)) with (Some 1500) in H. by injection H.
Qed.

(** ** ParseDuration *)
Lemma leading_int_digits acc s r : all_digits s = true → (dv acc s <= 2 ^ 63)%N → (∀ c r', r = String c r' → is_digit c = false) →
  leading_int acc (s +:+ r) = Some (dv acc s, r).
Proof.
  revert acc. induction s as [|c s IH]; intros acc Hd Hv Hr.
  - cbn [dv]. change ("" +:+ r) with r. destruct r as [|c r]; [done|]. cbn [leading_int]. by rewrite (Hr c r eq_refl).
  - change (String c s +:+ r) with (String c (s +:+ r)). cbn [leading_int dv all_digits] in *.
    apply andb_true_iff in Hd as [Hc Hd]. rewrite Hc.
    pose proof (dv_ge (acc * 10 + digit_val c)%N s) as Hg.
    destruct (N.ltb_spec (2 ^ 63 / 10) acc) as [H|H].
    { exfalso. assert (2 ^ 63 < acc * 10)%N; [|lia]. change (2 ^ 63 / 10)%N with 922337203685477580%N in H. lia. }
    cbv zeta. replace (10 * acc + digit_val c)%N with (acc * 10 + digit_val c)%N by lia.
    destruct (N.ltb_spec (2 ^ 63) (acc * 10 + digit_val c)) as [H'|H']; [lia|]. by apply IH.
Qed.
Lemma span_all f u : forallb f (list_ascii_of_string u) = true → span f u = (u, "").
Proof.
  induction u as [|c u IH]; [done|]. cbn [list_ascii_of_string forallb span]. intros [-> H]%andb_true_iff. by rewrite (IH H).
Qed.

Lemma unit_facts u k : (u, k) ∈ duration_units →
  unit_of u = Some (Z.to_N k) ∧ 0 < k ∧ u ≠ "" ∧ forallb (λ c, negb (number_char c)) (list_ascii_of_string u) = true ∧
  (∀ c r, u = String c r → is_digit c = false ∧ Ascii.eqb c "." = false) ∧ has_unit_char u = true.
Proof.
  intros H. unfold duration_units in H.
  repeat (apply elem_of_cons in H as [[= -> ->]|H];
    [split; [reflexivity|split; [done|split; [done|split; [reflexivity|split; [intros c r [= <- <-]; done|reflexivity]]]]]|]).
  by apply elem_of_nil in H.
Qed.

Lemma string_app_ne s u : u ≠ "" → negb (String.eqb u (s +:+ u)) = negb (String.eqb s "").
Proof.
  intros _. f_equal. destruct s as [|c s]; [by rewrite String.eqb_refl|].
  destruct (String.eqb_spec u (String c s +:+ u)) as [E|]; [|done].
  apply (f_equal String.length) in E. rewrite app_length_s in E. cbn [String.length] in E. lia.
Qed.

Lemma part_ok frac ds n u k : HasValue ds n → (u, k) ∈ duration_units → (Z.of_N n * k <= 2 ^ 63) →
  duration_part frac (ds +:+ u) = Some (Z.to_N (Z.of_N n * k), "").
Proof.
  intros Hv Hu Hle. destruct (unit_facts u k Hu) as (U1 & U2 & U3 & U4 & U5 & _).
  pose proof Hv as (Hne & Hd & Hval)%has_value_iff.
  assert (Hn : (n <= 2 ^ 63)%N) by nia.
  assert (L : leading_int 0 (ds +:+ u) = Some (n, u)).
  { rewrite <-Hval. apply leading_int_digits; [done|by rewrite Hval|]. intros c r E. by apply (U5 c r). }
  destruct ds as [|c ds]; [done|]. unfold duration_part. change (String c ds +:+ u) with (String c (ds +:+ u)) in *.
  cbv iota beta. assert (Hc : number_char c = true).
  { cbn [all_digits] in Hd. apply andb_true_iff in Hd as [Hc _]. unfold number_char. by rewrite Hc. }
  rewrite Hc, L. cbv zeta. change (String c (ds +:+ u)) with (String c ds +:+ u). rewrite (string_app_ne (String c ds) u U3).
  replace (match u with String d r' => if Ascii.eqb d "." then span is_digit r' else ("", u) | "" => ("", u) end) with ("", u)
    by (destruct u as [|d r']; [done|]; by rewrite (proj2 (U5 d r' eq_refl))).
  cbn [negb String.eqb orb]. rewrite (span_all _ _ U4), U1.
  destruct (N.ltb_spec (2 ^ 63 / Z.to_N k) n) as [H|H].
  { exfalso. assert (2 ^ 63 < Z.to_N k * n)%N; [|lia]. apply N.lt_nge. intros H'.
    apply N.div_le_lower_bound in H'; [lia|lia]. }
  cbv zeta. rewrite N.add_0_r. destruct (N.ltb_spec (2 ^ 63) (n * Z.to_N k)) as [H'|H']; [lia|]. do 2 f_equal. lia.
Qed.

Lemma parts_one frac fuel s v : s ≠ "" → (v <= 2 ^ 63)%N → duration_part frac s = Some (v, "") → duration_parts frac (S fuel) 0 s = Some v.
Proof.
  intros Hne Hv H. destruct s as [|c s]; [done|]. cbn [duration_parts]. rewrite H, N.add_0_l.
  destruct (N.ltb_spec (2 ^ 63) v); [lia|]. by destruct fuel.
Qed.

Lemma digits_not_zero ds u : u ≠ "" → String.eqb (ds +:+ u) "0" = false ∨ ds = "".
Proof.
  intros Hu. destruct ds as [|c ds]; [by right|]. left. change (String c ds +:+ u) with (String c (ds +:+ u)).
  apply String.eqb_neq. intros [= _ E]. apply (f_equal String.length) in E. rewrite app_length_s in E.
  destruct u; [done|]. cbn in E. lia.
Qed.

(** A signed number with a unit. *)
Lemma parse_duration_signed frac s z u k : SignedDecimal s z → (u, k) ∈ duration_units → FitsInt64 (z * k) →
  parse_duration frac (s +:+ u) = Some (z * k).
Proof.
  intros (ds & n & Hv & Hs) Hu Hf. unfold FitsInt64 in Hf. destruct (unit_facts u k Hu) as (_ & Hk & Hne & _ & _).
  pose proof Hv as (Hds & Hd & _)%has_value_iff.
  assert (HP : Z.of_N n * k <= 2 ^ 63 → duration_parts frac (String.length (ds +:+ u)) 0 (ds +:+ u) = Some (Z.to_N (Z.of_N n * k))).
  { intros Hle. assert (String.length (ds +:+ u) = S (pred (String.length (ds +:+ u)))) as ->.
    { destruct ds; [done|]. reflexivity. }
    apply parts_one; [by destruct ds|lia|by apply part_ok]. }
  assert (HZ : String.eqb (ds +:+ u) "0" = false) by (destruct (digits_not_zero ds u Hne); [done|by subst]).
  assert (HE : String.eqb (ds +:+ u) "" = false) by (by destruct ds).
  assert (HN : ∀ t, t = ds → match t +:+ u with
                   | String c s' => if Ascii.eqb c "-" then (true, s') else if Ascii.eqb c "+" then (false, s') else (false, t +:+ u)
                   | "" => (false, t +:+ u) end = (false, ds +:+ u)).
  { intros t ->. destruct ds as [|c ds]; [done|]. change (String c ds +:+ u) with (String c (ds +:+ u)). cbv iota beta.
    cbn [all_digits] in Hd. apply andb_true_iff in Hd as [Hc _].
    destruct (Ascii.eqb_spec c "-") as [->|_]; [done|]. by destruct (Ascii.eqb_spec c "+") as [->|_]. }
  unfold parse_duration. destruct Hs as [[[->| ->] ->]|[-> ->]].
  - rewrite (HN ds eq_refl). rewrite HZ, HE, HP by lia.
    destruct (N.ltb_spec (2 ^ 63 - 1) (Z.to_N (Z.of_N n * k))); [lia|]. f_equal. lia.
  - change ("+" +:+ ds +:+ u) with (String "+" (ds +:+ u)). change (("+" +:+ ds) +:+ u) with (String "+" (ds +:+ u)).
    cbn -[duration_parts String.eqb N.pow Z.pow]. rewrite HZ, HE, HP by lia.
    destruct (N.ltb_spec (2 ^ 63 - 1) (Z.to_N (Z.of_N n * k))); [lia|]. f_equal. lia.
  - change (("-" +:+ ds) +:+ u) with (String "-" (ds +:+ u)).
    cbn -[duration_parts String.eqb N.pow Z.pow]. rewrite HZ, HE, HP by lia. f_equal. lia.
Qed.

Lemma unit_char_app s u : has_unit_char (s +:+ u) = has_unit_char s || has_unit_char u.
Proof. unfold has_unit_char. rewrite list_ascii_app. apply existsb_app. Qed.
Lemma signed_no_unit s z : SignedDecimal s z → has_unit_char s = false.
Proof.
  intros (ds & n & (_ & Hd & _)%has_value_iff & Hs).
  assert (E : has_unit_char ds = false).
  { clear Hs. induction ds as [|c ds IH]; [done|]. cbn [all_digits] in Hd. apply andb_true_iff in Hd as [Hc Hd].
    change (existsb (Ascii.eqb c) ["n"; "s"; "u"; "m"; "h"]%char || has_unit_char ds = false). rewrite (IH Hd), orb_false_r.
    cbn [existsb].
    destruct (Ascii.eqb_spec c "n") as [->|_]; [done|]. destruct (Ascii.eqb_spec c "s") as [->|_]; [done|].
    destruct (Ascii.eqb_spec c "u") as [->|_]; [done|]. destruct (Ascii.eqb_spec c "m") as [->|_]; [done|].
    by destruct (Ascii.eqb_spec c "h") as [->|_]. }
  destruct Hs as [[[->| ->] _]|[-> _]]; [done| |]; rewrite unit_char_app, E; reflexivity.
Qed.
Lemma to_duration_plain frac s z : SignedDecimal s z → FitsInt64 z → to_duration frac s = z.
Proof.
  intros Hs Hf. unfold to_duration. rewrite (signed_no_unit s z Hs).
  rewrite (parse_duration_signed frac s z "ns" 1 Hs); [lia|left|by rewrite Z.mul_1_r].
Qed.
Lemma to_duration_unit frac s z u k : SignedDecimal s z → (u, k) ∈ duration_units → FitsInt64 (z * k) →
  to_duration frac (s +:+ u) = z * k.
Proof.
  intros Hs Hu Hf. unfold to_duration. destruct (unit_facts u k Hu) as (_ & _ & _ & _ & _ & Hc).
  rewrite unit_char_app, Hc, orb_true_r. by rewrite (parse_duration_signed frac s z u k Hs Hu Hf).
Qed.
Lemma signed_nonempty s z : SignedDecimal s z → s ≠ "".
Proof. intros (ds & n & (Hne & _)%has_value_iff & H). destruct H as [[[->| ->] _]|[-> _]]; done. Qed.
Lemma idle_plain frac env s z : env "OM_REDIS_POOL_IDLE_TIMEOUT" = Some s → SignedDecimal s z → FitsInt64 z →
  idle_timeout frac env = z.
Proof.
  intros H Hs Hf. unfold idle_timeout. rewrite (proj2 (env_value_some _ _ _) (conj H (signed_nonempty s z Hs))).
  by apply to_duration_plain.
Qed.
Lemma idle_unit frac env s z u k : env "OM_REDIS_POOL_IDLE_TIMEOUT" = Some (s +:+ u) → SignedDecimal s z →
  (u, k) ∈ duration_units → FitsInt64 (z * k) → idle_timeout frac env = z * k.
Proof.
  intros H Hs Hu Hf. unfold idle_timeout. rewrite (proj2 (env_value_some env _ (s +:+ u))).
  - by apply to_duration_unit.
  - split; [done|]. pose proof (signed_nonempty s z Hs). by destruct s.
Qed.

(** ** Polls *)
Lemma poll_iff limit connect reply : poll limit connect reply = PolledOk ↔ limit = 0 ∨ connect < limit ∧ reply < limit.
Proof.
  unfold poll, in_time. destruct (Z.eqb_spec limit 0); [subst; cbn; split; [by left|done]|]. cbn [orb].
  destruct (Z.ltb_spec connect limit), (Z.ltb_spec reply limit); split; intros; try done; lia.
Qed.
Lemma quiet_poll env limit connect reply b : redis_block (block_arg env) = Some b → b * 1000000 <= reply →
  limit ≠ 0 → limit <= b * 1000000 → poll limit connect reply ≠ PolledOk.
Proof. intros _ H1 H2 H3 H. apply poll_iff in H. lia. Qed.

(** ** Ports *)
Lemma port_digits_ok acc s : all_digits s = true → (dv acc s < 2 ^ 32)%N → port_digits acc s = Some (dv acc s).
Proof.
  revert acc. induction s as [|c s IH]; intros acc Hd Hv; [done|].
  cbn [port_digits dv all_digits] in *. apply andb_true_iff in Hd as [Hc Hd]. rewrite Hc.
  pose proof (dv_ge (acc * 10 + digit_val c)%N s) as Hg. unfold port_cutoff, port_max in *.
  destruct (N.leb_spec (2 ^ 30) acc); [exfalso; lia|]. cbv zeta. rewrite N.mod_small by lia.
  replace (10 * acc + digit_val c)%N with (acc * 10 + digit_val c)%N by lia.
  destruct (N.ltb_spec (2 ^ 32 - 1) (acc * 10 + digit_val c)); [exfalso; lia|]. by apply IH.
Qed.
Lemma parse_port_signed s z : SignedDecimal s z → - 2 ^ 32 < z < 2 ^ 32 →
  ∃ n, parse_port s = Some n ∧ (0 <= n <= 65535 ∧ n = z ∨ ¬ (0 <= n <= 65535) ∧ ¬ (0 <= z <= 65535)).
Proof.
  intros (ds & n & (Hne & Hd & Hv)%has_value_iff & Hs) Hz.
  assert (Hn : (n < 2 ^ 32)%N) by (destruct Hs as [[_ ->]|[_ ->]]; lia).
  pose proof (port_digits_ok 0 ds Hd ltac:(by rewrite Hv)) as HP. rewrite Hv in HP.
  assert (HQ : parse_port ds = Some (if (port_cutoff <=? n)%N then Z.of_N port_cutoff - 1 else Z.of_N n)).
  { destruct ds as [|c ds]; [done|]. unfold parse_port. cbn [all_digits] in Hd. apply andb_true_iff in Hd as [Hc _].
    destruct (Ascii.eqb_spec c "+") as [->|_]; [done|]. destruct (Ascii.eqb_spec c "-") as [->|_]; [done|]. by rewrite HP. }
  unfold port_cutoff in *.
  assert (HR : ∃ m, Some (if (2 ^ 30 <=? n)%N then Z.of_N (2 ^ 30) - 1 else Z.of_N n) = Some m ∧
    (0 <= m <= 65535 ∧ m = Z.of_N n ∨ ¬ 0 <= m <= 65535 ∧ ¬ 0 <= Z.of_N n <= 65535)).
  { eexists. split; [reflexivity|]. destruct (N.leb_spec (2 ^ 30) n); lia. }
  destruct Hs as [[[->| ->] ->]|[-> ->]].
  - by rewrite HQ.
  - change ("+" +:+ ds) with (String "+" ds). unfold parse_port. cbn -[port_digits N.pow Z.pow]. by rewrite HP.
  - change ("-" +:+ ds) with (String "-" ds). unfold parse_port. cbn -[port_digits N.pow Z.pow]. rewrite HP.
    eexists. split; [reflexivity|]. unfold port_cutoff. destruct (N.ltb_spec (2 ^ 30) n); lia.
Qed.

Lemma split_colon p : contains ":" p = false → contains "[" p = false → contains "]" p = false →
  split_host_port (":" +:+ p) = Some ("", p).
Proof.
  intros H1 H2 H3. unfold split_host_port. change (":" +:+ p) with (String ":" p). cbn [Ascii.eqb].
  change (String ":" p) with ("" +:+ ":" +:+ p). rewrite (split_last_app "" p H1), !contains_app, H2, H3. reflexivity.
Qed.
Lemma split_colon_inv p x : split_host_port (":" +:+ p) = Some x →
  x = ("", p) ∧ contains ":" p = false ∧ contains "[" p = false ∧ contains "]" p = false.
Proof.
  unfold split_host_port. change (":" +:+ p) with (String ":" p).
  change (Ascii.eqb ":" "[") with false. cbv iota. cbn [split_last contains]. change (Ascii.eqb "[" ":") with false.
  change (Ascii.eqb "]" ":") with false. change (Ascii.eqb ":" ":") with true. cbn [orb].
  destruct (split_last p) as [[a b]|] eqn:E.
  - cbn [contains]. change (Ascii.eqb ":" ":") with true. done.
  - destruct (contains "[" p), (contains "]" p); cbn [orb contains]; try done. intros [= <-]. split; [done|].
    split; [|done]. clear -E. induction p as [|c p IH]; [done|]. cbn [split_last contains] in *.
    destruct (split_last p) as [[a b]|]; [done|]. destruct (Ascii.eqb c ":") eqn:Ec; [done|]. rewrite Ascii.eqb_sym, Ec. by apply IH.
Qed.
Lemma dial_localhost p : contains ":" p = false → contains "[" p = false → contains "]" p = false →
  dial ("localhost:" +:+ p) = DTcp "localhost" p.
Proof.
  intros H1 H2 H3. unfold dial. change ("localhost:" +:+ p) with ("localhost"%string +:+ ":" +:+ p).
  assert (get_scheme true ("localhost"%string +:+ ":" +:+ p) = Some ("localhost", p)) as -> by reflexivity. cbv iota beta zeta.
  change (Dial.lower_ascii "localhost") with "localhost"%string. cbn [String.eqb Ascii.eqb Bool.eqb].
  unfold dial_tcp, split_host_port. change ("localhost"%string +:+ ":" +:+ p) with (String "l" ("ocalhost" +:+ ":" +:+ p)).
  cbv iota beta. change (Ascii.eqb "l" "[") with false. cbv iota.
  change (String "l" ("ocalhost" +:+ ":" +:+ p)) with ("localhost"%string +:+ ":" +:+ p).
  rewrite (split_last_app "localhost" p H1), !contains_app, H2, H3. reflexivity.
Qed.

Lemma serve_dest env p d : serve_ports env = Some (p, d) → ∃ s, d = DTcp "localhost" s ∧ parse_port s = Some p.
Proof.
  unfold serve_ports, port_of, listen_addr, gateway_dest. destruct (split_host_port (":" +:+ port_setting env)) as [[h q]|] eqn:E; [|done].
  apply split_colon_inv in E as ([= -> ->] & H1 & H2 & H3). rewrite (dial_localhost _ H1 H2 H3).
  destruct (parse_port (port_setting env)) as [n|] eqn:E; [|done]. destruct (_ && _); [|done]. destruct (n =? http_port); [done|].
  intros [= <- <-]. eauto.
Qed.
Lemma gateway_iff env p d : serve_ports env = Some (p, d) → Reaches p d ↔ p ≠ 0.
Proof.
  intros H. destruct (serve_dest _ _ _ H) as (s & Hd & Hp). split; [by intros (_ & _ & _ & Hne)|]. intros Hne. by exists s.
Qed.

Lemma signed_contains s z : SignedDecimal s z → contains ":" s = false ∧ contains "[" s = false ∧ contains "]" s = false.
Proof.
  intros (ds & n & (_ & Hd & _)%has_value_iff & Hs). apply digits_host, host_contains in Hd as (H1 & H2 & H3).
  destruct Hs as [[[->| ->] _]|[-> _]]; [done| |]; rewrite !contains_app, H1, H2, H3; done.
Qed.
Lemma serve_signed env s z : env "PORT" = Some s → SignedDecimal s z → - 2 ^ 32 < z < 2 ^ 32 →
  (∃ d, serve_ports env = Some (z, d)) ∧ 0 <= z <= 65535 ∧ z ≠ 58081 ∨
  serve_ports env = None ∧ ¬ (0 <= z <= 65535 ∧ z ≠ 58081).
Proof.
  intros He Hs Hz. unfold serve_ports, port_of, listen_addr, port_setting, get_string.
  rewrite (proj2 (env_value_some _ _ _) (conj He (signed_nonempty s z Hs))).
  destruct (signed_contains s z Hs) as (H1 & H2 & H3). rewrite (split_colon s H1 H2 H3).
  destruct (parse_port_signed s z Hs Hz) as (n & -> & Hn). unfold http_port.
  destruct Hn as [[Hn ->]|[Hn Hz']].
  - rewrite (proj2 (Z.leb_le 0 z)), (proj2 (Z.leb_le z 65535)) by lia. cbn [andb].
    destruct (Z.eqb_spec z 58081); [right; split; [done|lia]|left; eauto].
  - right. split; [|lia]. destruct (Z.leb_spec 0 n), (Z.leb_spec n 65535); cbn [andb]; try done. lia.
Qed.

(** ** Redis addresses *)
Lemma redis_dest env side h p : env ("OM_REDIS_" +:+ side +:+ "_HOST") = Some h → env ("OM_REDIS_" +:+ side +:+ "_PORT") = Some p →
  HostName h → HostName p → dial_tcp (redis_addr env side) = DTcp h p.
Proof.
  intros Hh Hp [Nh Ch] [Np Cp]. unfold redis_addr, get_string.
  rewrite (proj2 (env_value_some env _ h)), (proj2 (env_value_some env _ p)) by done.
  apply dial_tcp_ok; [done| |]; by apply (each_spec _ _ _ host_char_b).
Qed.
Lemma redis_v6 env side h p : env ("OM_REDIS_" +:+ side +:+ "_HOST") = Some h → env ("OM_REDIS_" +:+ side +:+ "_PORT") = Some p →
  V6Like h → HostName p → dial_tcp (redis_addr env side) = DFail.
Proof.
  intros Hh Hp [Ch (a & b & Eab)] [Np Cp]. assert (Nh : h ≠ "") by (subst; by destruct a). unfold redis_addr, get_string.
  rewrite (proj2 (env_value_some env _ h)), (proj2 (env_value_some env _ p)) by done.
  apply (each_spec _ _ _ host_char_b), host_contains in Cp as (P1 & _). apply (each_spec _ _ _ v6_char_b) in Ch.
  unfold dial_tcp, split_host_port. destruct h as [|c h]; [done|].
  change (String c h +:+ ":" +:+ p) with (String c (h +:+ ":" +:+ p)). cbv iota beta.
  assert (Ascii.eqb c "[" = false) as ->.
  { destruct (v6_contains _ Ch) as [E _]. cbn [contains] in E. apply orb_false_iff in E as [E _]. by rewrite Ascii.eqb_sym. }
  change (String c (h +:+ ":" +:+ p)) with (String c h +:+ ":" +:+ p). rewrite (split_last_app (String c h) p P1).
  assert (contains ":" (String c h) = true) as ->; [|done]. rewrite Eab, contains_app, contains_app. cbn [contains].
  change (Ascii.eqb ":" ":") with true. cbn [orb]. by rewrite orb_true_r.
Qed.
Lemma redis_local env env' side : (∀ k, k ∈ ["_HOST"; "_PORT"] → env ("OM_REDIS_" +:+ side +:+ k) = env' ("OM_REDIS_" +:+ side +:+ k)) →
  redis_addr env side = redis_addr env' side.
Proof.
  intros H. unfold redis_addr, get_string, env_value. rewrite (H "_HOST") by left. rewrite (H "_PORT") by (right; left). done.
Qed.
Lemma redis_sides env env' :
  (env "OM_REDIS_READ_HOST" = env' "OM_REDIS_READ_HOST" → env "OM_REDIS_READ_PORT" = env' "OM_REDIS_READ_PORT" →
   read_dest env = read_dest env') ∧
  (env "OM_REDIS_WRITE_HOST" = env' "OM_REDIS_WRITE_HOST" → env "OM_REDIS_WRITE_PORT" = env' "OM_REDIS_WRITE_PORT" →
   write_dest env = write_dest env').
Proof.
  unfold read_dest, write_dest. split; intros H1 H2; f_equal; apply redis_local; intros k Hk;
    apply elem_of_cons in Hk as [->|Hk]; [exact H1| |exact H1|]; apply elem_of_list_singleton in Hk as ->; exact H2.
Qed.

(** ** Settings that are not given *)
Lemma default_waits env :
  (NotGiven env "OM_MMF_TIMEOUT_SECS" → mmf_time env = 500 * 1000000000) ∧
  (NotGiven env "OM_CACHE_IN_WAIT_TIMEOUT_MS" → in_wait env = 1500 * 1000000) ∧
  (NotGiven env "OM_CACHE_OUT_WAIT_TIMEOUT_MS" → out_wait env = 500 * 1000000).
Proof. unfold mmf_time, in_wait, out_wait, get_int, env_value. split_and!; intros [-> | ->]; reflexivity. Qed.
Lemma default_block env : NotGiven env "OM_CACHE_IN_WAIT_TIMEOUT_MS" → redis_block (block_arg env) = Some 1500.
Proof. unfold block_arg, get_string, env_value. intros [-> | ->]; vm_compute; reflexivity. Qed.
Lemma default_ports env : NotGiven env "PORT" → serve_ports env = Some (8080, DTcp "localhost" "8080").
Proof.
  unfold serve_ports, gateway_dest, listen_addr, port_setting, get_string, env_value.
  intros [-> | ->]; vm_compute; reflexivity.
Qed.
Lemma default_redis env :
  (NotGiven env "OM_REDIS_READ_HOST" → NotGiven env "OM_REDIS_READ_PORT" → read_dest env = DTcp "127.0.0.1" "6379") ∧
  (NotGiven env "OM_REDIS_WRITE_HOST" → NotGiven env "OM_REDIS_WRITE_PORT" → write_dest env = DTcp "127.0.0.1" "6379").
Proof.
  unfold read_dest, write_dest, redis_addr, get_string, env_value.
  change ("OM_REDIS_" +:+ "READ" +:+ "_HOST") with "OM_REDIS_READ_HOST". change ("OM_REDIS_" +:+ "READ" +:+ "_PORT") with "OM_REDIS_READ_PORT".
  change ("OM_REDIS_" +:+ "WRITE" +:+ "_HOST") with "OM_REDIS_WRITE_HOST". change ("OM_REDIS_" +:+ "WRITE" +:+ "_PORT") with "OM_REDIS_WRITE_PORT".
  split; intros [-> | ->] [-> | ->]; vm_compute; reflexivity.
Qed.
