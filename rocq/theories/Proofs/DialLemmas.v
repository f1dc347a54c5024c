(** Lemmas about Model/Dial.v. *)
From Coq Require Import Ascii String ZArith NArith Lia.
From stdpp Require Import prelude strings.
From Verif.Model Require Import GoStrings Dial.
From Verif.Spec Require Import StringSpec DialSpec.
From Verif.Proofs Require Import StringLemmas.
Local Open Scope string_scope.
Local Open Scope Z_scope.

Definition host_charb (c : ascii) : bool :=
  is_letter c || is_digit c || Ascii.eqb c "-" || Ascii.eqb c "." || Ascii.eqb c "_".
Definition v6_charb (c : ascii) : bool :=
  (let n := N_of_ascii c in (((65 <=? n) && (n <=? 70)) || ((97 <=? n) && (n <=? 102)))%N) ||
  is_digit c || Ascii.eqb c ":".

Lemma host_char_b c : HostChar c → host_charb c = true.
Proof.
  unfold HostChar, between, host_charb, is_letter, is_digit. simpl.
  intros [H|[H|[H|[->|[->| ->]]]]]; try done.
  - rewrite (proj2 (N.leb_le 97 _)), (proj2 (N.leb_le _ 122)) by lia. by rewrite orb_true_r.
  - rewrite (proj2 (N.leb_le 65 _)), (proj2 (N.leb_le _ 90)) by lia. done.
  - rewrite (proj2 (N.leb_le 48 _)), (proj2 (N.leb_le _ 57)) by lia. by rewrite orb_true_r.
Qed.

Lemma v6_char_b c : V6Char c → v6_charb c = true.
Proof.
  unfold V6Char, between, v6_charb, is_digit. simpl.
  intros [H|[H|[H| ->]]]; try done.
  - rewrite (proj2 (N.leb_le 97 _)), (proj2 (N.leb_le _ 102)) by lia. by rewrite orb_true_r.
  - rewrite (proj2 (N.leb_le 65 _)), (proj2 (N.leb_le _ 70)) by lia. done.
  - rewrite (proj2 (N.leb_le 48 _)), (proj2 (N.leb_le _ 57)) by lia. by rewrite orb_true_r.
Qed.

(** Characters, case by case. *)
Lemma host_char_cases c : host_charb c = true →
  Ascii.eqb ":" c = false ∧ Ascii.eqb "[" c = false ∧ Ascii.eqb "]" c = false ∧
  Ascii.eqb c "[" = false ∧ Ascii.eqb c ":" = false.
Proof. destruct c as [[] [] [] [] [] [] [] []]; vm_compute; done. Qed.

Lemma v6_char_cases c : v6_charb c = true →
  Ascii.eqb "[" c = false ∧ Ascii.eqb "]" c = false ∧ Ascii.eqb c "[" = false.
Proof. destruct c as [[] [] [] [] [] [] [] []]; vm_compute; done. Qed.

Lemma digit_host c : is_digit c = true → host_charb c = true.
Proof. destruct c as [[] [] [] [] [] [] [] []]; vm_compute; done. Qed.

Definition is_lower_or_dash (c : ascii) : bool :=
  let n := N_of_ascii c in ((97 <=? n) && (n <=? 122))%N || Ascii.eqb c "-".

Fixpoint each (f : ascii → bool) (s : string) : bool :=
  match s with "" => true | String c s' => f c && each f s' end.

Lemma each_spec (P : ascii → Prop) f s : (∀ c, P c → f c = true) → EachChar P s → each f s = true.
Proof.
  intros Hf. induction s as [|c s IH]; simpl; [done|]. intros [Hc Hs]. by rewrite (Hf c Hc), IH.
Qed.

Lemma each_app f a b : each f (a +:+ b) = each f a && each f b.
Proof.
  induction a as [|c a IH]; [done|]. change (f c && each f (a +:+ b) = f c && each f a && each f b).
  by rewrite IH, andb_assoc.
Qed.

Lemma digits_host s : all_digits s = true → each host_charb s = true.
Proof.
  induction s as [|c s IH]; [done|]. intros H. unfold all_digits in H. simpl in H.
  apply andb_true_iff in H as [Hc Hs]. simpl. by rewrite (digit_host c Hc), IH.
Qed.

Lemma contains_app c a b : contains c (a +:+ b) = contains c a || contains c b.
Proof.
  induction a as [|d a IH]; [done|].
  change (Ascii.eqb c d || contains c (a +:+ b) = Ascii.eqb c d || contains c a || contains c b).
  by rewrite IH, orb_assoc.
Qed.

Lemma host_contains s : each host_charb s = true →
  contains ":" s = false ∧ contains "[" s = false ∧ contains "]" s = false.
Proof.
  induction s as [|c s IH]; [done|]. cbn [each contains]. intros [Hc Hs]%andb_true_iff.
  destruct (host_char_cases c Hc) as (E1 & E2 & E3 & _). rewrite E1, E2, E3. by apply IH.
Qed.

Lemma split_last_none s : contains ":" s = false → split_last s = None.
Proof.
  induction s as [|c s IH]; [done|]. cbn [contains split_last]. intros [Hc Hs]%orb_false_iff. rewrite (IH Hs).
  by rewrite Ascii.eqb_sym, Hc.
Qed.

Lemma split_last_app a b : contains ":" b = false → split_last (a +:+ ":" +:+ b) = Some (a, b).
Proof.
  intros Hb. induction a as [|c a IH].
  - change (match split_last b with Some (x, y) => Some (String ":" x, y)
            | None => if Ascii.eqb ":" ":" then Some ("", b) else None end = Some ("", b)).
    by rewrite split_last_none.
  - change (match split_last (a +:+ ":" +:+ b) with Some (x, y) => Some (String c x, y)
            | None => if Ascii.eqb c ":" then Some ("", a +:+ ":" +:+ b) else None end = Some (String c a, b)).
    by rewrite IH.
Qed.

Lemma dial_tcp_ok h p : h ≠ "" → each host_charb h = true → each host_charb p = true →
  dial_tcp (h +:+ ":" +:+ p) = DTcp h p.
Proof.
  intros Hne Hh Hp. unfold dial_tcp, split_host_port.
  destruct (host_contains h Hh) as (H1 & H2 & H3). destruct (host_contains p Hp) as (P1 & P2 & P3).
  destruct h as [|c h]; [done|].
  assert (Hc : Ascii.eqb c "[" = false).
  { cbn [each] in Hh. apply andb_true_iff in Hh as [Hc _]. destruct (host_char_cases c Hc) as (_ & _ & _ & E & _). exact E. }
  change (String c h +:+ ":" +:+ p) with (String c (h +:+ ":" +:+ p)). cbv iota beta. rewrite Hc.
  change (String c (h +:+ ":" +:+ p)) with (String c h +:+ ":" +:+ p).
  rewrite (split_last_app (String c h) p P1), H1, !contains_app, H2, H3, P2, P3. done.
Qed.

(** The scheme that is found is the whole host, or none is. *)
Lemma get_scheme_host first h p : each host_charb h = true →
  (first = true → h ≠ "") →
  get_scheme first (h +:+ ":" +:+ p) = None ∨ get_scheme first (h +:+ ":" +:+ p) = Some (h, p).
Proof.
  revert first. induction h as [|c h IH]; intros first Hh Hne.
  - destruct first; [by destruct (Hne eq_refl)|]. right. done.
  - cbn [each] in Hh. apply andb_true_iff in Hh as [Hc Hh].
    change (String c h +:+ ":" +:+ p) with (String c (h +:+ ":" +:+ p)). cbn [get_scheme].
    destruct (is_letter c || is_scheme_more c && negb first).
    + destruct (IH false Hh ltac:(done)) as [E|E]; rewrite E; [by left|by right].
    + apply host_char_cases in Hc as (_ & _ & _ & _ & Hc). rewrite Hc. by left.
Qed.

(** If all its characters are those of a scheme name, it is found. *)
Definition scheme_charb (first : bool) (c : ascii) : bool := is_letter c || is_scheme_more c && negb first.
Lemma get_scheme_found h p : each (scheme_charb false) h = true →
  get_scheme false (h +:+ ":" +:+ p) = Some (h, p).
Proof.
  induction h as [|c h IH]; [done|]. cbn [each]. intros [Hc Hh]%andb_true_iff.
  change (String c h +:+ ":" +:+ p) with (String c (h +:+ ":" +:+ p)). cbn [get_scheme].
  unfold scheme_charb in Hc. rewrite Hc. by rewrite (IH Hh).
Qed.

(** A character whose lower case is a lower-case letter is a letter, and so on. *)
Lemma lower_scheme first c d : lower_char c = d → scheme_charb first d = true → scheme_charb first c = true.
Proof. intros <-. destruct first, c as [[] [] [] [] [] [] [] []]; vm_compute; done. Qed.

Lemma lower_each s s' : lower_ascii s = s' → each (scheme_charb false) s' = true →
  each (scheme_charb false) s = true.
Proof.
  revert s'. induction s as [|c s IH]; intros s' <-; [done|]. simpl. intros [Hc Hs]%andb_true_iff.
  by rewrite (lower_scheme false c _ eq_refl Hc), (IH _ eq_refl Hs).
Qed.

Lemma reserved_scheme h p : lower_ascii h ∈ reserved →
  get_scheme true (h +:+ ":" +:+ p) = Some (h, p).
Proof.
  intros Hr. assert (Hs : ∃ d s', lower_ascii h = String d s' ∧ scheme_charb true d = true ∧
    each (scheme_charb false) s' = true).
  { unfold reserved in Hr. repeat (apply elem_of_cons in Hr as [Hr|Hr]; [rewrite Hr; by eexists _, _|]).
    by apply elem_of_nil in Hr. }
  destruct Hs as (d & s' & E & Hd & Hs). destruct h as [|c h]; [done|]. simpl in E.
  injection E as E1 E2.
  change (String c h +:+ ":" +:+ p) with (String c (h +:+ ":" +:+ p)). cbn [get_scheme].
  pose proof (lower_scheme true c d E1 Hd) as Hc. unfold scheme_charb in Hc. rewrite Hc.
  by rewrite (get_scheme_found h p (lower_each h s' E2 Hs)).
Qed.

Lemma port_text p : 0 < p → each host_charb (format_Z p) = true.
Proof.
  intros Hp. rewrite format_Z_nonneg by lia. apply digits_host, format_N_digits.
Qed.

(** Upper and lower case. *)
Lemma lower_char_variant c d : is_lower_or_dash d = true →
  lower_char c = d ↔ c = d ∨ (between "A" "Z" c ∧ N_of_ascii d = (N_of_ascii c + 32)%N).
Proof.
  unfold between, lower_char. simpl (N_of_ascii "A"). simpl (N_of_ascii "Z"). intros Hd.
  destruct (N.leb_spec 65 (N_of_ascii c)); simpl;
    [destruct (N.leb_spec (N_of_ascii c) 90); simpl|].
  - split.
    + intros <-. right. split; [lia|]. rewrite N_ascii_embedding; lia.
    + intros [->|[_ E]].
      * exfalso. clear -Hd H H0. unfold is_lower_or_dash in Hd.
        apply orb_true_iff in Hd as [Hd|Hd].
        -- apply andb_true_iff in Hd as [Hd _]. apply N.leb_le in Hd. lia.
        -- apply Ascii.eqb_eq in Hd. subst. vm_compute in H, H0. lia.
      * rewrite <-E. apply ascii_N_embedding.
  - split; [by left|]. intros [->|[? _]]; [done|lia].
  - split; [by left|]. intros [->|[? _]]; [done|lia].
Qed.

Lemma lower_variant h : ∀ r, each is_lower_or_dash r = true → lower_ascii h = r ↔ CaseVariant h r.
Proof.
  induction h as [|c h IH]; intros [|d r] Hr; cbn [lower_ascii CaseVariant each] in *; try done.
  apply andb_true_iff in Hr as [Hd Hr].
  rewrite <-(lower_char_variant c d Hd), <-(IH r Hr). split.
  - intros E. by injection E.
  - intros [-> ->]. done.
Qed.

Lemma reserved_variant h : lower_ascii h ∈ reserved ↔ Reserved h.
Proof.
  assert (Hl : ∀ r, r ∈ reserved → each is_lower_or_dash r = true).
  { intros r Hr. unfold reserved in Hr. repeat (apply elem_of_cons in Hr as [->|Hr]; [done|]).
    by apply elem_of_nil in Hr. }
  split.
  - intros Hr. exists (lower_ascii h). split; [done|]. by apply lower_variant; [apply Hl|].
  - intros (r & Hr & Hv). apply lower_variant in Hv as ->; [done|by apply Hl].
Qed.

(** No port looks like an address. *)
Lemma dial_tcp_port p : 0 < p → dial_tcp (format_Z p) = DFail.
Proof.
  intros Hp. pose proof (port_text p Hp) as Ht. unfold dial_tcp, split_host_port.
  destruct (format_Z p) as [|c s]; [done|].
  assert (Hc := Ht). cbn [each] in Hc. apply andb_true_iff in Hc as [Hc _].
  apply host_char_cases in Hc as (_ & _ & _ & Hc & _). rewrite Hc.
  apply host_contains in Ht as [Ht _]. by rewrite (split_last_none _ Ht).
Qed.

Lemma dial_host h p : HostName h → 0 < p →
  dial (mmf_target h p) = DTcp h (format_Z p) ↔ ¬ Reserved h.
Proof.
  rewrite <-reserved_variant.
  intros [Hne Hh] Hp. apply (each_spec _ _ _ host_char_b) in Hh.
  unfold mmf_target. rewrite (proj2 (Z.ltb_lt 0 p) Hp).
  pose proof (port_text p Hp) as Ht. pose proof (dial_tcp_ok h _ Hne Hh Ht) as Hok.
  unfold dial. split.
  - intros Hd Hr. rewrite (reserved_scheme h _ Hr) in Hd.
    unfold reserved in Hr.
    repeat (apply elem_of_cons in Hr as [Hr|Hr];
      [rewrite Hr in Hd; simpl in Hd; rewrite ?dial_tcp_port in Hd by done; done|]).
    by apply elem_of_nil in Hr.
  - intros Hr.
    destruct (get_scheme_host true h (format_Z p) Hh ltac:(done)) as [E|E]; rewrite E; [done|].
    destruct (String.eqb_spec (lower_ascii h) "passthrough") as [E1|_]; [rewrite E1 in Hr; set_solver|].
    destruct (String.eqb_spec (lower_ascii h) "dns") as [E1|_]; [rewrite E1 in Hr; set_solver|].
    destruct (String.eqb_spec (lower_ascii h) "unix") as [E1|_]; [rewrite E1 in Hr; set_solver|].
    destruct (String.eqb_spec (lower_ascii h) "unix-abstract") as [E1|_]; [rewrite E1 in Hr; set_solver|].
    done.
Qed.

(** Without a port, the host may contain it. *)
Lemma dial_port_in_host h p q : HostName h → 0 < p → q <= 0 →
  mmf_target (h +:+ ":" +:+ format_Z p) q = mmf_target h p.
Proof.
  intros _ Hp Hq. unfold mmf_target. rewrite (proj2 (Z.ltb_lt 0 p) Hp).
  by rewrite (proj2 (Z.ltb_ge 0 q) Hq).
Qed.

(** Without any, nothing is reached. *)
Lemma dial_no_port h q : HostName h → q <= 0 → dial (mmf_target h q) = DFail.
Proof.
  intros [Hne Hh] Hq. apply (each_spec _ _ _ host_char_b) in Hh.
  unfold mmf_target. rewrite (proj2 (Z.ltb_ge 0 q) Hq).
  assert (E : ∀ first, get_scheme first h = None).
  { clear Hne. induction h as [|c h IH]; intros first; [done|]. simpl in Hh.
    apply andb_true_iff in Hh as [Hc Hh]. cbn [get_scheme]. rewrite (IH Hh).
    apply host_char_cases in Hc as (_ & _ & _ & _ & Hc). rewrite Hc.
    by destruct (is_letter c || _). }
  unfold dial. rewrite E. unfold dial_tcp, split_host_port. destruct h as [|c h]; [done|].
  destruct (host_contains _ Hh) as (H1 & _). rewrite (split_last_none _ H1).
  cbn [each] in Hh. apply andb_true_iff in Hh as [Hc _].
  apply host_char_cases in Hc as (_ & _ & _ & Hc & _). by rewrite Hc.
Qed.

(** Different functions have different targets. *)
Lemma target_inj h h' p p' : HostName h → HostName h' → 0 < p → 0 < p' →
  mmf_target h p = mmf_target h' p' → h = h' ∧ p = p'.
Proof.
  intros [_ Hh] [_ Hh'] Hp Hp' E. unfold mmf_target in E.
  rewrite (proj2 (Z.ltb_lt 0 p) Hp), (proj2 (Z.ltb_lt 0 p') Hp') in E.
  destruct (host_contains _ (port_text p Hp)) as (H1 & _).
  destruct (host_contains _ (port_text p' Hp')) as (H1' & _).
  pose proof (split_last_app h _ H1) as E1. rewrite E in E1. rewrite (split_last_app h' _ H1') in E1.
  injection E1 as E2 E3. split; [done|]. symmetry. apply format_Z_inj_nonneg; [lia|lia|done].
Qed.

(** IPv6 addresses. *)
Lemma v6_contains s : each v6_charb s = true → contains "[" s = false ∧ contains "]" s = false.
Proof.
  induction s as [|c s IH]; [done|]. cbn [each contains]. intros [Hc Hs]%andb_true_iff.
  destruct (v6_char_cases c Hc) as (E1 & E2 & _). rewrite E1, E2. by apply IH.
Qed.

Lemma get_scheme_v6 first h t a b : each v6_charb h = true →
  get_scheme first (h +:+ ":" +:+ t) = Some (a, b) → each v6_charb a = true.
Proof.
  revert first a. induction h as [|c h IH]; intros first a Hh.
  - change ("" +:+ ":" +:+ t) with (String ":" t). cbn [get_scheme]. destruct first; [done|].
    by intros [= <- <-].
  - cbn [each] in Hh. apply andb_true_iff in Hh as [Hc Hh].
    change (String c h +:+ ":" +:+ t) with (String c (h +:+ ":" +:+ t)). cbn [get_scheme].
    destruct (is_letter c || is_scheme_more c && negb first).
    + destruct (get_scheme false (h +:+ ":" +:+ t)) as [[a' b']|] eqn:E; [|done].
      intros [= <- <-]. simpl. by rewrite Hc, (IH false a' Hh E).
    + destruct (Ascii.eqb c ":" && negb first); [|done]. by intros [= <- <-].
Qed.

Lemma lower_v6 c : v6_charb c = true → v6_charb (lower_char c) = true.
Proof. destruct c as [[] [] [] [] [] [] [] []]; vm_compute; done. Qed.

Lemma lower_each_v6 s : each v6_charb s = true → each v6_charb (lower_ascii s) = true.
Proof. induction s as [|c s IH]; [done|]. simpl. intros [Hc Hs]%andb_true_iff. by rewrite (lower_v6 c Hc), IH. Qed.

Lemma dial_v6 h p : V6Like h → 0 < p → dial (mmf_target h p) = DFail.
Proof.
  intros [Hh (x & y & Exy)] Hp. apply (each_spec _ _ _ v6_char_b) in Hh.
  unfold mmf_target. rewrite (proj2 (Z.ltb_lt 0 p) Hp).
  assert (Ht : dial_tcp (h +:+ ":" +:+ format_Z p) = DFail).
  { unfold dial_tcp, split_host_port. destruct h as [|c h]; [by destruct x|].
    change (String c h +:+ ":" +:+ format_Z p) with (String c (h +:+ ":" +:+ format_Z p)). cbv iota beta.
    assert (Hc := Hh). cbn [each] in Hc. apply andb_true_iff in Hc as [Hc _].
    apply v6_char_cases in Hc as (_ & _ & Hc). rewrite Hc.
    change (String c (h +:+ ":" +:+ format_Z p)) with (String c h +:+ ":" +:+ format_Z p).
    destruct (host_contains _ (port_text p Hp)) as (H1 & _).
    rewrite (split_last_app _ _ H1), Exy, !contains_app. simpl (contains ":" ":").
    by rewrite !orb_true_r. }
  unfold dial. destruct (get_scheme true (h +:+ ":" +:+ format_Z p)) as [[a b]|] eqn:E; [|done].
  apply (get_scheme_v6 _ _ _ _ _ Hh), lower_each_v6 in E.
  destruct (String.eqb_spec (lower_ascii a) "passthrough") as [E1|_]; [by rewrite E1 in E|].
  destruct (String.eqb_spec (lower_ascii a) "dns") as [E1|_]; [by rewrite E1 in E|].
  destruct (String.eqb_spec (lower_ascii a) "unix") as [E1|_]; [by rewrite E1 in E|].
  destruct (String.eqb_spec (lower_ascii a) "unix-abstract") as [E1|_]; [by rewrite E1 in E|].
  done.
Qed.

(** ... unless in brackets. *)
Lemma cut_app h r : contains "]" h = false → cut "]" (h +:+ "]" +:+ r) = Some (h, r).
Proof.
  induction h as [|c h IH]; [done|]. cbn [contains]. intros [Hc Hh]%orb_false_iff.
  change (String c h +:+ "]" +:+ r) with (String c (h +:+ "]" +:+ r)). cbn [cut].
  by rewrite Hc, (IH Hh).
Qed.

Lemma dial_v6_brackets h p : V6Like h → 0 < p →
  dial (mmf_target ("[" +:+ h +:+ "]") p) = DTcp h (format_Z p).
Proof.
  intros [Hh _] Hp. apply (each_spec _ _ _ v6_char_b) in Hh.
  unfold mmf_target. rewrite (proj2 (Z.ltb_lt 0 p) Hp).
  destruct (host_contains _ (port_text p Hp)) as (H1 & H2 & H3).
  destruct (v6_contains h Hh) as (V1 & V2).
  change (("[" +:+ h +:+ "]") +:+ ":" +:+ format_Z p) with (String "[" ((h +:+ "]") +:+ ":" +:+ format_Z p)).
  rewrite app_assoc_s. unfold dial. cbn [get_scheme]. simpl (is_letter "[" || _). cbv iota.
  simpl (Ascii.eqb "[" ":" && _). cbv iota.
  unfold dial_tcp, split_host_port. simpl (Ascii.eqb "[" "["). cbv iota.
  rewrite (cut_app h _ V2).
  change (":" +:+ format_Z p) with (String ":" (format_Z p)). cbv iota.
  by rewrite H1, H2, H3, V1.
Qed.

Lemma not_what_is_asked : ¬ DialsWhatIsAsked.
Proof. intros H. specialize (H "unix" 8081 ltac:(done) ltac:(done)). by vm_compute in H. Qed.
