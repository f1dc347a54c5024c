(** Where integer literals are read: settings and ids. *)
From Coq Require Import Ascii String ZArith NArith Lia.
From stdpp Require Import prelude strings.
From Verif.Model Require Import GoStrings Types ParseBase0 Settings.
From Verif.Spec Require Import IdTimeSpec.
From Verif.Proofs Require Import StringLemmas WatchLemmas IdTimeLemmas LiteralLemmas SettingsLemmas.
Local Open Scope string_scope.
Local Open Scope N_scope.

(** ** Characters *)
Definition lacks (d : ascii) (s : string) : Prop := d ∉ list_ascii_of_string s.
Lemma lacks_app d s t : lacks d (s +:+ t) ↔ lacks d s ∧ lacks d t.
Proof. unfold lacks. rewrite SettingsLemmas.list_ascii_app, elem_of_app. tauto. Qed.
Lemma lacks_cons d c s : lacks d (String c s) ↔ d ≠ c ∧ lacks d s.
Proof. unfold lacks. cbn [list_ascii_of_string]. by rewrite not_elem_of_cons. Qed.
Lemma lacks_nil d : lacks d "".
Proof. apply not_elem_of_nil. Qed.
Lemma digit_not d c v : v < 16 → DigitVal c v → digit_any d = None → d ≠ c.
Proof. intros Hv Hd H ->. destruct (digit_any_val c v Hd Hv) as (E & _). congruence. Qed.
Lemma digits_lack d b s n : b <= 16 → Digits b s n → digit_any d = None → d ≠ "_"%char → lacks d s.
Proof.
  intros Hb H Hd Hu. induction H as [c v Hv Hc|s n c v _ IH Hv Hc|s n c v _ IH Hv Hc];
    rewrite ?lacks_app, ?lacks_cons; repeat split; try done; try apply lacks_nil;
    apply (digit_not d c v); try done; lia.
Qed.
Lemma literal_lacks d s n : GoLiteral s n → digit_any d = None → d ≠ "_"%char → lacks d s.
Proof.
  intros H Hd Hu.
  assert (∀ c v, digit_any c = Some v → d ≠ c) as Hne by (intros c v E ->; congruence).
  destruct H as [|s n H _|u s n H Hm|pre b u s n Hp H Hm].
  - rewrite lacks_cons. split; [by apply (Hne "0"%char 0)|apply lacks_nil].
  - by apply (digits_lack d 10 s n).
  - rewrite !lacks_app. split; [rewrite lacks_cons; split; [by apply (Hne "0"%char 0)|apply lacks_nil]|].
    split; [|apply (digits_lack d 8 s n); [lia|done|done|done]].
    destruct Hm as [-> | ->]; [apply lacks_nil|]. rewrite lacks_cons. split; [done|apply lacks_nil].
  - rewrite !lacks_app. split; [|split].
    + destruct Hp as [[-> [-> | ->]]|[[-> [-> | ->]]|[-> [-> | ->]]]]; rewrite !lacks_cons;
        (split; [by apply (Hne _ 0)|]); (split; [by eapply Hne|apply lacks_nil]).
    + destruct Hm as [-> | ->]; [apply lacks_nil|]. rewrite lacks_cons. split; [done|apply lacks_nil].
    + apply (digits_lack d b s n); [|done|done|done]. destruct Hp as [[-> _]|[[-> _]|[-> _]]]; lia.
Qed.
Lemma integer_no_dot s z : GoInteger s z → lacks "." s.
Proof.
  destruct 1 as [s n H|s n H|s n H]; rewrite ?lacks_app, ?lacks_cons;
    repeat split; try done; try apply lacks_nil; by apply (literal_lacks "." s n).
Qed.

(** ** Settings *)
Lemma repeated_app c n m : repeated c n +:+ repeated c m = repeated c (n + m).
Proof. induction n as [|n IH]; [done|]. exact (f_equal (String c) IH). Qed.
Lemma rev_repeated c n : rev (list_ascii_of_string (repeated c n)) = list_ascii_of_string (repeated c n).
Proof.
  assert (list_ascii_of_string (repeated c n) = replicate n c) as ->.
  { induction n as [|n IH]; [done|]. cbn [repeated list_ascii_of_string]. by rewrite IH. }
  induction n as [|n IH]; [done|]. cbn [replicate rev]. rewrite IH.
  change [c] with (replicate 1 c). rewrite <-replicate_add. by rewrite Nat.add_1_r.
Qed.
Lemma string_of_rev_list l s : rev l = list_ascii_of_string s → l = rev (list_ascii_of_string s).
Proof. intros <-. by rewrite rev_involutive. Qed.

Lemma trim_dots m r : trim_loop false (list_ascii_of_string (repeated "." m) ++ r)%list = trim_loop false r.
Proof. induction m as [|m IH]; [done|]. exact IH. Qed.
Lemma trim_zero_run f n r : (f = true ∨ n ≠ 0%nat) →
  trim_loop f (list_ascii_of_string (repeated "0" n) ++ "."%char :: r)%list = Some r.
Proof.
  revert f. induction n as [|n IH]; intros f H.
  - by destruct H as [-> |H].
  - cbn. apply IH. by left.
Qed.
Lemma trim_fraction i n m : trim_zero_decimal (i +:+ "." +:+ repeated "0" (S n) +:+ repeated "." m) = i.
Proof.
  unfold trim_zero_decimal. rewrite !SettingsLemmas.list_ascii_app, !rev_app_distr, !rev_repeated.
  change (rev (list_ascii_of_string ".")) with ["."%char]. rewrite <-!app_assoc, trim_dots. cbn [app].
  rewrite trim_zero_run by (right; lia). by rewrite rev_involutive, string_of_list_ascii_of_string.
Qed.

Lemma trim_loop_inv r : ∀ f r', trim_loop f r = Some r' → ∃ m n,
  r = (list_ascii_of_string (repeated "." m) ++ list_ascii_of_string (repeated "0" n) ++ "."%char :: r')%list ∧
  (if f then m = 0%nat else (1 <= n)%nat).
Proof.
  induction r as [|c r IH]; intros f r' E; [done|]. cbn [trim_loop] in E.
  destruct (Ascii.eqb_spec c ".") as [-> |Hdot].
  - destruct f; [injection E as ->; by exists 0%nat, 0%nat|].
    destruct (IH false r' E) as (m & n & -> & Hn). exists (S m), n. done.
  - destruct (Ascii.eqb_spec c "0") as [-> |]; [|done].
    destruct (IH true r' E) as (m & n & -> & ->). exists 0%nat, (S n). split; [done|]. destruct f; lia.
Qed.

Lemma trim_cases s : trim_zero_decimal s = s ∨
  ∃ n m, s = trim_zero_decimal s +:+ "." +:+ repeated "0" (S n) +:+ repeated "." m.
Proof.
  unfold trim_zero_decimal. destruct (trim_loop _ _) as [r'|] eqn:E; [|by left]. right.
  apply trim_loop_inv in E as (m & n & E & Hn). destruct n as [|n]; [lia|]. exists n, m.
  rewrite <-(string_of_list_ascii_of_string s) at 1. rewrite <-(rev_involutive (list_ascii_of_string s)), E.
  rewrite !rev_app_distr. cbn [rev]. rewrite !rev_repeated.
  assert (∀ l1 l2, string_of_list_ascii (l1 ++ l2)%list = string_of_list_ascii l1 +:+ string_of_list_ascii l2) as Happ.
  { intros l1 l2. induction l1 as [|c l1 IH]; [done|]. exact (f_equal (String c) IH). }
  rewrite !Happ, !string_of_list_ascii_of_string. cbn [string_of_list_ascii].
  by rewrite !string_app_assoc.
Qed.

Lemma to_int_reads s z : ReadsAs s z → to_int s = z.
Proof.
  intros (i & Hi & Hz & Hs). unfold to_int.
  assert (trim_zero_decimal s = i) as ->.
  { destruct Hs as [-> |(n & m & ->)]; [|apply trim_fraction]. apply trim_no_dot. by apply (integer_no_dot i z). }
  by rewrite (proj2 (parse_int0_literal i z) (conj Hi Hz)).
Qed.
Lemma to_int_unreadable s : (¬ ∃ z, ReadsAs s z) → to_int s = 0%Z.
Proof.
  intros H. unfold to_int. destruct (parse_int0 (trim_zero_decimal s)) as [z| |] eqn:E; [|done|done].
  exfalso. apply H. exists z. apply parse_int0_literal in E as [Hi Hz]. exists (trim_zero_decimal s).
  split; [done|]. split; [done|]. destruct (trim_cases s) as [->|Ht]; [by left|by right].
Qed.
Lemma reads_nonempty s z : ReadsAs s z → s ≠ "".
Proof.
  intros (i & Hi & _ & Hs) ->. destruct Hs as [Hs|(n & m & Hs)]; [|destruct i; discriminate Hs]. subst i.
  remember "" as e eqn:Ee. destruct Hi as [s n H|s n H|s n H]; [|discriminate Ee|discriminate Ee]. subst s.
  apply literal_no_sign in H as (c & s' & H & _). discriminate H.
Qed.
Theorem get_int_reads env k s z d : env k = Some s → ReadsAs s z → get_int env k d = z.
Proof. intros Hk Hr. rewrite (get_int_set env k s d Hk) by (by apply (reads_nonempty s z)). by apply to_int_reads. Qed.
Theorem get_int_unreadable env k s d : env k = Some s → s ≠ "" → (¬ ∃ z, ReadsAs s z) → get_int env k d = 0%Z.
Proof. intros Hk Hs Hr. rewrite (get_int_set env k s d Hk Hs). by apply to_int_unreadable. Qed.

(** ** Ids *)
Lemma before_dash_lacks s k : lacks "-" s → before_dash (s +:+ "-" +:+ k) = s.
Proof.
  intros H. apply before_dash_app. induction s as [|c s IH]; [done|]. apply lacks_cons in H as [Hc H].
  cbn [no_dash]. rewrite IH by done. destruct (Ascii.eqb_spec c "-"); [congruence|done].
Qed.
Theorem watch_reads s z k : GoInteger s z → (∀ q, s ≠ "-" +:+ q) → Nearest z (id_time0 (s +:+ "-" +:+ k)).
Proof.
  intros Hi Hm. unfold id_time0. rewrite before_dash_lacks; [by apply parse_int0_nearest|].
  destruct Hi as [s n H|s n H|s n H].
  - by apply (literal_lacks "-" s n).
  - rewrite lacks_app, lacks_cons. repeat split; [done|apply lacks_nil|by apply (literal_lacks "-" s n)].
  - by destruct (Hm s).
Qed.
Theorem watch_reads_only id : id_time0 id ≠ 0%Z → id_time0 id ≠ (2 ^ 63 - 1)%Z →
  GoInteger (before_dash id) (id_time0 id) ∧ InInt64 (id_time0 id).
Proof.
  intros H0 Hmax. unfold id_time0 in *. destruct (parse_int0 (before_dash id)) as [z| |z] eqn:E; cbn [parse_val] in *.
  - by apply parse_int0_literal.
  - done.
  - exfalso. apply Hmax. assert (∀ s, before_dash s ≠ "" → ∀ q, before_dash s ≠ String "-" q) as Hd.
    { intros [|c s] _ q; [done|]. cbn [before_dash]. destruct (Ascii.eqb_spec c "-"); [done|]. congruence. }
    destruct (before_dash id) as [|c s] eqn:Es; [done|]. cbn [parse_int0] in E.
    destruct (Ascii.eqb_spec c "-") as [-> |Hc].
    { exfalso. apply (Hd id ltac:(by rewrite Es) s). by rewrite Es. }
    assert (∀ un, parse_int_signed (2 ^ 63) false un = PRrange z → z = (2 ^ 63 - 1)%Z) as Hr.
    { intros un Hu. unfold parse_int_signed in Hu. destruct un as [u| |u]; [|done|]; cbn [negb andb] in Hu;
        (destruct (_ <=? _)%Z; [by injection Hu as <-|done]). }
    destruct (Ascii.eqb c "+"); by apply Hr in E.
Qed.
