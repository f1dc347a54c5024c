(** Property theorems about matches read over HTTP: C98. *)
From Coq Require Import Ascii String ZArith NArith Lia.
From stdpp Require Import prelude.
From Verif.Model Require Import HttpStream.
From Verif.Spec Require Import HttpSpec.
From Verif.Proofs Require Import HttpLemmas.
Local Open Scope N_scope.

(** C98: the example reads every match the gateway streams to it, whatever is in the
    matches and however the gateway was built. *)
Definition C98_reads_every_match : Prop := ∀ sp js, Forall GoodScalars js →
  example_reads (stream_of (map (sent_text sp) js)) = ReadAll (map (sent_text sp) js).

(** "a b" as the id of a match without rosters. *)
Definition match_json (id : text) : json :=
  JObj [([109; 97; 116; 99; 104], JObj [([105; 100], JStr id);
    ([114; 111; 115; 116; 101; 114; 115], JObj []);
    ([101; 120; 116; 101; 110; 115; 105; 111; 110; 115], JObj [])])].
Lemma match_json_good id : GoodScalars (match_json id).
Proof.
  assert (∀ l, Forall (λ kv : text * json, GoodScalars kv.2) l → GoodScalars (JObj l)) as Hobj.
  { intros l Hl t Ht. inversion Ht as [| |k j l' Hj Hr]; subst. rewrite Forall_forall in Hl. exact (Hl (k, j) Hj t Hr). }
  assert (GoodScalars (JStr id)) as Hs by (intros t Ht; inversion Ht).
  apply Hobj. constructor; [|constructor]. apply Hobj. constructor; [exact Hs|].
  constructor; [apply Hobj; constructor|]. constructor; [apply Hobj; constructor|constructor].
Qed.

(** It is false: one space in a value ends the process. *)
Theorem C98_reads_every_match_refuted : ¬ C98_reads_every_match.
Proof.
  intros H. specialize (H false [match_json [97; 32; 98]] ltac:(constructor; [apply match_json_good|constructor])).
  vm_compute in H. discriminate H.
Qed.
Print Assumptions C98_reads_every_match_refuted.

(** The strongest true version: all is read exactly if no string of a match contains
    white space that is not written as an escape sequence. *)
Theorem C98_exactly_without_spaces_partial : ∀ sp js, Forall GoodScalars js →
  example_reads (stream_of (map (sent_text sp) js)) = ReadAll (map (sent_text sp) js) ↔
  Forall (λ j, ¬ PlainSpaceIn j) js.
Proof. exact reads_printed. Qed.
Print Assumptions C98_exactly_without_spaces_partial.

(** What was read before the first space is what was streamed before it. *)
Theorem C98_fatal_at_first_space_partial : ∀ sp js1 j js2, Forall GoodScalars (js1 ++ j :: js2) →
  Forall (λ j, ¬ PlainSpaceIn j) js1 → PlainSpaceIn j →
  example_reads (stream_of (map (sent_text sp) (js1 ++ j :: js2))) = ReadFatal (map (sent_text sp) js1).
Proof. exact reads_printed_fatal. Qed.
Print Assumptions C98_fatal_at_first_space_partial.

(** The spaces protojson puts after commas in some builds do not matter: they are
    removed on the way. *)
Theorem C98_builds_agree : ∀ sp j, GoodScalars j → sent_text sp j = sent_text false j.
Proof. exact sent_text_build. Qed.
Print Assumptions C98_builds_agree.

(** Each line of the stream is the JSON of an object whose one field "result" is the
    match. *)
Theorem C98_lines_are_json : ∀ sp js, Forall GoodScalars js →
  stream_of (map (sent_text sp) js) = concat (map (λ j, sent_text sp (JObj [(codes "result"%string, j)]) ++ [10]) js).
Proof. exact stream_lines. Qed.
Print Assumptions C98_lines_are_json.

Example C98_example :
  example_reads (stream_of [sent_text false (match_json [97]); sent_text true (match_json [10; 34])]) =
    ReadAll [sent_text false (match_json [97]); sent_text true (match_json [10; 34])] ∧
  example_reads (stream_of [sent_text false (match_json [97]); sent_text false (match_json [98; 32; 99]); sent_text false (match_json [97])]) =
    ReadFatal [sent_text false (match_json [97])] ∧
  length (print true (match_json [97])) = 51%nat ∧ length (sent_text true (match_json [97])) = 49%nat ∧
  sent_text false (JStr [60; 97; 0x2028]) = [34; 92; 117; 48; 48; 51; 99; 97; 92; 117; 50; 48; 50; 56; 34] ∧
  result_line (sent_text false (JStr (codes "a"%string))) = codes "{""result"":""a""}"%string.
Proof. vm_compute. auto 10. Qed.
