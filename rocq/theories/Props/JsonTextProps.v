(** Property theorems about reading JSON texts: C137. *)
From Coq Require Import Ascii String ZArith NArith Lia.
From stdpp Require Import prelude.
From Verif.Model Require Import HttpStream JsonText.
From Verif.Spec Require Import HttpSpec JsonTextSpec.
From Verif.Proofs Require Import HttpLemmas JsonTextLemmas.
Local Open Scope N_scope.

(** C137: a body is taken as a request only if it is one JSON text. *)
Definition C137_bodies_are_json : Prop := ∀ t j, read_body t = Body j → JsonText t j.

(** It is false: what comes after the value is not looked at. *)
Theorem C137_bodies_are_json_refuted : ¬ C137_bodies_are_json.
Proof.
  intros H. specialize (H (codes "{} }"%string) (JObj []) eq_refl). apply read_text_iff in H. vm_compute in H. discriminate H.
Qed.
Print Assumptions C137_bodies_are_json_refuted.

(** Exactly: white space, then a value; behind an object, array or string may come
    anything, behind a number or a literal whatever cannot belong to it. *)
Theorem C137_bodies_exactly_partial : ∀ t,
  (read_body t = NoBody ↔ Ws t) ∧
  (∀ j, read_body t = Body j ↔
    ∃ w v rest, t = w ++ v ++ rest ∧ Ws w ∧ JsonValue v j ∧ (∀ x, j = JRaw x → Delimited rest)).
Proof. intros t. split; [exact (read_body_none t)|exact (bodies t)]. Qed.
Print Assumptions C137_bodies_exactly_partial.

Theorem C137_rest_is_ignored : ∀ t j rest, JsonText t j → Closed j → read_body (t ++ rest) = Body j.
Proof. exact body_rest_ignored. Qed.
Print Assumptions C137_rest_is_ignored.

(** Without the Decoder, in the example, a text is accepted exactly if it is a JSON text,
    and with the value it stands for; no text stands for two values. *)
Theorem C137_texts_exactly : ∀ t j, read_text t = Some j ↔ JsonText t j.
Proof. exact read_text_iff. Qed.
Print Assumptions C137_texts_exactly.

Theorem C137_one_value : ∀ t j j', JsonText t j → JsonText t j' → j = j'.
Proof. exact text_unique. Qed.
Print Assumptions C137_one_value.

(** Whatever protojson writes, with or without spaces after commas, and whatever the
    gateway makes of it, is read back as the value it was written for. *)
Theorem C137_read_back : ∀ sp j, RealScalars j →
  read_text (print sp j) = Some j ∧ read_text (sent_text sp j) = Some j.
Proof. exact read_sent. Qed.
Print Assumptions C137_read_back.

(** A line that was cut off is never read as another match. *)
Theorem C137_cut_off : ∀ sp j a b j', RealScalars j → Closed j → sent_text sp j = a ++ b → b ≠ [] → ¬ JsonText a j'.
Proof. exact sent_cut_off. Qed.
Print Assumptions C137_cut_off.

(** Over the whole way of a stream: the example decodes what was sent, match by match. *)
Theorem C137_stream_decodes : ∀ sp js, Forall RealScalars js → Forall (λ j, ¬ PlainSpaceIn j) js →
  ∃ ts, example_reads (stream_of (map (sent_text sp) js)) = ReadAll ts ∧ map read_text ts = map Some js.
Proof. exact example_decodes. Qed.
Print Assumptions C137_stream_decodes.

Definition some_json : json :=
  JObj [([97; 34; 98], JArr [JRaw (codes "-12.50e+3"); JRaw (codes "null"); JStr [10; 0; 60; 0x1f600]]); ([], JObj []); ([99], JArr [])].
Example C137_example :
  read_text (codes " { ""a\""b"" : [ -12.50e+3 , null, ""\n\u0000<\ud83d\ude00"" ],"""":{ },""c"":[
 ] } ") = Some some_json ∧
  read_text (sent_text true some_json) = Some some_json ∧
  read_text (removelast (sent_text true some_json)) = None ∧
  map (λ t, read_text (codes t)) ["01"; "-"; "1."; ".5"; "1e"; "+1"; "nul"; "nulll"; "[1,]"; "{""a"":1,}"; "{a:1}"; "[1 2]"; """\x"""; """\ud83d"""; "1 2"; ""]%string = repeat None 16 ∧
  map (λ t, read_text (codes t)) ["0"; "-0"; "0.10"; "1E5"; "true"]%string =
    map (λ t, Some (JRaw (codes t))) ["0"; "-0"; "0.10"; "1E5"; "true"]%string ∧
  read_body (codes "{""a"":1}{""a"":2}") = Body (JObj [([97], JRaw [49])]) ∧
  read_body (codes " ") = NoBody ∧ read_body (codes "}") = BadBody ∧ read_body (codes "{""a"":1") = BadBody.
Proof. repeat split; vm_compute; reflexivity. Qed.
