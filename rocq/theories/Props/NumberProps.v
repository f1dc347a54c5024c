(** Property theorems about numbers in JSON: C143 and C144. *)
From Coq Require Import Ascii String ZArith NArith Lia.
From stdpp Require Import prelude strings gmap.
From Verif.Model Require Import GoStrings Types Wire Proto ProtoMsg JsonMsg HttpStream JsonText JsonBytes Calendar JsonNumber.
From Verif.Spec Require Import CalendarSpec JsonSpec HttpSpec JsonTextSpec JsonBytesSpec NumberSpec.
From Verif.Proofs Require Import JsonLemmas JsonBytesLemmas CalendarText CalendarWrite CalendarStamp NumberScan NumberInt NumberRead DoubleRead DoubleWrite NumberClaims.
From Verif.Props Require Import JsonBytesProps.
Local Open Scope string_scope.
Local Open Scope Z_scope.

(** ** C143: whole numbers (the ports of functions) *)

(** Of the numbers of JSON, whatever their form, exactly those are taken that stand for a
    whole number that an int32 can hold, and as that number; but, unless the number is 0, the
    exponent must be an int32, too, and if the digit before the point is 0, it must not be
    above 20. *)
Theorem C143_numbers : ∀ t neg ip ds x m z, NumberText t neg ip ds x → Mantissa ip ds m →
  read_int t = Some z ↔
  IsDecimal z (WithSign neg m) (Places ds x) ∧ Fits32 z ∧ (m = 0 ∨ Fits32 x ∧ (ip = "0" → x <= 20)).
Proof. exact int_number. Qed.
Print Assumptions C143_numbers.

(** Of the texts (the number may be given in quotes) exactly those that begin with such a number
    and do not go on with a letter, a digit or one of + - . _, whatever comes then: only
    white space at the very end is refused. Even the e of an exponent may be left over. *)
Theorem C143_texts : ∀ s z, utf8_valid s = true →
  read_int s = Some z ↔ ¬ EndsInSpace s ∧ ∃ t, (NumberFirst s t ∨ LonelyE s t) ∧ read_int t = Some z.
Proof. exact int_text. Qed.
Print Assumptions C143_texts.

(** What is written is read. *)
Theorem C143_written : ∀ z, Fits32 z → read_int (format_Z z) = Some z.
Proof. exact int_written. Qed.
Print Assumptions C143_written.

Example C143_example :
  (∃ m, NumberText "8.08E+3" false "8" "08" 3 ∧ Mantissa "8" "08" m ∧ read_int "8.08E+3" = Some 8080) ∧
  map read_int ["8080"; "8080.0"; "808000e-2"; "-1"; "-0"; "0.000"; "2147483647"; "-2147483648"; "0e99999999999"; "0.00000000000000000001e20"] =
    [Some 8080; Some 8080; Some 8080; Some (-1); Some 0; Some 0; Some 2147483647; Some (-2147483648); Some 0; Some 1] ∧
  map read_int ["8080.5"; "2147483648"; "-2147483649"; "08080"; "+1"; ".5"; "1."; "0x10"; ""; "0.000000000000000000001e21"; "1e"; "1e+,"] =
    [None; None; None; None; None; None; None; None; None; None; None; None] ∧
  map read_int ["8080,x"; "8080 x"; "8080 "; "1e,"; "8080x"; " 8080"; "80:81"] = [Some 8080; Some 8080; None; Some 1; None; None; Some 80].
Proof.
  split; [|split; [vm_compute; reflexivity|split; vm_compute; reflexivity]].
  assert (Num 2 8 "08") as H8 by (apply num_iff; vm_compute; done). assert (Num 1 3 "3") as H3 by (apply num_iff; vm_compute; done).
  exists 808. split; [|split; [exists 3%nat; apply num_iff; vm_compute; done|vm_compute; reflexivity]].
  exact (NT "" false "8" ".08" "08" "E+3" 3 ltac:(constructor) ltac:(right; split; [exists 0%nat, 8; apply num_iff; vm_compute; done|by intros r [=]])
    (FP_some _ _ _ H8) (ET_plus "E" "+" _ _ _ ltac:(by right) ltac:(by right) H3)).
Qed.

(** ** C144: doubles (attributes of tickets, bounds of filters) *)

(** A number is read as the double that is nearest to it, the even one of two; it is refused
    exactly if it is too big for that. (Exponents may have any size, but together with more
    than 9000 digits only up to 100000.) *)
Theorem C144_numbers : ∀ t neg ip ds x m y, NumberText t neg ip ds x → Mantissa ip ds m →
  Z.abs x < 100000 ∨ (String.length (ip +:+ ds) <= N.to_nat 9000)%nat →
  read_double t = Some y ↔ StandsFor neg m (Places ds x) y.
Proof. exact double_number. Qed.
Print Assumptions C144_numbers.
Theorem C144_texts : ∀ s y, utf8_valid s = true →
  read_double s = Some y ↔ ¬ EndsInSpace s ∧ ∃ t, NumberFirst s t ∧ read_double t = Some y.
Proof. exact double_text. Qed.
Print Assumptions C144_texts.

(** Every finite double is written as a JSON number that is read as exactly that double: with
    as few digits as possible, and of the numbers with as few digits with a nearest one; without
    exponent from 10^-6 up to 10^21, with one otherwise; -0 with its sign. *)
Theorem C144_round_trip : ∀ x z, (x < 2 ^ 64)%N → f64_val x = FFin z → read_double (json_double x) = Some x.
Proof. exact written_read. Qed.
Print Assumptions C144_round_trip.
Theorem C144_written : ∀ x z, (x < 2 ^ 64)%N → f64_val x = FFin z → z ≠ 0 → DoubleText (json_double x) x.
Proof. exact written_text. Qed.
Print Assumptions C144_written.
Theorem C144_zero : ∀ x, (x < 2 ^ 64)%N → f64_val x = FFin 0 → json_double x = (if f64_sign x then "-0" else "0").
Proof. exact written_zero_text. Qed.
Print Assumptions C144_zero.
Theorem C144_json : ∀ x z, f64_val x = FFin z → JsonNumber (codes (json_double x)).
Proof. exact written_json. Qed.
Print Assumptions C144_json.

(** So nothing need be assumed about numbers and times for requests and matches to pass
    unchanged, byte for byte (C138); only the types in extensions are a matter of the caller. *)
Definition TypesWrite (types : string → option embedded) : Prop :=
  ∀ url e v l, types url = Some e → em_write e v = Some l → Writable (JDict l).
Theorem C144_nothing_assumed : ∀ types types' sk sk', Agree (go_codec types sk) (go_codec types' sk') ∧
  (TypesWrite types → WritesJson (go_codec types sk)).
Proof.
  intros types types' sk sk'. split; [exact (library_agrees types types' sk sk' time_round_trip)|].
  intros Ht. split; [exact written_json|]. split; [exact time_utf8|exact Ht].
Qed.
Print Assumptions C144_nothing_assumed.
Theorem C144_requests_as_bytes : ∀ types types' sk sk' eu, TypesWrite types →
  let c := go_codec types sk in let d := go_codec types' sk' in
  (∀ t, AllOpt (AllTicket (kept c d)) t →
    ∃ v, j_create c eu t = Some v ∧ ∀ sp rest, gateway_bytes (r_create d) None (client_bytes sp v +:+ rest) = Some t) ∧
  (∀ r, AllRequest (kept c d) r → AllList PlainType (rq_mmfs r) →
    ∃ v, j_request c eu r = Some v ∧ ∀ sp rest, gateway_bytes (r_request d) (Request None []) (client_bytes sp v +:+ rest) = Some r).
Proof.
  intros types types' sk sk' eu Ht c d. destruct (C144_nothing_assumed types types' sk sk') as [HA HW].
  destruct (C138_requests_as_bytes c d eu HA (HW Ht)) as (H1 & _ & H3 & _). split; [exact H1|exact H3].
Qed.
Print Assumptions C144_requests_as_bytes.

(** 0.1; 1e21; the least; the greatest; -0; and a ticket over HTTP. *)
Definition one_arg (x : f64) : option ticket := Some (Ticket "t" (Some (Timestamp 5 0)) (Some (Filterable [] ∅ {["d" := x]} None)) ∅).
Example C144_example :
  map read_double ["0.1"; "1e21"; "5e-324"; "2e-324"; "1.7976931348623157e308"; "1.7976931348623159e308"; "-0"; "1e400"; "9007199254740993"] =
    [Some 0x3fb999999999999a; Some 0x444b1ae4d6e2ef50; Some 1; Some 0; Some 0x7fefffffffffffff; None; Some 0x8000000000000000; None; Some 0x4340000000000000]%N ∧
  json_double 0x3fb999999999999a%N = "0.1" ∧ json_double 0xc44b1ae4d6e2ef50%N = "-1e+21" ∧ json_double 0x3ea0c6f7a0b5ed8d%N = "5e-7" ∧
  json_double 0x8000000000000000%N = "-0" ∧
  (∃ v, j_create (go_codec types true) false (one_arg 0x40f86a0000000000%N) = Some v ∧
    client_bytes false v = "{""ticket"":{""id"":""t"",""expirationTime"":""1970-01-01T00:00:05Z"",""attributes"":{""doubleArgs"":{""d"":100000}}}}" ∧
    gateway_bytes (r_create (go_codec types true)) None (client_bytes false v) = Some (one_arg 0x40f86a0000000000%N)).
Proof.
  split; [vm_compute; reflexivity|]. split; [vm_compute; reflexivity|]. split; [vm_compute; reflexivity|].
  split; [vm_compute; reflexivity|]. split; [vm_compute; reflexivity|].
  eexists. split; [vm_compute; reflexivity|]. split; vm_compute; reflexivity.
Qed.
