(** Notions for the settings about waiting and the network. *)
From Coq Require Import Ascii String ZArith NArith.
From stdpp Require Import prelude strings.
From Verif.Model Require Import GoStrings Types Settings Dial NetSettings.
From Verif.Spec Require Import StringSpec MiscSpec SettingsSpec.
Local Open Scope string_scope.
Local Open Scope Z_scope.

(** The units of a duration, in nanoseconds; the micro sign is U+00B5 or U+03BC. *)
Definition duration_units : list (string * Z) :=
  [("ns", 1); ("us", 1000); ("µs", 1000); ("μs", 1000); ("ms", 1000000); ("s", 1000000000); ("m", 60000000000); ("h", 3600000000000)].

(** The setting [k] is the number [z], written in the usual way. *)
Definition IsSetTo (env : environment) (k : string) (z : Z) : Prop :=
  ∃ s, env k = Some s ∧ PlainDecimal s z ∧ FitsInt64 z.

(** Both addresses are those of a server on the local host that was reached: a port
    number other than 0, for which any free port is used. *)
Definition Reaches (p : Z) (d : dest) : Prop :=
  ∃ s, d = DTcp "localhost" s ∧ parse_port s = Some p ∧ p ≠ 0.

(** The setting is not in the environment, or empty there. *)
Definition NotGiven (env : environment) (k : string) : Prop := env k = None ∨ env k = Some "".

(** One part of a duration: digits, perhaps with a point and more digits, and a unit.
    [frac]: see [duration_part]. *)
Inductive DurationPart (frac : string → N → N) : string → N → Prop :=
| DPart_whole ds n u k : HasValue ds n → (u, Z.of_N k) ∈ duration_units →
    DurationPart frac (ds +:+ u) (n * k)
| DPart_point ds n u k : HasValue ds n → (u, Z.of_N k) ∈ duration_units →
    DurationPart frac (ds +:+ "." +:+ u) (n * k)
| DPart_frac ds n fs u k : HasValue ds n → AllDigits fs → fs ≠ "" → (u, Z.of_N k) ∈ duration_units →
    DurationPart frac (ds +:+ "." +:+ fs +:+ u) (n * k + frac fs k)
| DPart_only_frac fs u k : AllDigits fs → fs ≠ "" → (u, Z.of_N k) ∈ duration_units →
    DurationPart frac ("." +:+ fs +:+ u) (frac fs k).
Inductive DurationParts (frac : string → N → N) : string → N → Prop :=
| DParts_one p v : DurationPart frac p v → DurationParts frac p v
| DParts_cons p v s w : DurationPart frac p v → DurationParts frac s w → DurationParts frac (p +:+ s) (v + w).

(** A duration with its sign. A zero needs no unit. *)
Definition DurationText (frac : string → N → N) (s : string) (z : Z) : Prop :=
  ∃ t n, (t = "0" ∧ n = 0%N ∨ DurationParts frac t n) ∧
    ((s = t ∨ s = "+" +:+ t) ∧ z = Z.of_N n ∨ s = "-" +:+ t ∧ z = - Z.of_N n).

(** Whether a setting is understood with its own units; if not, "ns" is put behind it. *)
Definition HasUnitLetter (s : string) : Prop := ∃ c, c ∈ list_ascii_of_string s ∧ c ∈ ["n"; "s"; "u"; "m"; "h"]%char.
Definition WithUnit (s t : string) : Prop :=
  HasUnitLetter s ∧ t = s ∨ ¬ HasUnitLetter s ∧ t = s +:+ "ns".
