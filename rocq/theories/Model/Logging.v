(** core/internal/logging/logging.go. *)
From Coq Require Import Ascii String ZArith NArith.
From stdpp Require Import prelude strings.
From Verif.Model Require Import GoStrings.
Local Open Scope string_scope.

(** logrus levels. *)
Inductive level := LTrace | LDebug | LInfo | LWarn | LError | LFatal | LPanic.
Inductive formatter := FStackdriver | FJson | FText.
Global Instance level_eq_dec : EqDecision level.
Proof. solve_decision. Defined.

(** strings.ToLower, as far as comparing the result with ASCII strings goes: ASCII
    letters; U+0130 (C4 B0), which Go lower-cases to 'i'; and the Kelvin sign
    U+212A (E2 84 AA), which it lower-cases to 'k'. No other character's lower
    case is an ASCII character; those are left alone here. *)
Definition is_byte (n : N) (c : ascii) : bool := (N_of_ascii c =? n)%N.
Fixpoint lower (s : string) : string :=
  match s with
  | "" => ""
  | String c s1 =>
      match s1 with
      | "" => String (lower_char c) ""
      | String d s2 =>
          if is_byte 196 c && is_byte 176 d then String "i" (lower s2)
          else match s2 with
               | "" => String (lower_char c) (lower s1)
               | String e s3 =>
                   if is_byte 226 c && is_byte 132 d && is_byte 170 e then String "k" (lower s3)
                   else String (lower_char c) (lower s1)
               end
      end
  end.

(** logging.go:39-47. *)
Definition new_formatter (f : string) : formatter :=
  let s := lower f in
  if String.eqb s "stackdriver" then FStackdriver
  else if String.eqb s "json" then FJson
  else FText.

(** logging.go:49-67. *)
Definition to_level (l : string) : level :=
  let s := lower l in
  if String.eqb s "trace" then LTrace
  else if String.eqb s "debug" then LDebug
  else if String.eqb s "warn" then LWarn
  else if String.eqb s "warning" then LWarn
  else if String.eqb s "error" then LError
  else if String.eqb s "fatal" then LFatal
  else if String.eqb s "panic" then LPanic
  else LInfo.

(** logging.go:76-85. *)
Definition is_debug (l : level) : bool :=
  match l with LTrace | LDebug => true | _ => false end.

(** logging.go:71-74. *)
Definition is_debug_level (l : string) : bool := is_debug (to_level l).
