(** Numbers in strings, letter case, HTTP routes. *)
From Coq Require Import Ascii String ZArith NArith.
From stdpp Require Import prelude strings.
From Verif.Model Require Import GoStrings Gateway.
From Verif.Spec Require Import StringSpec.
Local Open Scope string_scope.

(** The decimal digit [d]. *)
Definition digit_of (d : N) : string := String (ascii_of_N (48 + d)) "".

(** A non-empty string of decimal digits and its value. *)
Inductive HasValue : string → N → Prop :=
| V_digit d : (d < 10)%N → HasValue (digit_of d) d
| V_snoc s n d : HasValue s n → (d < 10)%N → HasValue (s +:+ digit_of d) (10 * n + d).

(** A decimal integer with an optional sign. *)
Definition SignedDecimal (s : string) (z : Z) : Prop :=
  ∃ ds n, HasValue ds n ∧
    ((s = ds ∨ s = "+" +:+ ds) ∧ z = Z.of_N n ∨ s = "-" +:+ ds ∧ z = (- Z.of_N n)%Z).

(** [c] is [d] or its upper case; [d] is a lower-case ASCII letter. *)
Definition CaseVariant (c d : ascii) : Prop :=
  ∃ k, (k < 26)%N ∧ d = ascii_of_N (97 + k) ∧ (c = d ∨ c = ascii_of_N (65 + k)).

(** [s] is the lower-case ASCII word [w] in any mixture of cases. The Turkish
    dotted capital I and the Kelvin sign count as capital i and k. *)
Inductive Folds : string → string → Prop :=
| F_nil : Folds "" ""
| F_char c d s w : CaseVariant c d → Folds s w → Folds (String c s) (String d w)
| F_dotted s w : Folds s w → Folds (String (ascii_of_N 196) (String (ascii_of_N 176) s)) (String "i" w)
| F_kelvin s w : Folds s w →
    Folds (String (ascii_of_N 226) (String (ascii_of_N 132) (String (ascii_of_N 170) s))) (String "k" w).

(** The route of every call. *)
Definition route (r : rpc) : string * string :=
  match r with
  | CreateTicketRpc => ("POST", "/v2/tickets")
  | DeactivateTicketsRpc => ("DELETE", "/v2/tickets:deactivate")
  | ActivateTicketsRpc => ("POST", "/v2/tickets:activate")
  | InvokeRpc => ("POST", "/v2/matches:fetch")
  | CreateAssignmentsRpc => ("POST", "/v2/assignments:create")
  | WatchAssignmentsRpc => ("POST", "/v2/assignments:watch")
  end.

(** The request asks the gateway to treat it as having another method. *)
Definition MethodOverridden (meth content_type override : string) : Prop :=
  meth = "POST"%string ∧ content_type = "application/x-www-form-urlencoded"%string ∧ override ≠ ""%string.
