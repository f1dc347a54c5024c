(** Addresses of matchmaking functions. *)
From Coq Require Import Ascii String ZArith NArith.
From stdpp Require Import prelude strings.
From Verif.Model Require Import GoStrings Dial.
Local Open Scope string_scope.
Local Open Scope Z_scope.

(** Every character satisfies [P]. *)
Fixpoint EachChar (P : ascii → Prop) (s : string) : Prop :=
  match s with "" => True | String c s' => P c ∧ EachChar P s' end.

Definition between (a b c : ascii) : Prop := (N_of_ascii a <= N_of_ascii c <= N_of_ascii b)%N.

Definition HostChar (c : ascii) : Prop :=
  between "a" "z" c ∨ between "A" "Z" c ∨ between "0" "9" c ∨ c = "-"%char ∨ c = "."%char ∨ c = "_"%char.

(** A host name or IPv4 address. *)
Definition HostName (h : string) : Prop := h ≠ "" ∧ EachChar HostChar h.

(** The characters of an IPv6 address. *)
Definition V6Char (c : ascii) : Prop :=
  between "a" "f" c ∨ between "A" "F" c ∨ between "0" "9" c ∨ c = ":"%char.
Definition V6Like (h : string) : Prop := EachChar V6Char h ∧ ∃ a b, h = a +:+ ":" +:+ b.

(** Names that grpc-go takes for the scheme of a URL. *)
Definition reserved : list string := ["passthrough"; "dns"; "unix"; "unix-abstract"].

(** [h] is [r], possibly with some letters in upper case. *)
Fixpoint CaseVariant (h r : string) : Prop :=
  match h, r with
  | "", "" => True
  | String c h', String d r' =>
      (c = d ∨ (between "A" "Z" c ∧ N_of_ascii d = (N_of_ascii c + 32)%N)) ∧ CaseVariant h' r'
  | _, _ => False
  end.
Definition Reserved (h : string) : Prop := ∃ r, r ∈ reserved ∧ CaseVariant h r.

(** A function is looked for at the host and port of its specification. *)
Definition DialsWhatIsAsked : Prop := ∀ h p, h ≠ "" → 0 < p →
  dial (mmf_target h p) = DTcp h (format_Z p).
