(** Pages for debugging and where they are served. *)
From Coq Require Import Ascii String ZArith NArith.
From stdpp Require Import prelude strings.
From Verif.Model Require Import Gateway DebugMux.
Local Open Scope string_scope.

Definition NoSlash (w : string) : Prop := ∀ a b, w ≠ a +:+ "/" +:+ b.
Definition GoodSeg (w : string) : Prop := w ≠ "" ∧ w ≠ "." ∧ w ≠ ".." ∧ NoSlash w.

(** Elements, each after a slash, none of them empty or a dot or two; perhaps a slash
    at the end. *)
Definition PathOf (segs : list string) : string := foldr (λ w p, "/" +:+ w +:+ p) "" segs.
Definition Canonical (p : string) : Prop :=
  ∃ segs, Forall GoodSeg segs ∧ ((p = PathOf segs ∧ segs ≠ []) ∨ p = PathOf segs +:+ "/").

(** Which page a path names. *)
Definition PageAt (p : string) (h : page) : Prop :=
  match h with
  | PMetrics => p = "/metrics"
  | PCmdline => p = "/debug/pprof/cmdline"
  | PProfile => p = "/debug/pprof/profile"
  | PSymbol => p = "/debug/pprof/symbol"
  | PTrace => p = "/debug/pprof/trace"
  | PIndex => ∃ rest, p = "/debug/pprof/" +:+ rest ∧ rest ∉ ["cmdline"; "profile"; "symbol"; "trace"]
  end.

(** The full claim: only callers on the same machine get debug pages (they are meant
    to be at localhost:2224). *)
Definition DebugIsLocal : Prop := ∀ port meth p h,
  http_get core_listeners OtherHost port meth p = FromMux (Serves h) → h = PMetrics.
