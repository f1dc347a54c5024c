(** C135: the debug pages are for the machine itself. *)
From Coq Require Import Ascii String ZArith NArith Lia.
From stdpp Require Import prelude strings.
From Verif.Model Require Import GoStrings Gateway Dial DebugMux.
From Verif.Spec Require Import DebugSpec.
From Verif.Proofs Require Import DebugLemmas.
Local Open Scope string_scope.

(** The claim is false: the metrics listener serves them to everybody. *)
Theorem C135_debug_is_local_refuted : ¬ DebugIsLocal.
Proof. intros H. by specialize (H "2223" "GET" "/debug/pprof/cmdline" PCmdline eq_refl). Qed.
Print Assumptions C135_debug_is_local_refuted.

(** What callers from other machines get, exactly: nothing from 2224, from 2223 what
    everybody on the machine gets from 2224, and from 58081 the gateway. *)
Theorem C135_remote_exactly : ∀ port meth p a,
  http_get core_listeners OtherHost port meth p = a ↔
  a = if String.eqb port "2223" then FromMux (mux_serve meth p)
      else if String.eqb port "58081" then FromGateway (serve meth p) else NoConnection.
Proof. exact remote_exactly. Qed.
Print Assumptions C135_remote_exactly.
Theorem C135_local_exactly : ∀ port meth p a,
  http_get core_listeners SameHost port meth p = a ↔
  a = if String.eqb port "2223" || String.eqb port "2224" then FromMux (mux_serve meth p)
      else if String.eqb port "58081" then FromGateway (serve meth p) else NoConnection.
Proof. exact local_exactly. Qed.
Print Assumptions C135_local_exactly.

(** Which requests get a page, exactly, with any method and any path. *)
Theorem C135_served_exactly : ∀ meth p h,
  mux_serve meth p = Serves h ↔ PageAt p h ∧ (meth = "CONNECT" ∨ Canonical p).
Proof. exact serves_iff. Qed.
Print Assumptions C135_served_exactly.
Theorem C135_remote_partial : ∀ port meth p h,
  http_get core_listeners OtherHost port meth p = FromMux (Serves h) ↔
  port = "2223" ∧ PageAt p h ∧ (meth = "CONNECT" ∨ Canonical p).
Proof. exact remote_debug. Qed.
Print Assumptions C135_remote_partial.

(** A request is sent elsewhere in exactly these cases, to a canonical path, and only
    once. *)
Theorem C135_moved : ∀ meth p q, meth ≠ "CONNECT" → mux_serve meth p = Moved q ↔
  p ≠ "*" ∧ ((clean_path p = "/debug/pprof" ∧ q = "/debug/pprof/") ∨
             (clean_path p ≠ "/debug/pprof" ∧ clean_path p ≠ p ∧ q = clean_path p)).
Proof. exact moved_iff. Qed.
Print Assumptions C135_moved.
Theorem C135_refused : ∀ meth p, mux_serve meth p = Refused ↔ p = "*".
Proof. exact refused_iff. Qed.
Print Assumptions C135_refused.
Theorem C135_moved_once : ∀ meth p q q', mux_serve meth p = Moved q → mux_serve meth q ≠ Moved q'.
Proof. exact moved_once. Qed.
Print Assumptions C135_moved_once.
(** Cleaning: a path is left alone iff it is canonical. *)
Theorem C135_clean_iff : ∀ p, clean_path p = p ↔ Canonical p.
Proof. intros p. split; [intros <-; apply clean_canonical|apply canonical_clean]. Qed.
Print Assumptions C135_clean_iff.

(** Other paths: an empty element and a dot are left out, two dots take back the element
    before, at the root nothing; at the end no slash is left. With C135_clean_iff these
    rules determine [clean_path] on every path that begins with a slash. *)
Theorem C135_clean_skip : ∀ a w b, w = "" ∨ w = "." → Forall NoSlash a → Forall NoSlash b → b ≠ [] →
  clean_path (PathOf (a ++ w :: b)) = clean_path (PathOf (a ++ b)).
Proof. exact clean_skip. Qed.
Print Assumptions C135_clean_skip.
Theorem C135_clean_dots : ∀ a x b, Forall NoSlash a → GoodSeg x → Forall NoSlash b → b ≠ [] →
  clean_path (PathOf (a ++ x :: ".." :: b)) = clean_path (PathOf (a ++ b)).
Proof. exact clean_dots. Qed.
Print Assumptions C135_clean_dots.
Theorem C135_clean_root : ∀ b, Forall NoSlash b → b ≠ [] → clean_path (PathOf (".." :: b)) = clean_path (PathOf b).
Proof. exact clean_root_dots. Qed.
Print Assumptions C135_clean_root.
Theorem C135_clean_end : ∀ a, Forall GoodSeg a → a ≠ [] →
  clean_path (PathOf (a ++ ["."])) = PathOf a ∧ ∀ x, GoodSeg x → clean_path (PathOf (a ++ [x; ".."])) = PathOf a.
Proof. exact clean_end. Qed.
Print Assumptions C135_clean_end.

Example C135_example :
  mux_serve "GET" "/debug/pprof/heap" = Serves PIndex ∧ mux_serve "GET" "/debug/pprof" = Moved "/debug/pprof/" ∧
  mux_serve "GET" "//debug/./x/../pprof" = Moved "/debug/pprof/" ∧ mux_serve "GET" "/metrics/" = Missing ∧
  mux_serve "CONNECT" "/debug/pprof//heap" = Serves PIndex ∧ mux_serve "GET" "/debug/pprof//heap" = Moved "/debug/pprof/heap" ∧
  mux_serve "OPTIONS" "*" = Refused ∧
  http_get core_listeners OtherHost "2224" "GET" "/debug/pprof/heap" = NoConnection ∧
  http_get core_listeners OtherHost "58081" "GET" "/debug/pprof/heap" = FromGateway NotFound ∧
  http_get core_listeners OtherHost "2223" "GET" "/debug/pprof/heap" = FromMux (Serves PIndex).
Proof. vm_compute. repeat split. Qed.
