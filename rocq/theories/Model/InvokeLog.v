(** What om-core logs about an invocation before it calls functions, core/main.go:376-443.

    Simplification: entries are level, field profile_name and text; one Range sees one state
    (Snapshot.v has Ranges in detail). *)
From Coq Require Import Ascii String ZArith.
From stdpp Require Import prelude strings gmap.
From Verif.Model Require Import GoStrings Types Filter Cache Chunk Logging FinalLog.
Local Open Scope string_scope.

Record entry := Entry { en_level : level; en_profile : string; en_text : string }.

(** logrus: an entry is written if its level is at most that of the logger (logger.go
    IsLevelEnabled; Panic is 0, Trace is 6). *)
Definition number (l : level) : nat :=
  match l with LPanic => 0 | LFatal => 1 | LError => 2 | LWarn => 3 | LInfo => 4 | LDebug => 5 | LTrace => 6 end.
Definition written (lv : level) (l : list entry) : list entry := filter (λ e, number (en_level e) <= number lv)%nat l.

(** %5d *)
Fixpoint spaces (n : nat) : string := match n with O => "" | S n' => String " " (spaces n') end.
Definition pad5 (s : string) : string := spaces (5 - String.length s) +:+ s.

(** :395-396 *)
Definition counts_text (active unassigned : nat) : string :=
  " " +:+ pad5 (dec active) +:+ " tickets active, " +:+ pad5 (dec unassigned) +:+ " tickets inactive without assignment".
(** :393, setDifference of the inactive set, read in [c'], and the assignments, read before in
    [c]. *)
Definition unassigned (c c' : cache) : nat := length (filter (λ k, k ∉ dom (c_assign c)) (elements (c_inactive c'))).
(** :397 *)
Definition cache_text (active : nat) : string := "Ticket cache contains " +:+ dec active +:+ " active tickets to filter into pools".
(** :406: Error, not Errorf, so that its arguments are printed one after the other. The texts
    of the errors are in filter.go:39, :43. *)
Definition reason (e : pool_err) : string :=
  "rpc error: code = InvalidArgument desc = .invalid creation time filter " +:+
  match e with BadStart => "start" | BadEnd => "end" end +:+ " value".
Definition invalid_text (e : pool_err) : string := "Unable to fill pool with tickets, invalid: %w" +:+ reason e.
(** :409 *)
Definition pools_text (valid : nat) : string := "Tickets filtered into " +:+ dec valid +:+ " pools".
(** :443 *)
Definition chunks_text (valid chunks : nat) : string := dec valid +:+ " pools split into " +:+ dec chunks +:+ " chunks".

(** :401-408, with the pools in the order of the range. *)
Definition invalid_entries (name : string) (order : list (string * pool)) : list entry :=
  order ≫= λ kv, match validate_pool kv.2 with Some e => [Entry LError name (invalid_text e)] | None => [] end.

(** An invocation with the profile [p]; the snapshot has the tickets [ts], each with the order
    in which the pools are tried. *)
Definition invoke_log (p : profile) (order : list (string * pool)) (ts : list (ticket * list string)) (u : nat) : list entry :=
  [Entry LInfo (pr_name p) (counts_text (length ts) u); Entry LDebug (pr_name p) (cache_text (length ts))] ++
  invalid_entries (pr_name p) order ++
  [Entry LDebug (pr_name p) (pools_text (size (valid_pools p)))] ++
  match build_requests p ts with
  | Done cs => [Entry LDebug (pr_name p) (chunks_text (size (valid_pools p)) (length cs))]
  | Panic => []
  end.
