(** What the client of several calls, one after the other, may rely on: the four
    session guarantees (read your writes, monotonic reads, monotonic writes, writes
    follow reads), for a group of instances on one Redis stream and for one with
    the in-memory store. *)
From Coq Require Import Ascii String ZArith NArith.
From stdpp Require Import prelude strings gmap relations.
From Verif.Model Require Import GoStrings Types Cache Replica Handlers MemRepl Queues RedisRepl Snapshot System RedisSystem.
From Verif.Spec Require Import CacheSpec RedisSpec SystemSpec EndToEndSpec AssignSpec StateSpec.

(** Position [p] of the common history is an update of call [i] of instance [n]. *)
Definition WrittenAt (s : rsys) (p n i : nat) : Prop :=
  ∃ e, ry_log s !! p = Some e ∧ le_src e = n ∧ rq_chan (le_req e) = i.

(** The same for one instance with the in-memory store. *)
Definition WrittenAtMem (s : msys) (p i : nat) : Prop :=
  ∃ e, ms_hist s !! p = Some e ∧ rq_chan (sn_req e) = i.

(** All updates of the call have been answered, and none with an error: its client
    is told OK. *)
Definition ToldOk (c : call) : Prop := returned c ∧ Forall (λ r, r_err r = None) (cl_got c).

(** Neither expired nor too old when a cycle looked at it. *)
Definition NotDue {S} (cfg : config) (x : inst S) (k v : string) : Prop :=
  ∀ e, e ∈ hev_visits (in_events x) → ¬ OlderThan (cfg_ticket_ttl cfg) e.2 k ∧ ¬ ExpiredAt e.2 (stored_ticket k v).

(** *** Monotonic writes

    A client that is told OK and then makes another call, at the same instance or
    at another one, has its updates replicated in this order. *)
Definition MonotonicWrites : Prop := ∀ cfg s1 s2 n x i c m j p q,
  yreach cfg s1 → rtc (ystep cfg) s1 s2 →
  ry_insts s1 !! n = Some x → AllSendable x → in_calls (rx_inst x) !! i = Some c → ToldOk c → NotYet s1 m j →
  WrittenAt s2 p n i → WrittenAt s2 q m j → p < q.

(** *** Read your writes

    A client creates a ticket, is told its id, activates it at the same instance,
    and is told that this has been stored. Nobody deactivates the ticket, and it
    has not expired. Then it is in every snapshot that this instance begins to
    take from now on. *)
Definition ReadYourWrites : Prop := ∀ cfg s0 s1 s2 n x0 x1 x2 i ci v r j cj ts,
  yreach cfg s0 → rtc (ystep cfg) s0 s1 → rtc (ystep cfg) s1 s2 → Untrimmed s2 →
  ry_insts s0 !! n = Some x0 → AllSendable x0 → in_calls (rx_inst x0) !! i = Some ci → Creates ci v → AllGood ci → r ∈ cl_got ci →
  NotYet s0 n j →
  ry_insts s1 !! n = Some x1 → AllSendable x1 → in_calls (rx_inst x1) !! j = Some cj → SetsState cj (r_result r) true → AllGood cj →
  (∀ w, Update CmdDeactivate (r_result r) w ∉ history s2) →
  ry_insts s2 !! n = Some x2 → NotDue cfg (rx_inst x2) (r_result r) v →
  SnapshotBetween cfg (rx_inst x1) (rx_inst x2) ts → stored_ticket (r_result r) v ∈ ts.

Definition ReadYourWritesMem : Prop := ∀ cfg t0 s0 s1 s2 i ci v r j cj ts,
  (0 <= t0)%Z → mreach cfg t0 s0 → rtc (mstep cfg) s0 s1 → rtc (mstep cfg) s1 s2 →
  in_calls (ms_inst s0) !! i = Some ci → Creates ci v → returned ci → r ∈ cl_got ci →
  length (in_calls (ms_inst s0)) <= j →
  in_calls (ms_inst s1) !! j = Some cj → SetsState cj (r_result r) true → returned cj →
  (∀ w, Update CmdDeactivate (r_result r) w ∉ map sn_upd (ms_hist s2)) →
  NotDue cfg (ms_inst s2) (r_result r) v →
  SnapshotBetween cfg (ms_inst s1) (ms_inst s2) ts → stored_ticket (r_result r) v ∈ ts.

(** *** Monotonic reads

    A ticket that has been in a snapshot of an instance, and that nobody
    deactivates, is in every later snapshot of this instance, while it has not
    expired. *)
Definition MonotonicSnapshots : Prop := ∀ cfg s1 s2 s3 n x1 x2 x3 ts ts' k v,
  yreach cfg s1 → rtc (ystep cfg) s1 s2 → rtc (ystep cfg) s2 s3 → Untrimmed s3 →
  ry_insts s1 !! n = Some x1 → ry_insts s2 !! n = Some x2 → ry_insts s3 !! n = Some x3 →
  SnapshotBetween cfg (rx_inst x1) (rx_inst x2) ts → stored_ticket k v ∈ ts →
  (∀ w, Update CmdDeactivate k w ∉ history s3) → NotDue cfg (rx_inst x3) k v →
  SnapshotBetween cfg (rx_inst x2) (rx_inst x3) ts' → stored_ticket k v ∈ ts'.

(** A ticket that is in the cache of one instance, and active there, is in the
    later snapshots of the others. *)
Definition MonotonicAcross : Prop := ∀ cfg s1 s2 n m x y1 y2 ts k v,
  yreach cfg s1 → rtc (ystep cfg) s1 s2 → Untrimmed s2 →
  ry_insts s1 !! n = Some x → Active (in_cache (rx_inst x)) k → c_tickets (in_cache (rx_inst x)) !! k = Some (stored_ticket k v) →
  ry_insts s1 !! m = Some y1 → ry_insts s2 !! m = Some y2 →
  (∀ w, Update CmdDeactivate k w ∉ history s2) → NotDue cfg (rx_inst y2) k v →
  SnapshotBetween cfg (rx_inst y1) (rx_inst y2) ts → stored_ticket k v ∈ ts.
