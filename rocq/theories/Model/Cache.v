(** Model of the replicated ticket cache,
    core/internal/statestore/cache/replicatedticketcache.go: applying updates
    (:171-218) and expiration (:268-343). Both run in one goroutine, which is the
    only writer of the three maps; other goroutines only read. Every change is a
    sequence of atomic operations on the sync.Maps, which is what concurrent
    readers can observe. *)
From Coq Require Import Ascii String ZArith NArith.
From stdpp Require Import prelude strings gmap.
From Verif.Model Require Import GoStrings Types Proto.
Local Open Scope string_scope.
Local Open Scope Z_scope.

(** replicatedticketcache.go:52-56. *)
Record cache := Cache {
  c_tickets : gmap string ticket;
  c_inactive : gset string;
  c_assign : gmap string assignment
}.

Definition empty_cache : cache := Cache ∅ ∅ ∅.

(** ** Atomic sync.Map operations *)
Inductive mapop :=
| TStore (k : string) (t : ticket)
| TDelete (k : string)
| IStore (k : string)
| IDelete (k : string)
| AStore (k : string) (a : assignment)
| ADelete (k : string).
Global Instance mapop_eq_dec : EqDecision mapop.
Proof. solve_decision. Defined.

Definition apply_op (c : cache) (o : mapop) : cache :=
  match o with
  | TStore k t => Cache (<[k := t]> (c_tickets c)) (c_inactive c) (c_assign c)
  | TDelete k => Cache (delete k (c_tickets c)) (c_inactive c) (c_assign c)
  | IStore k => Cache (c_tickets c) ({[k]} ∪ c_inactive c) (c_assign c)
  | IDelete k => Cache (c_tickets c) (c_inactive c ∖ {[k]}) (c_assign c)
  | AStore k a => Cache (c_tickets c) (c_inactive c) (<[k := a]> (c_assign c))
  | ADelete k => Cache (c_tickets c) (c_inactive c) (delete k (c_assign c))
  end.

Definition apply_ops (c : cache) (os : list mapop) : cache := foldl apply_op c os.

(** ** Applying one replication update, :174-218 *)

(** :189-197, the ticket as it is stored. *)
Definition stored_ticket (key value : string) : ticket :=
  let t := unmarshal_ticket value in Ticket key (tk_exp t) (tk_attrs t) (tk_ext t).

Definition update_ops (u : update) : list mapop :=
  match u_cmd u with
  | CmdTicket => [IStore (u_key u); TStore (u_key u) (stored_ticket (u_key u) (u_value u))]
  | CmdActivate => [IDelete (u_key u)]
  | CmdDeactivate => [IStore (u_key u)]
  | CmdAssign => [AStore (u_key u) (unmarshal_assignment (u_value u))]
  | CmdOther => []
  end.

Definition apply_update (c : cache) (u : update) : cache := apply_ops c (update_ops u).
Definition apply_updates (c : cache) (us : list update) : cache := foldl apply_update c us.

(** ** Expiration *)

(** A visit of a Range callback: the key and the clock reading made for it. *)
Definition visit := (string * instant)%type.

(** :299 / :332, [age now id > limit]. *)
Definition id_due (limit : Z) (now : instant) (id : string) : bool :=
  limit <? unix_secs now - id_time id.

(** :317. *)
Definition ticket_due (now : instant) (t : ticket) : bool := as_time (tk_exp t) <? now.

(** :292-312: one callback of the InactiveSet.Range. *)
Definition inactive_visit_ops (ttl : Z) (v : visit) : list mapop :=
  if id_due ttl v.2 v.1 then [TDelete v.1; IDelete v.1] else [].

(** :315-322. The callback gets the ticket stored under the key. *)
Definition ticket_visit_ops (c : cache) (v : visit) : list mapop :=
  match c_tickets c !! v.1 with
  | Some t => if ticket_due v.2 t then [TDelete v.1] else []
  | None => []
  end.

(** :325-338. *)
Definition assign_visit_ops (limit : Z) (v : visit) : list mapop :=
  if id_due limit v.2 v.1 then [ADelete v.1] else [].

(** The orders in which the three Ranges visit their maps. *)
Record cycle_orders := CycleOrders {
  v_inactive : list visit; v_tickets : list visit; v_assign : list visit
}.

Definition pass1_ops (ttl : Z) (o : cycle_orders) : list mapop :=
  mbind (inactive_visit_ops ttl) (v_inactive o).
Definition pass2_ops (c : cache) (o : cycle_orders) : list mapop :=
  mbind (ticket_visit_ops c) (v_tickets o).
Definition pass3_ops (limit : Z) (o : cycle_orders) : list mapop :=
  mbind (assign_visit_ops limit) (v_assign o).

(** :268-338, all map operations of one expiration cycle in order. *)
Definition cycle_ops (cfg : config) (o : cycle_orders) (c : cache) : list mapop :=
  let ops1 := pass1_ops (cfg_ticket_ttl cfg) o in
  let c1 := apply_ops c ops1 in
  ops1 ++ pass2_ops c1 o ++ pass3_ops (cfg_ticket_ttl cfg + cfg_assign_ttl cfg) o.

Definition cycle (cfg : config) (o : cycle_orders) (c : cache) : cache :=
  apply_ops c (cycle_ops cfg o c).

(** Since nothing else writes the maps, each Range visits every key that is
    present when it starts exactly once. *)
Definition orders_fit (cfg : config) (o : cycle_orders) (c : cache) : Prop :=
  let c1 := apply_ops c (pass1_ops (cfg_ticket_ttl cfg) o) in
  (v_inactive o).*1 ≡ₚ elements (c_inactive c) ∧
  (v_tickets o).*1 ≡ₚ (map_to_list (c_tickets c1)).*1 ∧
  (v_assign o).*1 ≡ₚ (map_to_list (c_assign c)).*1.

(** ** Gauges, :282-288 and :341-343 *)
Record gauges := Gauges { g_tickets : Z; g_inactive : Z; g_assign : Z }.

(** :301-305: in the first pass an inactive ticket that is removed is counted
    if it existed. *)
Fixpoint pass1_existed (ttl : Z) (c : cache) (vs : list visit) : Z :=
  match vs with
  | [] => 0
  | v :: vs' =>
      (if id_due ttl v.2 v.1 && bool_decide (is_Some (c_tickets c !! v.1)) then 1 else 0) +
      pass1_existed ttl (apply_ops c (inactive_visit_ops ttl v)) vs'
  end.

Definition cycle_gauges (cfg : config) (o : cycle_orders) (c : cache) : gauges :=
  Gauges (pass1_existed (cfg_ticket_ttl cfg) c (v_inactive o) + Z.of_nat (length (v_tickets o)))
         (Z.of_nat (length (v_inactive o)))
         (Z.of_nat (length (v_assign o))).

(** core/internal/statestore/cache/metrics.go: the active-tickets gauge. *)
Definition active_gauge (g : gauges) : Z := g_tickets g - g_inactive g.
