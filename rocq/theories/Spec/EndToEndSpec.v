(** From clients' calls to what matchmaking functions receive: the pieces of the
    system (Model/System.v, Model/RedisSystem.v), of the snapshot
    (Model/Snapshot.v) and of the requests (Model/Chunk.v) put together. *)
From Coq Require Import Ascii String ZArith NArith.
From stdpp Require Import prelude strings gmap.
From Verif.Model Require Import GoStrings Types Filter Wire Proto Cache Replica Handlers Snapshot Chunk System.
From Verif.Spec Require Import HandlerSpec ChunkSpec SystemSpec.

(** [cl] is a CreateTicket call for [req] at the time [now], with a request that
    protobuf allows. *)
Definition CreateCall (cfg : config) (cl : call) (now : instant) (req : ticket) : Prop :=
  SaneNow now ∧ ClientTicketOk req ∧
  ∃ o v, orders_ok (prepare_ticket (cfg_ticket_ttl cfg) now req) o ∧
         create_ticket (cfg_ticket_ttl cfg) now o (Some req) = Send [Update CmdTicket "" v] ∧
         (slen v < 2 ^ 64)%N ∧ Creates cl v.

(** All tickets were created by requests that protobuf allows. *)
Definition ValidCreates {S} (cfg : config) (x : inst S) : Prop :=
  ∀ cl v, cl ∈ in_calls x → Creates cl v → ∃ now req, CreateCall cfg cl now req.

(** A snapshot of the active tickets taken by an instance while it goes from [x1]
    to [x2] (main.go:391). *)
Definition SnapshotBetween {S} (cfg : config) (x1 x2 : inst S) (ts : list ticket) : Prop :=
  ∃ es sn, in_events x2 = (in_events x1 ++ es)%list ∧
    snapshot_ok (in_cache x1) (hev_ops cfg (in_cache x1) es) sn ∧
    ts = active_tickets (in_cache x1) (hev_ops cfg (in_cache x1) es) sn.

(** What a matchmaking function that uses GetChunkedRequest gets for profile [p],
    when the snapshot was [ts]: the pools are visited in some order, both when
    the requests are built and when they are put together again. *)
Definition FunctionGets (p : profile) (ts : list ticket) (got : profile) : Prop :=
  ∃ tsn cs rcs, tsn.*1 = ts ∧ NamesFit p tsn ∧ build_requests p tsn = Done cs ∧
    rcs.*1 = cs ∧ pool_orders_fit rcs ∧ get_chunked_request rcs = Done (Received got).

(** The tickets in a pool of a profile a function has received. *)
Definition PoolTickets (got : profile) (n : string) : list ticket :=
  match pr_pools got !! n with
  | Some q => match po_participants q with Some r => ro_tickets r | None => [] end
  | None => []
  end.

(** Few enough tickets for the chunk counter (an int32). *)
Definition CountFits (p : profile) (ts : list ticket) : Prop :=
  (1 + Z.of_nat (length ts) * Z.of_nat (base.size (pr_pools p)) < 2 ^ 31)%Z.

(** The same for every instance of a group. *)
From Verif.Model Require Import RedisSystem.
Definition AllValidCreates (cfg : config) (s : rsys) : Prop :=
  ∀ n x, ry_insts s !! n = Some x → ValidCreates cfg (rx_inst x).
