(** From a handler's request at one instance to the cache of an instance (the same or another one), with Redis and with the times
    of the loops: OutgoingReplicationQueue (core/internal/statestore/cache/replicatedticketcache.go:74-127,
    [ostep] of Timing.v), redisReplicator.SendUpdates (core/internal/statestore/redis/redis.go:101-225),
    and reading and applying updates ([wstep] of RedisVisible.v).

    How long SendUpdates takes is a parameter ([op_send]); when no connection of the pool is left it does not return
    at all (C16). Both instances read one clock here; only durations matter. *)
From Coq Require Import ZArith.
From stdpp Require Import prelude strings gmap relations.
From Verif.Model Require Import GoStrings Types Filter Cache MemRepl RedisRepl Queues Timing Visible RedisVisible Arrival.
Local Open Scope Z_scope.

(** [as_left]: what is left of the batch under way. For the statement of properties: [as_sent], the
    requests taken from it, with the entry in the stream, or nothing. *)
Record astate := AState {
  as_out : ostate;
  as_left : list offered;
  as_in : wstate;
  as_sent : list (offered * option vitem)
}.
Definition a_init (t : instant) : astate := AState (o_init t) [] (w_init t) [].
Definition w_now (w : wstate) : instant := is_now (ws_loop w).

Inductive astep (cfg : config) (q : oparams) (p : iparams) (net : Z) (cap : nat) : astate → astate → Prop :=
(** A handler offers a request. *)
| AOffer o o' l w se :
    ostep q o o' → os_phase o' = os_phase o → os_now o' = os_now o →
    astep cfg q p net cap (AState o l w se) (AState o' l w se)
(** :86-112, :118. *)
| ACollect s b o o' w se :
    os_phase o = OCollect s b → ostep q o o' → os_now o' = os_now o →
    astep cfg q p net cap (AState o [] w se) (AState o' (o_batch o') w se)
(** redis.go:113-177: Redis adds the entry of an update, *)
| AAdd a b o r l i f u w w' x se :
    os_phase o = OSend a b → redis_encode (rq_update (of_req r)) = inr f → redis_decode (Entry i f) = Done u →
    wstep cfg p net cap w w' → ws_all w' = ws_all w ++ [x] → v_upd x = u →
    astep cfg q p net cap (AState o (r :: l) w se) (AState o l w' (se ++ [(r, Some x)]))
(** or the update is refused (:117-166), or lost with the connection or to an error of Redis. *)
| ALose a b o r l w se :
    os_phase o = OSend a b →
    astep cfg q p net cap (AState o (r :: l) w se) (AState o l w (se ++ [(r, None)]))
| AReturn a b o o' w se :
    os_phase o = OSend a b → ostep q o o' → os_now o' = os_now o →
    astep cfg q p net cap (AState o [] w se) (AState o' [] w se)
(** Other instances add entries; reading and applying. *)
| AIn o l w w' se :
    wstep cfg p net cap w w' → w_now w' = w_now w →
    astep cfg q p net cap (AState o l w se) (AState o l w' se)
(** Time passes. *)
| AWait o o' l w w' se :
    ostep q o o' → wstep cfg p net cap w w' → w_now w < w_now w' → os_now o' = w_now w' →
    astep cfg q p net cap (AState o l w se) (AState o' l w' se).
