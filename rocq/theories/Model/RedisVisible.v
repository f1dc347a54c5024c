(** The way of an update from Redis into the cache of an instance, with its times:
    redisReplicator.GetUpdates (core/internal/statestore/redis/redis.go:232-309: XREAD with COUNT and
    BLOCK), the goroutine that calls it (core/internal/statestore/cache/replicatedticketcache.go:144-155)
    and the loop that applies updates (:158-348, [istep] of Timing.v).

    Redis answers XREAD as soon as there are entries after the last one read, or when the time
    of BLOCK is over. [net] is the longest time it takes Redis to answer when it can, and the
    longest time until the answer has been read. Trimming of the stream (C27) is left out. *)
From Coq Require Import ZArith.
From stdpp Require Import prelude strings gmap relations.
From Verif.Model Require Import GoStrings Types Cache MemRepl Queues Timing Visible.
Local Open Scope Z_scope.

(** XREAD was sent at [since]; its answer was given at [since]; putting updates into replStream
    (:150-152). *)
Inductive qphase := QAsk (since : instant) | QReply (since : instant) (got : list vitem) | QPut (got : list vitem).
Definition q_items (r : qphase) : list vitem := match r with QAsk _ => [] | QReply _ got | QPut got => got end.

(** [ws_stream]: the entries that this instance has not read. [vitem]: here with the moment of
    XADD, by whichever instance, and the number of those ahead of it at this one. *)
Record wstate := WState {
  ws_loop : istate;
  ws_reader : qphase;
  ws_stream : list vitem;
  ws_chan : list vitem;
  ws_done : list (vitem * instant);
  ws_all : list vitem
}.
Definition w_init (t : instant) : wstate := WState (i_init t) (QAsk t) [] [] [] [].

(** Until when the reading goroutine waits. [cap]: OM_CACHE_IN_MAX_UPDATES_PER_POLL, the room in
    the channel and the COUNT of XREAD. *)
Definition q_waits (p : iparams) (net : Z) (cap : nat) (r : qphase) (st : list vitem) (i' : istate) : Prop :=
  match r, st with
  | QAsk since, [] => is_now i' <= since + ip_wait p + net
  | QAsk since, x :: _ => is_now i' <= Z.max since (v_at x) + net
  | QReply since _, _ => is_now i' <= since + net
  | QPut [], _ => False
  | QPut (_ :: _), _ => (cap <= length (is_chan i'))%nat
  end.

Inductive wstep (cfg : config) (p : iparams) (net : Z) (cap : nat) : wstate → wstate → Prop :=
(** An instance adds an entry (redis.go:101-223). *)
| WAdd u i r st ch dn al :
    let x := VItem u (is_now i) (length ch + length (q_items r) + length st) in
    wstep cfg p net cap (WState i r st ch dn al) (WState i r (st ++ [x]) ch dn (al ++ [x]))
(** Redis answers XREAD with the first entries, *)
| WAnswer i since st ch dn al :
    st ≠ [] →
    wstep cfg p net cap (WState i (QAsk since) st ch dn al) (WState i (QReply (is_now i) (take cap st)) (drop cap st) ch dn al)
(** or with nothing. *)
| WNone i since ch dn al :
    since + ip_wait p <= is_now i →
    wstep cfg p net cap (WState i (QAsk since) [] ch dn al) (WState i (QReply (is_now i) []) [] ch dn al)
| WReturn i since got st ch dn al :
    wstep cfg p net cap (WState i (QReply since got) st ch dn al) (WState i (QPut got) st ch dn al)
(** :151 *)
| WPut i i' x got st ch dn al :
    (length ch < cap)%nat → istep cfg p i i' → is_chan i' = is_chan i ++ [v_upd x] → is_now i' = is_now i →
    wstep cfg p net cap (WState i (QPut (x :: got)) st ch dn al) (WState i' (QPut got) st (ch ++ [x]) dn al)
(** :149 *)
| WNext i st ch dn al :
    wstep cfg p net cap (WState i (QPut []) st ch dn al) (WState i (QAsk (is_now i)) st ch dn al)
(** A step of the loop that applies an update, *)
| WApply i i' r st x ch dn al :
    istep cfg p i i' → is_chan i = v_upd x :: is_chan i' →
    wstep cfg p net cap (WState i r st (x :: ch) dn al) (WState i' r st ch (dn ++ [(x, is_now i')]) al)
(** or does not. *)
| WLoop i i' r st ch dn al :
    istep cfg p i i' → is_chan i' = is_chan i → (is_now i < is_now i' → q_waits p net cap r st i') →
    wstep cfg p net cap (WState i r st ch dn al) (WState i' r st ch dn al).
