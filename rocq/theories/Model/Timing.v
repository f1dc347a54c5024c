(** The two replication loops with their timers,
    core/internal/statestore/cache/replicatedticketcache.go:74-127 and :134-348.

    Instants are readings of one clock. A goroutine is never kept waiting while
    one of the cases of its select is ready, or while its sleep is over: time only
    passes while nothing else can happen, or during work whose longest duration is
    a parameter. (Delays by Go's scheduler can be counted as part of that work.) *)
From Coq Require Import Ascii String ZArith NArith.
From stdpp Require Import prelude strings gmap relations.
From Verif.Model Require Import GoStrings Types Cache MemRepl Queues.
Local Open Scope Z_scope.

(** ** OutgoingReplicationQueue *)

(** [op_wait]: OM_CACHE_OUT_WAIT_TIMEOUT_MS in nanoseconds (:91); [op_thr]:
    OM_CACHE_OUT_MAX_QUEUE_THRESHOLD (:101); [op_send]: the longest time that
    SendUpdates and handing out its results take (:115-125). *)
Record oparams := OParams { op_wait : Z; op_thr : Z; op_send : Z }.

(** A request a handler offers on the unbuffered channel UpRequests; for the
    statement of properties, with the instant at which it does and the number of
    handlers that were already waiting to hand over theirs. *)
Record offered := Offered { of_req : request; of_at : instant; of_ahead : nat }.

(** Collecting a batch since [start] (:86-112), or executing it since [at]. *)
Inductive ophase :=
| OCollect (start : instant) (b : list offered)
| OSend (at_ : instant) (b : list offered).

(** Go's channels serve waiting senders in the order of their arrival. For the
    statement of properties: the answered requests with the instants of their
    answers, and all requests offered so far. *)
Record ostate := OState {
  os_now : instant;
  os_waiting : list offered;
  os_phase : ophase;
  os_done : list (offered * instant);
  os_all : list offered
}.

Definition o_init (t : instant) : ostate := OState t [] (OCollect t []) [] [].

(** :101-105: the batch is executed once it has reached the threshold. *)
Definition o_full (p : oparams) (b : list offered) : bool := op_thr p <=? Z.of_nat (length b).

Inductive ostep (p : oparams) : ostate → ostate → Prop :=
(** A handler offers a request. *)
| OSOffer r n w ph dn al :
    ostep p (OState n w ph dn al)
      (OState n (w ++ [Offered r n (length w)]) ph dn (al ++ [Offered r n (length w)]))
(** :96-105. *)
| OSAccept n o w start b dn al :
    ostep p (OState n (o :: w) (OCollect start b) dn al)
      (OState n w (if o_full p (b ++ [o]) then OSend n (b ++ [o]) else OCollect start (b ++ [o])) dn al)
(** :107-110; :115: an empty batch is not executed, :86-91 start the next. *)
| OSFire n w start b dn al :
    start + op_wait p <= n →
    ostep p (OState n w (OCollect start b) dn al)
      (OState n w (match b with [] => OCollect n [] | _ => OSend n b end) dn al)
(** Nobody is waiting and the timer has not fired. *)
| OSIdle n d start b dn al :
    0 <= d → n + d <= start + op_wait p →
    ostep p (OState n [] (OCollect start b) dn al) (OState (n + d) [] (OCollect start b) dn al)
(** :115-125. *)
| OSWork n d w a b dn al :
    0 <= d → n + d <= a + op_send p →
    ostep p (OState n w (OSend a b) dn al) (OState (n + d) w (OSend a b) dn al)
| OSReturn n w a b dn al :
    ostep p (OState n w (OSend a b) dn al)
      (OState n w (OCollect n []) (dn ++ map (λ o, (o, n)) b) al).

(** The requests taken off the channel that are not answered yet. *)
Definition o_taken (s : ostate) : list offered :=
  match os_phase s with OCollect _ b | OSend _ b => b end.

(** ** IncomingReplicationQueue *)

(** [ip_wait]: OM_CACHE_IN_WAIT_TIMEOUT_MS in nanoseconds (:160); [ip_apply]: the
    longest time of one round of the loop :163-228 (making the timer and applying
    one update); [ip_cycle]: the longest time of one expiration cycle (:268-347). *)
Record iparams := IParams { ip_wait : Z; ip_apply : Z; ip_cycle : Z }.

(** :166, the intended limit of a stretch of updates: 500 ms. *)
Definition lock_limit : Z := 500 * 1000000.

(** [ISleep since]: :160. [IApply since rnd]: the loop :163-228, entered at
    [since], in a round begun at [rnd]; for the statement of properties, with the
    number of updates in the channel when it was entered, of those that arrived
    since, and of those applied since. [ICycle since]: :268-347. *)
Inductive iphase :=
| ISleep (since : instant)
| IApply (since rnd : instant) (had came applied : nat)
| ICycle (since : instant).

(** [is_touched]: for the statement of properties, when an update for the id was
    last applied. *)
Record istate := IState {
  is_now : instant;
  is_chan : list update;
  is_cache : cache;
  is_phase : iphase;
  is_touched : gmap string instant
}.

Definition i_init (t : instant) : istate := IState t [] empty_cache (ISleep t) ∅.

Definition i_came (ph : iphase) : iphase :=
  match ph with IApply s r h c a => IApply s r h (S c) a | ph => ph end.

Inductive istep (cfg : config) (p : iparams) : istate → istate → Prop :=
(** :145-155: the reading goroutine puts an update into the channel. (That it
    waits while the channel is full restricts only when this can happen.) *)
| IArrive u n c ca ph to :
    istep cfg p (IState n c ca ph to) (IState n (c ++ [u]) ca (i_came ph) to)
(** :160. *)
| ISleeping d n c ca s to :
    0 <= d → n + d <= s + ip_wait p →
    istep cfg p (IState n c ca (ISleep s) to) (IState (n + d) c ca (ISleep s) to)
| IWake n c ca s to :
    s + ip_wait p <= n →
    istep cfg p (IState n c ca (ISleep s) to) (IState n c ca (IApply n n (length c) 0 0) to)
(** One round of :163-228 takes time ... *)
| IWork d n c ca s r h m a to :
    0 <= d → n + d <= r + ip_apply p →
    istep cfg p (IState n c ca (IApply s r h m a) to) (IState (n + d) c ca (IApply s r h m a) to)
(** ... and applies an update (:174-218) and begins the next round with a new
    timer, *)
| IUpdate u n c ca s r h m a to :
    istep cfg p (IState n (u :: c) ca (IApply s r h m a) to)
      (IState n c (apply_update ca u) (IApply s n h m (S a)) (<[u_key u := n]> to))
(** or finds that the timer of this round has fired (:219-222), *)
| ITimeout n c ca s r h m a to :
    r + lock_limit <= n →
    istep cfg p (IState n c ca (IApply s r h m a) to) (IState n c ca (ICycle n) to)
(** or finds the channel empty (:223-227). *)
| IEmpty n ca s r h m a to :
    istep cfg p (IState n [] ca (IApply s r h m a) to) (IState n [] ca (ICycle n) to)
(** :268-347. The deletions are made one by one, each no later than the end. *)
| ICycling d n c ca s to :
    0 <= d → n + d <= s + ip_cycle p →
    istep cfg p (IState n c ca (ICycle s) to) (IState (n + d) c ca (ICycle s) to)
| ICycled o n c ca s to :
    orders_fit cfg o ca →
    (∀ v, v ∈ v_inactive o ++ v_tickets o ++ v_assign o → s <= v.2 <= n) →
    istep cfg p (IState n c ca (ICycle s) to) (IState n c (cycle cfg o ca) (ISleep n) to).
