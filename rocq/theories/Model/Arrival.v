(** From a handler's request to the cache, with the in-memory store and with the times of all three
    loops: OutgoingReplicationQueue (core/internal/statestore/cache/replicatedticketcache.go:74-127,
    [ostep] of Timing.v), memoryReplicator.SendUpdates (core/internal/statestore/memory/main.go:75-94),
    and reading and applying updates ([vstep] of Visible.v).

    SendUpdates hands each update to GetUpdates over the unbuffered channel replChan
    (memory/main.go:32,88,62). So it waits exactly as long as nobody is in GetUpdates: how long the execution of
    a batch takes is not a parameter here, it follows. (Its own work is taken to need no time.) *)
From Coq Require Import ZArith.
From stdpp Require Import prelude strings gmap relations.
From Verif.Model Require Import GoStrings Types Cache MemRepl Queues Timing Visible.
Local Open Scope Z_scope.

(** [ms_left]: what SendUpdates has not handed over yet of the batch under way; [ms_store]: the
    state of the store. For the statement of properties: [ms_sent], the requests handed over, with
    what became of them. *)
Record mstate := MState {
  ms_out : ostate;
  ms_left : list offered;
  ms_store : mem_state;
  ms_in : vstate;
  ms_sent : list (offered * vitem)
}.
Definition m_init (st : mem_state) (t : instant) : mstate := MState (o_init t) [] st (v_init t) [].
Definition v_now (v : vstate) : instant := is_now (vs_loop v).

Definition o_batch (o : ostate) : list offered :=
  match os_phase o with OCollect _ _ => [] | OSend _ b => b end.

(** [wait]: OM_CACHE_OUT_WAIT_TIMEOUT_MS in nanoseconds; [thr]: OM_CACHE_OUT_MAX_QUEUE_THRESHOLD. *)
Inductive mstep (cfg : config) (wait thr : Z) (p : iparams) (cap : nat) : mstate → mstate → Prop :=
(** A handler offers a request, whatever the loop is doing. *)
| MOffer o o' l st v se :
    ostep (OParams wait thr 0) o o' → os_phase o' = os_phase o → os_now o' = os_now o →
    mstep cfg wait thr p cap (MState o l st v se) (MState o' l st v se)
(** The loop that collects a batch (:86-112); SendUpdates begins (:118). *)
| MCollect s b o o' st v se :
    os_phase o = OCollect s b → ostep (OParams wait thr 0) o o' → os_now o' = os_now o →
    mstep cfg wait thr p cap (MState o [] st v se) (MState o' (o_batch o') st v se)
(** memory/main.go:81-88: SendUpdates hands over an update to GetUpdates. *)
| MHand a b o r l st st' clk u resp v v' x se :
    os_phase o = OSend a b → mem_send1 st (rq_update (of_req r)) clk = (u, resp, st') →
    vstep cfg p cap v v' → vs_all v' = vs_all v ++ [x] → v_upd x = u →
    mstep cfg wait thr p cap (MState o (r :: l) st v se) (MState o l st' v' (se ++ [(r, x)]))
(** All are handed over: SendUpdates returns, the results are handed out (:121-124). *)
| MReturn a b o o' st v se :
    os_phase o = OSend a b → ostep (OParams wait thr 0) o o' → os_now o' = os_now o →
    mstep cfg wait thr p cap (MState o [] st v se) (MState o' [] st v se)
(** Reading and applying updates. *)
| MIn o l st v v' se :
    vstep cfg p cap v v' → vs_all v' = vs_all v → v_now v' = v_now v →
    mstep cfg wait thr p cap (MState o l st v se) (MState o l st v' se)
(** Time passes while the outgoing loop waits for requests, *)
| MWait s b o o' st v v' se :
    os_phase o = OCollect s b → ostep (OParams wait thr 0) o o' →
    vstep cfg p cap v v' → v_now v < v_now v' → os_now o' = v_now v' →
    mstep cfg wait thr p cap (MState o [] st v se) (MState o' [] st v' se)
(** or while SendUpdates waits for the next GetUpdates. *)
| MBlocked n w a b dn al r l out st v v' se :
    vs_reader v = RPut out → vstep cfg p cap v v' → v_now v < v_now v' →
    mstep cfg wait thr p cap (MState (OState n w (OSend a b) dn al) (r :: l) st v se)
      (MState (OState (v_now v') w (OSend a b) dn al) (r :: l) st v' se).
