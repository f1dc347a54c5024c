(** Vocabulary for C153. *)
From Coq Require Import ZArith.
From stdpp Require Import prelude strings gmap relations.
From Verif.Model Require Import GoStrings Types Cache MemRepl Queues Timing Visible RedisVisible.
Local Open Scope Z_scope.

(** The latest moment at which an update is applied: the answer under way, the next question and its answer;
    then a round (waiting, an expiration cycle, a look at the empty channel) and the time it
    takes to apply those ahead and itself. *)
Definition redis_visible_by (p : iparams) (net : Z) (x : vitem) : instant :=
  v_at x + 3 * net + (ip_wait p + ip_cycle p + ip_apply p) + (Z.of_nat (v_ahead x) + 1) * ip_apply p.
Definition on_the_way_redis (s : wstate) : list vitem := ws_chan s ++ q_items (ws_reader s) ++ ws_stream s.
(** The same for any number of updates ahead: for each OM_CACHE_IN_MAX_UPDATES_PER_POLL of them another
    question with its answer, and rounds of the loop. *)
Definition redis_visible_by_any (p : iparams) (net : Z) (cap : nat) (x : vitem) : instant :=
  let round := ip_wait p + ip_cycle p + ip_apply p in let polls := Z.of_nat (v_ahead x / cap) in
  v_at x + net + 2 * round + (polls + 1) * (2 * net + 2 * round) + polls * round + (Z.of_nat (v_ahead x) + 1) * ip_apply p.
