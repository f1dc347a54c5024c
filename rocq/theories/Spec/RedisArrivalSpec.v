(** Vocabulary for C155. *)
From Coq Require Import ZArith.
From stdpp Require Import prelude strings gmap relations.
From Verif.Model Require Import GoStrings Types Cache MemRepl RedisRepl Queues Timing Visible RedisVisible RedisArrival.
From Verif.Spec Require Import TimingSpec RedisVisibleSpec.
Local Open Scope Z_scope.

(** The latest moment at which the update of a request is applied, with [n] before it at the
    instance: when the request is answered (C87); three network times; a round of the loop; the time
    to apply those ahead and itself. *)
Definition redis_in_cache_by (q : oparams) (p : iparams) (net : Z) (o : offered) (n : nat) : instant :=
  answer_by q o + 3 * net + (ip_wait p + ip_cycle p + ip_apply p) + (Z.of_nat n + 1) * ip_apply p.
