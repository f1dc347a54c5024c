(** One reader of the Redis replication stream (an om-core instance calling
    GetUpdates, redis.go:232-309) together with any number of writers (instances
    calling SendUpdates, redis.go:101-225). Redis executes commands one at a time,
    so the writers' batches and the reader's polls interleave in some order. (The
    commands of two pipelined batches may interleave too; that is the same as
    smaller batches, except that the XTRIM of one batch can come later.) *)
From Coq Require Import Ascii String ZArith NArith.
From stdpp Require Import prelude strings.
From Verif.Model Require Import GoStrings Types Filter RedisRepl.
Local Open Scope Z_scope.

Inductive rdev :=
| RSend (now : instant) (po : pipe_outcome) (us : list update)
| RPoll (ok : bool).

(** The stream, the reader's cursor (redis.go:37 replId), the updates delivered so
    far, and whether the reader has panicked. *)
Record rstate := RState {
  rs_stream : stream; rs_cursor : sid; rs_out : list update; rs_panicked : bool
}.

(** redis.go:42: the reader starts at "0-0". *)
Definition reader_start (s : stream) : rstate := RState s (0, 0) [] false.

Definition rstep (ttl : Z) (count : nat) (st : rstate) (e : rdev) : rstate :=
  match e with
  | RSend now po us =>
      RState (redis_send ttl now (rs_stream st) po us).1 (rs_cursor st) (rs_out st) (rs_panicked st)
  | RPoll ok =>
      if rs_panicked st then st
      else match redis_get count (rs_stream st) (rs_cursor st) ok with
           | (Done us, c) => RState (rs_stream st) c (rs_out st ++ us) false
           | (Panic, _) => RState (rs_stream st) (rs_cursor st) (rs_out st) true
           end
  end.

Definition rrun (ttl : Z) (count : nat) (st : rstate) (es : list rdev) : rstate :=
  foldl (rstep ttl count) st es.
