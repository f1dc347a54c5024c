(** Instances that are stopped, killed and replaced while others go on
    (core/server.go:31-37, :74-76; core/main.go:89-91, :118-135).

    SIGTERM and SIGINT end start: omServer.Stop() (server.go:76; grpc v1.62.1, without
    the option WaitForHandlers) closes the listener and all connections, so that
    every call in flight ends with an error at its client, and does not wait for the
    handlers. The goroutines go on until main returns: the context that SIGINT
    cancels (main.go:90) is passed to the replication queues (main.go:119-120), which
    never look at it. A process can also end at any time without being asked (a
    panic, logger.Fatal, SIGKILL). What it had sent to Redis by then may still be
    executed, as after a broken connection ([Y_break]).

    A new process is a new instance ([Y_join]). *)
From Coq Require Import Ascii String ZArith NArith.
From stdpp Require Import prelude strings gmap relations.
From Verif.Model Require Import GoStrings Types Filter Proto Cache Replica Handlers MemRepl Queues RedisRepl System RedisSystem.
Local Open Scope nat_scope.

(** An instance is serving, has closed its connections, or has ended. [x] is history,
    not code: the instance as it was when its connections were closed. *)
Inductive life := Stopping (x : rinst) | Ended (x : rinst).

(** Instances without an entry in [sd_life] are serving. *)
Record ssys := SSys { sd_sys : rsys; sd_life : gmap nat life }.

Definition ssys0 : ssys := SSys rsys0 ∅.

(** What is left of a process that has ended: the commands on its connection. *)
Definition disconnect (n : nat) (x : rinst) (s : rsys) : rsys :=
  match in_out (rx_inst x) with
  | OStore (RedisCall b cmds rs) =>
      RSys (<[n := finish_send b [] x]> (ry_insts s)) (ry_stream s) (ry_orphans s ++ [(n, cmds)]) (ry_log s) (ry_trims s)
  | _ => s
  end.

(** Processes that have ended do nothing, and those that have closed their
    connections get no new calls. *)
Definition respects (L : gmap nat life) (s s' : rsys) : Prop :=
  (∀ n y, L !! n = Some (Ended y) → ry_insts s' !! n = ry_insts s !! n) ∧
  (∀ n y x x', L !! n = Some (Stopping y) → ry_insts s !! n = Some x → ry_insts s' !! n = Some x' →
     length (in_calls (rx_inst x')) = length (in_calls (rx_inst x))).

Inductive sdstep (cfg : config) : ssys → ssys → Prop :=
| SD_run s s' L :
    ystep cfg s s' → respects L s s' → sdstep cfg (SSys s L) (SSys s' L)
(* server.go:75-76 *)
| SD_stop s L n x :
    ry_insts s !! n = Some x → L !! n = None →
    sdstep cfg (SSys s L) (SSys s (<[n := Stopping x]> L))
(* main returns, main.go:135 *)
| SD_end s L n x y :
    ry_insts s !! n = Some x → L !! n = Some (Stopping y) →
    sdstep cfg (SSys s L) (SSys (disconnect n x s) (<[n := Ended y]> L))
(* the process ends without Stop *)
| SD_kill s L n x :
    ry_insts s !! n = Some x → L !! n = None →
    sdstep cfg (SSys s L) (SSys (disconnect n x s) (<[n := Ended x]> L)).

Definition sdreach (cfg : config) : ssys → Prop := rtc (sdstep cfg) ssys0.

(** The instance as its clients have seen it: until its connections were closed. *)
Definition seen (s : ssys) (n : nat) : option rinst :=
  match sd_life s !! n with
  | None => ry_insts (sd_sys s) !! n
  | Some (Stopping x) | Some (Ended x) => Some x
  end.

(** With the in-memory store a new process starts with an empty store and an empty
    cache (main.go:106-115, memory/main.go:31-38): it is [msys0] of the time it
    starts. *)
Definition restarted (t : instant) : msys := msys0 t.
