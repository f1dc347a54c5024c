(** How om-core connects to a matchmaking function (core/main.go:505-511, :545-568): the
    connection has the time limit of the whole call (MinConnectTimeout, with no backoff),
    and so has the call, which waits for the connection. grpc-go v1.62.1 (clientconn.go
    resetTransport, createTransport) gives the deadline to net.Dialer of Go 1.21.5 (net/dial.go
    DialContext, dialParallel, dialSerial, partialDeadline).

    Simplifications: what happens at the very instant of a deadline is fixed; a listener that
    accepts but does not speak HTTP/2 is a silent address; proxies are left out; the addresses
    of a name are given (they may be known any time after the start). *)
From Coq Require Import ZArith.
From stdpp Require Import prelude.
From Verif.Model Require Import Types.
Local Open Scope Z_scope.

Definition second : Z := 1000000000.
Definition millisecond : Z := 1000000.

(** What an address does with a connection: it accepts or refuses after some time, or says
    nothing. *)
Inductive address := Accepts (d : Z) | Refuses (d : Z) | Silent.

(** partialDeadline; [k] addresses are left. *)
Definition share (left_ : Z) (k : nat) : Z :=
  let t := left_ / Z.of_nat k in
  if t <? 2 * second then if left_ <? 2 * second then left_ else 2 * second else t.

Inductive outcome := Connected (at_ : instant) | Failed (at_ : instant).
Definition time_of (o : outcome) : instant := match o with Connected t | Failed t => t end.

(** dialSingle with the deadline [pd]. *)
Definition dial_single (pd now : instant) (a : address) : outcome :=
  match a with
  | Accepts d => if now + d <? pd then Connected (now + d) else Failed pd
  | Refuses d => if now + d <? pd then Failed (now + d) else Failed pd
  | Silent => Failed pd
  end.

(** dialSerial: one address after the other, until the deadline [dl]. *)
Fixpoint dial_serial (dl now : instant) (l : list address) : outcome :=
  match l with
  | [] => Failed now
  | a :: l' =>
      if dl - now <=? 0 then Failed now
      else match dial_single (now + share (dl - now) (length l)) now a with
           | Connected t => Connected t
           | Failed t => dial_serial dl t l'
           end
  end.

(** dialParallel: the addresses of the other family are tried 300 ms later, or when the first
    family has failed. *)
Definition fallback_delay : Z := 300 * millisecond.
Definition dial_parallel (dl now : instant) (primaries fallbacks : list address) : outcome :=
  match fallbacks with
  | [] => dial_serial dl now primaries
  | _ =>
      let p := dial_serial dl now primaries in
      let start := match p with Failed t => Z.min t (now + fallback_delay) | Connected _ => now + fallback_delay end in
      let f := dial_serial dl start fallbacks in
      match p, f with
      | Connected t, Connected t' => Connected (Z.min t t')
      | Connected t, Failed _ => Connected t
      | Failed _, Connected t' => Connected t'
      | Failed t, Failed t' => Failed (Z.max t t')
      end
  end.

(** DialContext: names with addresses of one kind, or of both. *)
Record dns := Dns { dn_at : instant; dn_first : list address; dn_other : list address }.
(** resetTransport at [start]: the deadline is that of MinConnectTimeout, as the backoff of the
    zero configuration is 0. The names are looked up within it. *)
Definition backoff : Z := 0.
Definition connect (limit start : Z) (n : dns) : outcome :=
  let dl := start + Z.max limit backoff in
  if dl <=? dn_at n then Failed dl else dial_parallel dl (dn_at n) (dn_first n) (dn_other n).

(** main.go:562-568: Run called at [called] with a context of the same limit. It waits for the
    connection and fails with it (calls that do not wait for ready). *)
Inductive call_end := Open (at_ : instant) | NotOpen (at_ : instant).
Definition run_call (limit start called : Z) (n : dns) : call_end :=
  let o := connect limit start n in
  let dl := called + limit in
  if dl <=? called then NotOpen called
  else if dl <=? time_of o then NotOpen dl
  else match o with Connected t => Open (Z.max t called) | Failed t => NotOpen (Z.max t called) end.
(** The time that is left to an open call (the context goes to the function as its
    deadline). *)
Definition time_left (limit called : Z) (e : call_end) : Z :=
  match e with Open t => called + limit - t | NotOpen _ => 0 end.
