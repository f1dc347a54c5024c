(** What the goroutine of one matchmaking function logs, core/main.go:520-714. (The goroutines
    of its matches have lines of their own.)

    Simplification: entries are level, the fields mmf_name and mmf_addr if set, and text. *)
From Coq Require Import Ascii String ZArith.
From stdpp Require Import prelude strings.
From Verif.Model Require Import GoStrings Logging Dial InvokeLog.
Local Open Scope string_scope.
Local Open Scope Z_scope.

Record fentry := FEntry { fe_level : level; fe_fn : option (string * string); fe_text : string }.

(** How the call of a function ends: it is of type REST (:532); grpc.Dial fails (:547); client.Run
    fails (:567); the stream breaks (:600) or ends (:596). *)
Inductive fn_end := Rest | NoDial (err : string) | NoRun (err : string) | Broke (err : string) | Complete.

(** :578. %0.2f of a number of bytes divided by 2^20, which is exact: the nearest number of
    hundredths, of two the even one. *)
Definition hundredths (bytes : Z) : Z :=
  let q := bytes * 25 / 2 ^ 18 in
  let r := bytes * 25 mod 2 ^ 18 in
  if r <? 2 ^ 17 then q else if 2 ^ 17 <? r then q + 1 else if Z.even q then q else q + 1.
Definition pad2 (z : Z) : string := if z <? 10 then "0" +:+ format_Z z else format_Z z.
Definition megabytes (bytes : Z) : string := let h := hundredths bytes in format_Z (h / 100) +:+ "." +:+ pad2 (h mod 100).
Definition chunk_text (i n bytes : Z) : string := "MMF request chunk " +:+ pad2 i +:+ "/" +:+ pad2 n +:+ ": " +:+ megabytes bytes +:+ "mb".
Fixpoint chunk_texts (i n : Z) (sizes : list Z) : list string :=
  match sizes with [] => [] | b :: sizes' => chunk_text i n b :: chunk_texts (i + 1) n sizes' end.

(** :536, where err is nil. *)
Definition rest_text (addr : string) : string := "rpc error: code = Internal desc = REST Mmf invocation NYI " +:+ addr +:+ ": %!w(<nil>)".

Definition fn_log (name host : string) (port : Z) (sizes : list Z) (o : fn_end) : list fentry :=
  let addr := mmf_target host port in
  let fn := Some (name, addr) in
  let called := ([FEntry LDebug fn "connected to MMF"; FEntry LDebug fn "waiting for results"] ++
    (FEntry LDebug fn <$> chunk_texts 1 (Z.of_nat (length sizes)) sizes))%list in
  match o with
  | Rest => [FEntry LError None (rest_text addr); FEntry LDebug None "async call to mmf complete"]
  | NoDial e => [FEntry LError fn ("Error connecting to MMF " +:+ e)]
  | NoRun _ => [FEntry LDebug fn "connected to MMF"]
  | Broke _ => (called ++ [FEntry LError fn "MMF Error"])%list
  | Complete => (called ++ [FEntry LDebug fn "MMF stream complete"; FEntry LDebug None "async call to mmf complete"])%list
  end.
Definition fn_written (lv : level) (l : list fentry) : list fentry := filter (λ e, number (fe_level e) <= number lv)%nat l.
