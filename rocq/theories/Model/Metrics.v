(** What is recorded in the metrics of om-core: the stats handler of the gRPC server
    (core/server.go:81-143), the histograms of the handlers (core/main.go:316, :350,
    :792) and of the expiration cycle (replicatedticketcache.go:290, :345). (The gauges
    of the cache are in Cache.v, the match counter in Invoke.v, the watch gauge in
    Watch.v.)

    A recorded duration is given in microseconds: the float64 of milliseconds that
    the code computes is this number divided by 1000. Rounding of floats is left out. *)
From Coq Require Import Ascii String ZArith NArith.
From stdpp Require Import prelude strings.
From Verif.Model Require Import GoStrings Types Proto Handlers Gateway.
Local Open Scope string_scope.
Local Open Scope Z_scope.

(** ** filepath.Base (on Unix), server.go:126 *)
Fixpoint drop_while (f : ascii → bool) (l : list ascii) : list ascii :=
  match l with [] => [] | c :: l' => if f c then drop_while f l' else l end.
Fixpoint take_while (f : ascii → bool) (l : list ascii) : list ascii :=
  match l with [] => [] | c :: l' => if f c then c :: take_while f l' else [] end.
Definition is_slash (c : ascii) : bool := Ascii.eqb c "/".

Definition path_base (p : string) : string :=
  if String.eqb p "" then "."
  else match drop_while is_slash (rev (list_ascii_of_string p)) with
       | [] => "/"
       | l => string_of_list_ascii (rev (take_while (λ c, negb (is_slash c)) l))
       end.

(** ** HandleRPC, server.go:107-143 *)

(** What the server reports about a call: its end, or anything else. *)
Inductive rpc_stat :=
| StatEnd (begin_ end_ : instant) (err : option string)
| StatOther.

(** The two metrics: durations by name, errors by name and text. *)
Record rpc_metrics := RpcMetrics { m_durations : list (string * Z); m_errors : list (string * string) }.

(** [tag]: the full method name that TagRPC (:98-100) has put in the context. *)
Definition handle_rpc (tag : option string) (st : rpc_stat) (m : rpc_metrics) : rpc_metrics :=
  match st with
  | StatOther => m
  | StatEnd b e err =>
      let name := match tag with Some t => path_base t | None => "" end in
      RpcMetrics (m_durations m ++ [(name, Z.quot (e - b) 1000)])%list
                 (m_errors m ++ match err with Some x => [(name, x)] | None => [] end)%list
  end.

Fixpoint handle_rpcs (evs : list (option string * rpc_stat)) (m : rpc_metrics) : rpc_metrics :=
  match evs with [] => m | (t, st) :: evs' => handle_rpcs evs' (handle_rpc t st m) end.

(** core/pkg/pb/v2/api_grpc.pb.go:42-49. *)
Definition rpc_name (r : rpc) : string :=
  match r with
  | CreateTicketRpc => "CreateTicket" | DeactivateTicketsRpc => "DeactivateTickets"
  | ActivateTicketsRpc => "ActivateTickets" | InvokeRpc => "InvokeMatchmakingFunctions"
  | CreateAssignmentsRpc => "CreateAssignments" | WatchAssignmentsRpc => "WatchAssignments"
  end.
Definition full_method (r : rpc) : string := "/open_match.v2.OpenMatchService/" +:+ rpc_name r.

(** ** The histograms of the handlers: what one call records, if anything *)

(** main.go:316 / :350; a rejected call returns before. *)
Definition state_calls_recorded (cfg : config) (c : cmd) (ids : list string) : option Z :=
  match set_active_start cfg c ids with
  | Reject _ => None
  | Send _ => Some (Z.of_nat (length (valid_ids ids)))
  end.

(** main.go:792. *)
Definition assignments_recorded (oe : list (string * any)) (req : option roster) : option Z :=
  match create_assignments_start oe req with
  | Reject _ => None
  | Send us => Some (Z.of_nat (length us))
  end.

(** ** The duration of an expiration cycle, replicatedticketcache.go:345: the integer
    of microseconds is divided by the constant 1000.0, which is an integer here. *)
Definition expiration_duration (start now : instant) : Z := 1000 * Z.quot (Z.quot (now - start) 1000) 1000.
