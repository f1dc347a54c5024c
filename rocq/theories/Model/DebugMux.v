(** What the HTTP listeners of om-core answer besides the gateway: the metrics
    (core/metrics.go:85-93) and the debug pages (core/main.go:81-84). Both are given no
    handler, so that they serve http.DefaultServeMux; it has "/metrics"
    (metrics.go:87) and, from the init of net/http/pprof (imported at main.go:45,
    metrics.go:21), five patterns. The gateway has a mux of its own (server.go:57, :68).

    http.ServeMux is that of Go 1.21 (core/go.mod:3). The path of a request is the
    decoded one (URL.Path), as ServeMux uses it. No pattern has a host, and a Host
    header with a slash is refused before, so that hosts do not matter. The moment
    before "/metrics" is registered is left out. *)
From Coq Require Import Ascii String ZArith NArith.
From stdpp Require Import prelude strings.
From Verif.Model Require Import GoStrings Gateway Dial.
Local Open Scope string_scope.

(** ** path.Clean and ServeMux's cleanPath *)

(** For a path that begins with "/": empty and "." elements are left out, ".." takes
    back the one before. *)
Definition resolve1 (acc : list string) (seg : string) : list string :=
  if String.eqb seg "" || String.eqb seg "." then acc
  else if String.eqb seg ".." then removelast acc
  else acc ++ [seg].
Definition resolve (segs : list string) : list string := fold_left resolve1 segs [].

(** Each element after a slash. *)
Fixpoint slashed (segs : list string) : string :=
  match segs with [] => "" | w :: ws => "/" +:+ w +:+ slashed ws end.

Definition path_clean (p : string) : string :=
  match resolve (split_slash p) with [] => "/" | segs => slashed segs end.

Fixpoint ends_slash (p : string) : bool :=
  match p with "" => false | String c "" => Ascii.eqb c "/" | String _ p' => ends_slash p' end.
Definition starts_slash (p : string) : bool :=
  match p with "" => false | String c _ => Ascii.eqb c "/" end.

(** net/http/server.go, cleanPath. *)
Definition clean_path (p : string) : string :=
  if String.eqb p "" then "/"
  else
    let p0 := if starts_slash p then p else "/" +:+ p in
    let np := path_clean p0 in
    if ends_slash p0 && negb (String.eqb np "/") then np +:+ "/" else np.

(** ** DefaultServeMux *)
Inductive page := PIndex | PCmdline | PProfile | PSymbol | PTrace | PMetrics.
Global Instance page_eq_dec : EqDecision page.
Proof. solve_decision. Defined.

Definition default_patterns : list (string * page) :=
  [("/debug/pprof/", PIndex); ("/debug/pprof/cmdline", PCmdline); ("/debug/pprof/profile", PProfile);
   ("/debug/pprof/symbol", PSymbol); ("/debug/pprof/trace", PTrace); ("/metrics", PMetrics)].

Fixpoint find_exact (ps : list (string * page)) (p : string) : option page :=
  match ps with [] => None | (q, h) :: ps' => if String.eqb p q then Some h else find_exact ps' p end.

(** Patterns that end in "/", longest first; here there is one. *)
Fixpoint find_prefix (ps : list (string * page)) (p : string) : option page :=
  match ps with
  | [] => None
  | (q, h) :: ps' => if ends_slash q && String.prefix q p then Some h else find_prefix ps' p
  end.

(** ServeMux.match. *)
Definition mux_match (p : string) : option page :=
  match find_exact default_patterns p with Some h => Some h | None => find_prefix default_patterns p end.

(** shouldRedirectRLocked: the path is not registered, but with a slash it is. *)
Definition slash_missing (p : string) : bool :=
  match find_exact default_patterns p with
  | Some _ => false
  | None => negb (String.eqb p "") && match find_exact default_patterns (p +:+ "/") with Some _ => negb (ends_slash p) | None => false end
  end.

Inductive mux_answer := Serves (h : page) | Moved (path : string) | Missing | Refused.

(** ServeMux.ServeHTTP and ServeMux.Handler. *)
Definition mux_serve (meth p : string) : mux_answer :=
  if String.eqb p "*" then Refused
  else if String.eqb meth "CONNECT" then
    if slash_missing p then Moved (p +:+ "/")
    else match mux_match p with Some h => Serves h | None => Missing end
  else
    let c := clean_path p in
    if slash_missing c then Moved (c +:+ "/")
    else if negb (String.eqb c p) then Moved c
    else match mux_match p with Some h => Serves h | None => Missing end.

(** ** The listeners *)
Inductive serves_what := DefaultMux | GatewayMux.

(** metrics.go:88, main.go:83, server.go:68. *)
Definition core_listeners : list (string * serves_what) :=
  [(":2223", DefaultMux); ("localhost:2224", DefaultMux); (":58081", GatewayMux)].

(** Who can connect: an address without a host is every address of the machine,
    "localhost" is the loopback interface. *)
Inductive caller := SameHost | OtherHost.
Definition can_connect (who : caller) (addr : string) : bool :=
  match who, split_host_port addr with
  | SameHost, Some _ => true
  | OtherHost, Some (h, _) => negb (String.eqb h "localhost")
  | _, None => false
  end.

(** The answer to a request to a port. *)
Inductive http_answer := NoConnection | FromMux (a : mux_answer) | FromGateway (o : outcome_http).
Fixpoint http_get (ls : list (string * serves_what)) (who : caller) (port meth p : string) : http_answer :=
  match ls with
  | [] => NoConnection
  | (addr, w) :: ls' =>
      if match split_host_port addr with Some (_, q) => String.eqb port q | None => false end && can_connect who addr
      then match w with DefaultMux => FromMux (mux_serve meth p) | GatewayMux => FromGateway (serve meth p) end
      else http_get ls' who port meth p
  end.
