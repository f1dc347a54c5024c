(** Port selection of the standalone function server, mmf/main.go:39-58. *)
From Coq Require Import Ascii String ZArith NArith.
From stdpp Require Import prelude strings.
From Verif.Model Require Import GoStrings Chunk.
Local Open Scope string_scope.
Local Open Scope Z_scope.

(** strconv.Atoi; on 64-bit platforms it accepts what ParseInt(s, 10, 64) accepts
    (only the error texts differ). *)
Definition atoi (s : string) : parse_res Z := parse_int s.

(** mmf/main.go:44-57; [env] is os.LookupEnv("PORT"). *)
Definition mmf_port (env : option string) : Z :=
  wrap32 (match env with
          | None => 8081
          | Some s => match atoi s with PRok v => v | PRsyntax | PRrange _ => 8081 end
          end).
