(** Where om-core looks for a matchmaking function: the target it builds
    (core/main.go:528-531) and hands to grpc.Dial (:547), and how grpc-go v1.62.1
    (clientconn.go parseTargetAndFindResolver) and Go's net/url and net packages
    read it. Modelled for targets made of letters, digits and [.:_-+[]] only: they
    have no path, query, fragment or escapes. *)
From Coq Require Import Ascii String ZArith NArith.
From stdpp Require Import prelude strings.
From Verif.Model Require Import GoStrings.
Local Open Scope string_scope.
Local Open Scope Z_scope.

(** core/main.go:528-531; the port is an int32. *)
Definition mmf_target (host : string) (port : Z) : string :=
  if 0 <? port then host +:+ ":" +:+ format_Z port else host.

(** ** net/url getScheme *)

Definition is_letter (c : ascii) : bool :=
  let n := N_of_ascii c in (((65 <=? n) && (n <=? 90)) || ((97 <=? n) && (n <=? 122)))%N.

Definition is_scheme_more (c : ascii) : bool :=
  is_digit c || Ascii.eqb c "+" || Ascii.eqb c "-" || Ascii.eqb c ".".

(** The scheme and what follows its colon; [None]: no scheme, or an error (after
    both, grpc-go falls back to its default). *)
Fixpoint get_scheme (first : bool) (s : string) : option (string * string) :=
  match s with
  | "" => None
  | String c s' =>
      if is_letter c || (is_scheme_more c && negb first) then
        match get_scheme false s' with Some (a, b) => Some (String c a, b) | None => None end
      else if Ascii.eqb c ":" && negb first then Some ("", s')
      else None
  end.

Fixpoint lower_ascii (s : string) : string :=
  match s with "" => "" | String c s' => String (lower_char c) (lower_ascii s') end.

(** ** net.SplitHostPort *)

Fixpoint contains (c : ascii) (s : string) : bool :=
  match s with "" => false | String d s' => Ascii.eqb c d || contains c s' end.

(** Around the last colon. *)
Fixpoint split_last (s : string) : option (string * string) :=
  match s with
  | "" => None
  | String c s' =>
      match split_last s' with
      | Some (a, b) => Some (String c a, b)
      | None => if Ascii.eqb c ":" then Some ("", s') else None
      end
  end.

(** Around the first [c]. *)
Fixpoint cut (c : ascii) (s : string) : option (string * string) :=
  match s with
  | "" => None
  | String d s' =>
      if Ascii.eqb c d then Some ("", s')
      else match cut c s' with Some (a, b) => Some (String d a, b) | None => None end
  end.

Definition split_host_port (s : string) : option (string * string) :=
  match s with
  | "" => None
  | String c r =>
      if Ascii.eqb c "[" then
        match cut "]" r with
        | Some (h, String d p) =>
            if Ascii.eqb d ":" && negb (contains ":" p) && negb (contains "[" h) &&
               negb (contains "[" p) && negb (contains "]" p)
            then Some (h, p) else None
        | _ => None
        end
      else
        match split_last s with
        | Some (h, p) =>
            if contains ":" h || contains "[" s || contains "]" s then None else Some (h, p)
        | None => None
        end
  end.

(** ** grpc.Dial *)

(** What gets connected to: a TCP address, a Unix socket, a name to be looked up
    in DNS (with the default port), or nothing. *)
Inductive dest := DTcp (host port : string) | DUnix (path : string) | DAbstract (name : string)
  | DDns (name : string) | DFail.

(** The default resolver, passthrough: the dialer gets the endpoint as it is. *)
Definition dial_tcp (e : string) : dest :=
  match split_host_port e with Some (h, p) => DTcp h p | None => DFail end.

(** A target whose scheme has a resolver is left to it, others are passed through. *)
Definition dial (t : string) : dest :=
  match get_scheme true t with
  | None => dial_tcp t
  | Some (sc, rest) =>
      let sc := lower_ascii sc in
      if String.eqb sc "passthrough" then dial_tcp rest
      else if String.eqb sc "dns" then DDns rest
      else if String.eqb sc "unix" then DUnix rest
      else if String.eqb sc "unix-abstract" then DAbstract rest
      else dial_tcp t
  end.
