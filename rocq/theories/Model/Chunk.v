(** Splitting the pools into chunks, core/main.go:399-472, and putting them
    together again in a matchmaking function, mmf/server/server.go:70-112. *)
From Coq Require Import Ascii String ZArith NArith.
From stdpp Require Import prelude strings gmap.
From Verif.Model Require Import GoStrings Types Wire Proto Filter.
Local Open Scope string_scope.
Local Open Scope Z_scope.

(** Two's-complement wrap to int32. *)
Definition wrap32 (z : Z) : Z := (z + 2 ^ 31) mod 2 ^ 32 - 2 ^ 31.

(** main.go:400-408: the names of the pools whose filters are valid. *)
Definition valid_pools (p : profile) : gmap string pool := filter (λ kv, pool_valid kv.2 = true) (pr_pools p).

(** An order in which ranging over these names visits them. *)
Definition pool_order (p : profile) (ns : list string) : Prop := ns ≡ₚ (map_to_list (valid_pools p)).*1.

(** A chunk's rosters by pool name, main.go:423. *)
Notation rosters := (gmap string (list ticket)).

(** Chunks finished so far, the current chunk, and its accounted size. *)
Record builder := Builder { b_done : list rosters; b_cur : rosters; b_size : Z }.

(** main.go:430-440 for a ticket that passed the filters of pool [name]. *)
Definition add_ticket (size : ticket → Z) (limit empty : Z) (b : builder) (name : string) (t : ticket) : builder :=
  let b := if limit <=? b_size b + size t
           then Builder (b_done b ++ [b_cur b])%list ∅ empty else b in
  Builder (b_done b)
          (<[name := (default [] (b_cur b !! name) ++ [t])%list]> (b_cur b))
          (b_size b + size t).

(** main.go:427-442, the inner loop over the valid pools in the given order. *)
Fixpoint chunk_pools (size : ticket → Z) (limit empty : Z) (p : profile) (t : ticket)
    (names : list string) (b : builder) : outcome builder :=
  match names with
  | [] => Done b
  | n :: names' =>
      match filter_in (pr_pools p !! n) (tk_attrs t) with
      | Panic => Panic
      | Done true => chunk_pools size limit empty p t names' (add_ticket size limit empty b n t)
      | Done false => chunk_pools size limit empty p t names' b
      end
  end.

(** main.go:426-443: each ticket with the order in which the valid pools are
    visited for it. *)
Fixpoint chunk_tickets (size : ticket → Z) (limit empty : Z) (p : profile)
    (ts : list (ticket * list string)) (b : builder) : outcome builder :=
  match ts with
  | [] => Done b
  | (t, names) :: ts' =>
      match chunk_pools size limit empty p t names b with
      | Panic => Panic
      | Done b' => chunk_tickets size limit empty p ts' b'
      end
  end.

Definition chunks_of (size : ticket → Z) (limit empty : Z) (p : profile)
    (ts : list (ticket * list string)) : outcome (list rosters) :=
  match chunk_tickets size limit empty p ts (Builder [] ∅ empty) with
  | Panic => Panic
  | Done b => Done (b_done b ++ [b_cur b])%list
  end.

(** main.go:460-466. *)
Definition chunk_pool (name : string) (ts : list ticket) : pool :=
  Pool "" [] [] [] None (Some (Roster (name +:+ "_roster") None ts ∅)) ∅.

(** main.go:451-472. *)
Definition chunk_request (p : profile) (count : nat) (r : rosters) : chunk :=
  Chunk (Profile (pr_name p) (map_imap (λ n ts, Some (chunk_pool n ts)) r) (pr_ext p)) (wrap32 (Z.of_nat count)).

Definition requests_of (p : profile) (rs : list rosters) : list chunk :=
  map (chunk_request p (length rs)) rs.

(** main.go:416-417. *)
Definition max_pb_size : Z := 4 * 1000 * 1000.
Definition max_int32 : Z := 2 ^ 31 - 1.
Definition empty_chunk_size (p : profile) : Z := chunk_size (Chunk p max_int32).

(** main.go:399-472 all together. *)
Definition build_requests (p : profile) (ts : list (ticket * list string)) : outcome (list chunk) :=
  match chunks_of ticket_size max_pb_size (empty_chunk_size p) p ts with
  | Panic => Panic
  | Done rs => Done (requests_of p rs)
  end.

(** ** mmf/server/server.go:70-112 GetChunkedRequest *)

(** server.go:82-101, one pool of a received chunk. Appending to the roster of a
    pool that arrived without participants panics. *)
Definition merge_pool (pools : gmap string pool) (name : string) (q : pool) : outcome (gmap string pool) :=
  match pools !! name with
  | None => Done (<[name := q]> pools)
  | Some q0 =>
      match po_participants q0 with
      | None => Panic
      | Some r =>
          let more := match po_participants q with Some r' => ro_tickets r' | None => [] end in
          Done (<[name := Pool (po_name q0) (po_tag_filters q0) (po_string_filters q0) (po_double_filters q0)
                               (po_time_filter q0)
                               (Some (Roster (ro_name r) (ro_assignment r) (ro_tickets r ++ more)%list (ro_ext r)))
                               (po_ext q0)]> pools)
      end
  end.

(** All pools of a received chunk, in some order. *)
Fixpoint merge_pools (pools : gmap string pool) (qs : list (string * pool)) : outcome (gmap string pool) :=
  match qs with
  | [] => Done pools
  | (n, q) :: qs' =>
      match merge_pool pools n q with Panic => Panic | Done pools' => merge_pools pools' qs' end
  end.

(** What GetChunkedRequest returns: a profile; the error of Recv (the stream ended
    early); or a nil profile without error when the int32 counter overflows. *)
Inductive received := Received (p : profile) | RecvErr | RecvNil.

(** server.go:75-111. Each chunk comes with the order in which its pools are
    visited; [i] is the loop counter. *)
Fixpoint get_chunked (i : Z) (pools : gmap string pool) (cs : list (chunk * list (string * pool))) : outcome received :=
  if i <? 0 then Done RecvNil
  else match cs with
  | [] => Done RecvErr
  | (c, qs) :: cs' =>
      match merge_pools pools qs with
      | Panic => Panic
      | Done pools' =>
          if ch_num c =? i then Done (Received (Profile (pr_name (ch_profile c)) pools' (pr_ext (ch_profile c))))
          else get_chunked (wrap32 (i + 1)) pools' cs'
      end
  end.
Definition get_chunked_request (cs : list (chunk * list (string * pool))) : outcome received :=
  get_chunked 1 ∅ cs.

(** The visiting orders fit the chunks. *)
Definition pool_orders_fit (cs : list (chunk * list (string * pool))) : Prop :=
  Forall (λ c, c.2 ≡ₚ map_to_list (pr_pools (ch_profile c.1))) cs.
