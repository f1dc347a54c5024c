(** Notions for requests on the wire to a function. *)
From Coq Require Import Ascii String ZArith NArith.
From stdpp Require Import prelude strings gmap.
From Verif.Model Require Import GoStrings Types Wire Proto ProtoMsg Filter Chunk.
From Verif.Spec Require Import ChunkSpec.
Local Open Scope Z_scope.

(** [msgs] are messages as sent for the chunks [cs] (any bytes Go may write), each
    with an order of its chunk's pools. *)
Definition SentAs (cs : list chunk) (msgs : list (string * list (string * pool))) : Prop :=
  Forall2 (λ c m, marshals_chunk c m.1 ∧ m.2 ≡ₚ map_to_list (pr_pools (ch_profile c))) cs msgs.

(** Each message is within gRPC's default limit. *)
Definition AllFit (msgs : list (string * list (string * pool))) : Prop :=
  Forall (λ m, Z.of_nat (String.length m.1) <= grpc_max) msgs.
Global Instance AllFit_dec msgs : Decision (AllFit msgs).
Proof. unfold AllFit. apply _. Defined.

(** What the function should be given: the tickets eligible for each pool of the
    profile, in the order of [ts]. *)
Definition IsServed (p : profile) (ts : list ticket) (got : profile) : Prop :=
  pr_name got = pr_name p ∧ pr_ext got = pr_ext p ∧
  ∀ n, pr_pools got !! n =
    match filter (Eligible p n) ts with
    | [] => None
    | l => Some (Pool "" [] [] [] None (Some (Roster (n +:+ "_roster") None l ∅)) ∅)
    end.
