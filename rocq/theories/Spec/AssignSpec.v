(** Assignments, from CreateAssignments calls to the answers of watches. *)
From Coq Require Import Ascii String ZArith NArith.
From stdpp Require Import prelude strings gmap.
From Verif.Model Require Import GoStrings Types Wire Proto Cache Replica Handlers MemRepl System RedisSystem.
From Verif.Spec Require Import SystemSpec.

(** [cl] is a CreateAssignments call whose roster gives [a] to the ticket [k]. *)
Definition AssignCall (cl : call) (a : assignment) (k : string) : Prop :=
  ∃ oe r v, ro_assignment r = Some a ∧ oe ≡ₚ map_to_list (as_ext a) ∧
    marshal_assignment oe a = Some v ∧ (slen v < 2 ^ 64)%N ∧
    create_assignments_start oe (Some r) = Send (cl_ups cl) ∧
    k ≠ ""%string ∧ k ∈ map tk_id (ro_tickets r).

(** All assignments were made by such calls. *)
Definition ValidAssigns {S} (x : inst S) : Prop :=
  ∀ cl u, cl ∈ in_calls x → u ∈ cl_ups cl → u_cmd u = CmdAssign → ∃ a, AssignCall cl a (u_key u).

Definition AllValidAssigns (s : rsys) : Prop :=
  ∀ n x, ry_insts s !! n = Some x → ValidAssigns (rx_inst x).

(** Somebody has asked to give [a] to [k]: at this instance, at any instance. *)
Definition AssignedIn {S} (x : inst S) (k : string) (a : assignment) : Prop :=
  ∃ i cl, in_calls x !! i = Some cl ∧ AssignCall cl a k.
Definition AssignedAt (s : rsys) (k : string) (a : assignment) : Prop :=
  ∃ n x, ry_insts s !! n = Some x ∧ AssignedIn (rx_inst x) k a.

(** All answers of a call say that its updates have been stored. *)
Definition AllGood (cl : call) : Prop := returned cl ∧ Forall Good (cl_got cl).

(** The assignments a server has, as a watch made to it finds them: of the server
    with the in-memory store, of instance [n] of a group. *)
Definition mem_assigns (s : msys) : gmap string assignment := c_assign (in_cache (ms_inst s)).
Definition red_assigns (n : nat) (s : rsys) : gmap string assignment :=
  match ry_insts s !! n with Some x => c_assign (in_cache (rx_inst x)) | None => ∅ end.
