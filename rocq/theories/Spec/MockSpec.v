(** Notions for the example's players. *)
From Coq Require Import Ascii String ZArith NArith.
From stdpp Require Import prelude strings gmap.
From Verif.Model Require Import GoStrings Types Handlers System RedisSystem MockFrontend.
From Verif.Spec Require Import HandlerSpec SystemSpec EndToEndSpec.

(** The tickets of the mock frontend. *)
Definition MockTicket (req : ticket) : Prop :=
  ∃ t d r, SaneNow t ∧ (d < 2 ^ 64)%N ∧ (0 <= r < 5)%Z ∧ req = mock_ticket t d r.

(** All tickets come from the mock frontend. *)
Definition MockCreates {S} (cfg : config) (x : inst S) : Prop :=
  ∀ cl v, cl ∈ in_calls x → Creates cl v → ∃ now req, MockTicket req ∧ CreateCall cfg cl now req.
Definition AllMockCreates (cfg : config) (s : rsys) : Prop :=
  ∀ n x, ry_insts s !! n = Some x → MockCreates cfg (rx_inst x).

(** The class a player has chosen. *)
Definition ClassOf (t : ticket) (c : string) : Prop :=
  ∃ a, tk_attrs t = Some a ∧ fd_strings a !! "class"%string = Some c.

(** What the request of a player says: no id, no expiration time, the time of creation,
    the time as a tag, the class, and one number under the time. *)
Definition PlayerRequest (t : instant) (d : f64) (c : string) (req : ticket) : Prop :=
  tk_id req = ""%string ∧ tk_exp req = None ∧ tk_ext req = ∅ ∧
  ∃ a, tk_attrs req = Some a ∧ fd_tags a = [format_Z t] ∧
    fd_strings a = {["class"%string := c]} ∧ fd_doubles a = {[format_Z t := d]} ∧
    ∃ ts, fd_ctime a = Some ts ∧ (ts_seconds ts * 1000000000 + ts_nanos ts = t)%Z ∧ (0 <= ts_nanos ts < 1000000000)%Z.
