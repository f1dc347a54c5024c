(** What the handlers are supposed to do, stated on requests, stored tickets
    and updates only. *)
From Coq Require Import Ascii String ZArith NArith.
From stdpp Require Import prelude strings gmap.
From Verif.Model Require Import Types Wire.
From Verif.Spec Require Import FilterSpec.
Local Open Scope Z_scope.

(** The instant a timestamp denotes, in nanoseconds. *)
Definition Denotes (t : timestamp) (z : Z) : Prop := ts_seconds t * 1000000000 + ts_nanos t = z.

(** ** Client tickets *)
Definition client_ctime (t : ticket) : option timestamp :=
  match tk_attrs t with Some a => fd_ctime a | None => None end.
Definition client_tags (t : ticket) : list string :=
  match tk_attrs t with Some a => fd_tags a | None => [] end.
Definition client_strings (t : ticket) : gmap string string :=
  match tk_attrs t with Some a => fd_strings a | None => ∅ end.
Definition client_doubles (t : ticket) : gmap string f64 :=
  match tk_attrs t with Some a => fd_doubles a | None => ∅ end.

(** Doubles are 64-bit patterns and all strings are UTF-8; both are guaranteed
    by gRPC's own decoding of the request. *)
Definition ClientTicketOk (t : ticket) : Prop :=
  (∀ k d, client_doubles t !! k = Some d → (d < 2 ^ 64)%N ∧ utf8_valid k = true) ∧
  (∀ k v, client_strings t !! k = Some v → utf8_valid k = true ∧ utf8_valid v = true) ∧
  (∀ s, s ∈ client_tags t → utf8_valid s = true) ∧
  (∀ k a, tk_ext t !! k = Some a → utf8_valid k = true ∧ utf8_valid (any_url a) = true).

(** The creation time the server must use. *)
Definition CreationTime (now : instant) (t : ticket) (cr : timestamp) : Prop :=
  (∀ c, client_ctime t = Some c → ValidTs c → cr = c) ∧
  ((∀ c, client_ctime t = Some c → ¬ ValidTs c) → Denotes cr now ∧ 0 <= ts_nanos cr < 1000000000).

(** The expiration time the server must use, given the creation time. *)
Definition ExpirationTime (ttl : Z) (cr : Z) (t : ticket) (ex : timestamp) : Prop :=
  (∀ e z, tk_exp t = Some e → ValidTs e → Denotes e z → z <= cr + ttl * 1000000000 → ex = e) ∧
  ((∀ e z, tk_exp t = Some e → ValidTs e → Denotes e z → cr + ttl * 1000000000 < z) →
     Denotes ex (cr + ttl * 1000000000)).

(** [stored] is what a replica must hold for client ticket [t] under id [id]. *)
Definition StoredAs (ttl : Z) (now : instant) (id : string) (t stored : ticket) : Prop :=
  tk_id stored = id ∧ tk_ext stored = tk_ext t ∧
  ∃ a cr ex z,
    tk_attrs stored = Some a ∧ fd_tags a = client_tags t ∧
    fd_strings a = client_strings t ∧ fd_doubles a = client_doubles t ∧
    fd_ctime a = Some cr ∧ tk_exp stored = Some ex ∧
    CreationTime now t cr ∧ Denotes cr z ∧ ExpirationTime ttl z t ex.

(** Clock readings and TTLs for which protobuf timestamps and Go durations do
    not overflow. *)
Definition SaneNow (now : instant) : Prop :=
  -62135596800 * 1000000000 <= now < 253402300800 * 1000000000.
Definition SaneTTL (ttl : Z) : Prop := 0 <= ttl <= 9223372036.
