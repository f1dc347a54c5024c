(** Vocabulary for C118 and C119: conditions on everything that is in a message. *)
From Coq Require Import Ascii String ZArith NArith.
From stdpp Require Import prelude strings gmap.
From Verif.Model Require Import GoStrings Types Wire Proto ProtoMsg JsonMsg.
Local Open Scope string_scope.
Local Open Scope list_scope.

(** Conditions on the texts (map keys included), times, doubles, extensions and numbers. *)
Record leaves := Leaves {
  lf_text : string → Prop; lf_time : timestamp → Prop; lf_double : f64 → Prop;
  lf_any : any → Prop; lf_int : Z → Prop
}.

Definition AllOpt {A} (P : A → Prop) (x : option A) : Prop := ∀ a, x = Some a → P a.
Definition AllList {A} (P : A → Prop) (l : list A) : Prop := ∀ a, a ∈ l → P a.
Definition AllMap {A} (L : leaves) (P : A → Prop) (m : gmap string A) : Prop :=
  ∀ k a, m !! k = Some a → lf_text L k ∧ P a.

Definition AllFilterable (L : leaves) (d : filterable) : Prop :=
  AllList (lf_text L) (fd_tags d) ∧ AllMap L (lf_text L) (fd_strings d) ∧
  AllMap L (lf_double L) (fd_doubles d) ∧ AllOpt (lf_time L) (fd_ctime d).
Definition AllTicket (L : leaves) (t : ticket) : Prop :=
  lf_text L (tk_id t) ∧ AllOpt (lf_time L) (tk_exp t) ∧ AllOpt (AllFilterable L) (tk_attrs t) ∧
  AllMap L (lf_any L) (tk_ext t).
Definition AllAssignment (L : leaves) (a : assignment) : Prop :=
  lf_text L (as_conn a) ∧ AllMap L (lf_any L) (as_ext a).
Definition AllRoster (L : leaves) (r : roster) : Prop :=
  lf_text L (ro_name r) ∧ AllOpt (AllAssignment L) (ro_assignment r) ∧ AllList (AllTicket L) (ro_tickets r) ∧
  AllMap L (lf_any L) (ro_ext r).
Definition AllStringFilter (L : leaves) (f : string * string) : Prop := lf_text L f.1 ∧ lf_text L f.2.
Definition AllDoubleFilter (L : leaves) (f : double_filter) : Prop :=
  lf_text L (df_arg f) ∧ lf_double L (df_min f) ∧ lf_double L (df_max f) ∧ lf_int L (df_bounds f).
Definition AllTimeFilter (L : leaves) (f : time_filter) : Prop :=
  AllOpt (lf_time L) (tf_start f) ∧ AllOpt (lf_time L) (tf_end f) ∧ lf_int L (tf_bounds f).
Definition AllPool (L : leaves) (p : pool) : Prop :=
  lf_text L (po_name p) ∧ AllList (lf_text L) (po_tag_filters p) ∧ AllList (AllStringFilter L) (po_string_filters p) ∧
  AllList (AllDoubleFilter L) (po_double_filters p) ∧ AllOpt (AllTimeFilter L) (po_time_filter p) ∧
  AllOpt (AllRoster L) (po_participants p) ∧ AllMap L (lf_any L) (po_ext p).
Definition AllProfile (L : leaves) (p : profile) : Prop :=
  lf_text L (pr_name p) ∧ AllMap L (AllPool L) (pr_pools p) ∧ AllMap L (lf_any L) (pr_ext p).
Definition AllMatch (L : leaves) (m : match_) : Prop :=
  lf_text L (ma_id m) ∧ AllMap L (AllRoster L) (ma_rosters m) ∧ AllMap L (lf_any L) (ma_ext m).
Definition AllSpec (L : leaves) (f : mmf_spec) : Prop :=
  lf_text L (mf_name f) ∧ lf_text L (mf_host f) ∧ lf_int L (mf_port f) ∧
  match mf_type f with MMF_OTHER z => lf_int L z | _ => True end.
Definition AllRequest (L : leaves) (r : request) : Prop :=
  AllOpt (AllProfile L) (rq_profile r) ∧ AllList (AllSpec L) (rq_mmfs r).

Definition AllWatch (L : leaves) (w : option assignment * string) : Prop :=
  AllOpt (AllAssignment L) w.1 ∧ lf_text L w.2.

(** An extension that JSON can express: empty, or of a type that the process knows and
    whose value can be written. *)
Definition Expressible (c : codec) (a : any) : Prop :=
  any_url a = "" ∧ any_value a = "" ∨
  any_url a ≠ "" ∧ utf8_valid (any_url a) = true ∧
    ∃ e l, jc_types c (any_url a) = Some e ∧ em_write e (any_value a) = Some l.
Definition in_json (c : codec) : leaves :=
  Leaves (λ s, utf8_valid s = true) (λ t, ts_is_valid (Some t) = true) (λ _, True) (Expressible c) (λ _, True).

(** An extension that can come out of reading JSON, and a time. *)
Definition Readable (d : codec) (a : any) : Prop :=
  any_url a = "" ∧ any_value a = "" ∨
  any_url a ≠ "" ∧ ∃ e l, jc_types d (any_url a) = Some e ∧ em_read e l = Some (any_value a).
Definition from_json (d : codec) : leaves :=
  Leaves (λ _, True) (λ t, ∃ s, jc_time_read d s = Some t) (λ _, True) (Readable d) (λ _, True).

(** An extension that is the same after writing it with [c] and reading it with [d]. *)
Definition Carried (c d : codec) (a : any) : Prop :=
  any_url a = "" ∧ any_value a = "" ∨
  any_url a ≠ "" ∧ utf8_valid (any_url a) = true ∧
    ∃ e e' l, jc_types c (any_url a) = Some e ∧ jc_types d (any_url a) = Some e' ∧
      em_write e (any_value a) = Some l ∧ em_read e' l = Some (any_value a) ∧ (∀ v, ("@type", v) ∉ l).
Definition Fits32 (z : Z) : Prop := (- 2 ^ 31 <= z < 2 ^ 31)%Z.
Definition kept (c d : codec) : leaves :=
  Leaves (λ s, utf8_valid s = true) (λ t, ts_is_valid (Some t) = true)
    (λ x, (x < 2 ^ 64)%N ∧ (f64_val x = FNaN → x = go_nan)) (Carried c d) Fits32.

(** What is assumed of the library: numbers and times that [c] writes are read back by
    [d] as they were. *)
Definition Agree (c d : codec) : Prop :=
  (∀ t, ts_is_valid (Some t) = true → jc_time_read d (jc_time c t) = Some t) ∧
  (∀ x z, (x < 2 ^ 64)%N → f64_val x = FFin z → jc_dbl_read d (jc_dbl c x) = Some x) ∧
  (∀ z, Fits32 z → jc_int_read d (GoStrings.format_Z z) = Some z).
(** The numbers 0 and 1 are REST and GRPC. *)
Definition PlainType (f : mmf_spec) : Prop :=
  match mf_type f with MMF_OTHER z => z ≠ 0%Z ∧ z ≠ 1%Z | _ => True end.

(** What can be in a message that is sent over gRPC (times in range, too). *)
Definition over_grpc : leaves :=
  Leaves (λ s, utf8_valid s = true) (λ t, ts_is_valid (Some t) = true)
    (λ x, (x < 2 ^ 64)%N ∧ (f64_val x = FNaN → x = go_nan)) (λ a, utf8_valid (any_url a) = true) Fits32.

(** A body that gives these ticket ids: an object with at most one member that is called
    ticketIds or ticket_ids, which is a list of texts or null. *)
Definition IdsName (kv : string * jv) : Prop := kv.1 = "ticketIds" ∨ kv.1 = "ticket_ids".
Definition IdsBody (j : jv) (ids : list string) : Prop :=
  ∃ l, j = JDict l ∧
    (Forall (λ kv, ¬ IdsName kv) l ∧ ids = [] ∨
     ∃ l1 kv l2, l = l1 ++ kv :: l2 ∧ Forall (λ kv, ¬ IdsName kv) l1 ∧ IdsName kv ∧ Forall (λ kv, ¬ IdsName kv) l2 ∧
       (kv.2 = JNull ∧ ids = [] ∨ kv.2 = JList (map JText ids))).
