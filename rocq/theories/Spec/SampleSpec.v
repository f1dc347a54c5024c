(** What the sample functions should do with the tickets of om-core. *)
From Coq Require Import Ascii String ZArith NArith.
From stdpp Require Import prelude strings gmap.
From Verif.Model Require Import GoStrings Types Filter Chunk Mmf Samples.
From Verif.Spec Require Import ChunkSpec EndToEndSpec.
Local Open Scope string_scope.

(** The tickets in a match and in all matches of a run. *)
Definition MatchTickets (m : match_) : list ticket :=
  concat (map (λ kv, ro_tickets kv.2) (map_to_list (ma_rosters m))).
Definition RunTickets (ms : list match_) : list ticket := concat (map MatchTickets ms).

(** Function [f] is called for profile [p] by an om-core whose snapshot is [ts]; the
    stream breaks after [k] of the chunks, or not at all; what happens is [o]. *)
Definition SampleOutcome (p : profile) (ts : list ticket) (f : sample) (k : option nat)
    (o : outcome (list match_)) : Prop :=
  ∃ tsn cs rcs show clock ps, tsn.*1 = ts ∧ NamesFit p tsn ∧ build_requests p tsn = Done cs ∧
    rcs.*1 = cs ∧ pool_orders_fit rcs ∧ (∀ k', k = Some k' → k' < length cs) ∧
    let g := get_chunked_request (match k with Some k' => take k' rcs | None => rcs end) in
    (∀ r, g = Done r → ps ≡ₚ map_to_list (request_pools r)) ∧
    o = match g with Panic => Panic | Done r => run_sample f show clock ps r end.

(** The pools a function looks at. *)
Definition SamplePool (f : sample) (n : string) : Prop :=
  match f with Solo => True | Royale => n = "competitive" | Team => n ∈ ["tank"; "healer"; "dps"] end.
