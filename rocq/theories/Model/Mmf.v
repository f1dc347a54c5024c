(** The sample matchmaking functions (functions/golang).

    A run is modelled by the list of matches it streams. A failing stream.Send
    makes the function return early (soloduel.go:131-134, battleroyale.go:117-120,
    teamshooter.go:144-147), so then only the first matches of that list are
    sent. The extensions of matches and rosters (score, names, creation time) are
    added in MatchWire.v. *)
From Coq Require Import Ascii String ZArith NArith.
From stdpp Require Import prelude strings gmap.
From Verif.Model Require Import GoStrings Types Chunk.
Local Open Scope string_scope.

(** pool.GetParticipants().GetTickets(); nil-safe at every step. *)
Definition pool_tickets (q : option pool) : list ticket :=
  match q with
  | Some q => match po_participants q with Some r => ro_tickets r | None => [] end
  | None => []
  end.

(** req.GetPools() for what GetChunkedRequest returned; on an error or a nil
    profile the functions go on with a nil request (soloduel.go:62-66). *)
Definition request_pools (r : received) : gmap string pool :=
  match r with Received p => pr_pools p | RecvErr | RecvNil => ∅ end.

(** fmt.Sprintf("profile-%s-time-%s-num-%d", ..). *)
Definition match_id (fn t : string) (num : N) : string :=
  "profile-" +:+ fn +:+ "-time-" +:+ t +:+ "-num-" +:+ format_N num.
(** fmt.Sprintf("%v_roster%04d", ..). *)
Definition roster_name (fn : string) (num : N) : string := fn +:+ "_roster" +:+ format_pad 4 num.

(** A match with a single roster: soloduel.go:92-131, battleroyale.go:83-117. *)
Definition single_match (fn t : string) (num : N) (ts : list ticket) : match_ :=
  let rn := roster_name fn num in
  Match (match_id fn t num) {[rn := Roster rn None ts ∅]} ∅.

(** ** functions/golang/soloduel/soloduel.go:61-148 *)
Definition solo_name : string := "a-simple-1v1-matchfunction".
Definition solo_players : nat := 2.

(** soloduel.go:72-78; [ps] is the order in which the pools are visited. *)
Definition solo_tickets (ps : list (string * pool)) : list ticket :=
  concat (map (λ kv, pool_tickets (Some kv.2)) ps).

(** soloduel.go:87-143. *)
Fixpoint solo_loop (t : string) (players : list ticket) (num : N) (ts : list ticket) : list match_ :=
  match ts with
  | [] => []
  | x :: ts' =>
      let players := (players ++ [x])%list in
      if (solo_players <=? length players)%nat
      then single_match solo_name t num players :: solo_loop t [] (num + 1) ts'
      else solo_loop t players num ts'
  end.
Definition soloduel (t : string) (ps : list (string * pool)) : list match_ := solo_loop t [] 0 (solo_tickets ps).

(** ** functions/golang/battleroyale/battleroyale.go:62-153 *)
Definition royale_name : string := "battle-royale".
Definition royale_players : nat := 100.

(** battleroyale.go:81-149; [fuel] bounds the number of rounds. *)
Fixpoint royale_loop (fuel : nat) (t : string) (i : nat) (num : N) (ts : list ticket) : list match_ :=
  match fuel with
  | O => []
  | S f =>
      if (i + royale_players <=? length ts)%nat
      then single_match royale_name t num (take royale_players (drop i ts)) ::
           royale_loop f t (i + royale_players) (num + 1) ts
      else []
  end.
Definition battleroyale (t : string) (pools : gmap string pool) : list match_ :=
  let ts := pool_tickets (pools !! "competitive") in royale_loop (S (length ts)) t 0 0 ts.

(** ** functions/golang/teamshooter/teamshooter.go:61-156 *)
Definition team_name : string := "team-shooter-5v5-matchfunction".
Definition num_teams : nat := 2.
Definition max_matches : nat := Z.to_nat 100000.
Definition team_comp : list string := ["tank"; "healer"; "dps"; "dps"; "dps"].

(** teamshooter.go:74-78. *)
Definition start_indices : gmap string nat :=
  foldl (λ m ty, <[ty := 0]> m) ∅ team_comp.

Record team_state := TeamState { ts_idx : gmap string nat; ts_roster : list ticket; ts_exhausted : bool }.

(** teamshooter.go:96-110, one desired ticket type. Reading a missing map entry
    gives 0. *)
Definition fill_slot (pools : gmap string pool) (s : team_state) (ty : string) : team_state :=
  let i := default 0 (ts_idx s !! ty) in
  match pool_tickets (pools !! ty) !! i with
  | None => TeamState (ts_idx s) (ts_roster s) true
  | Some x => TeamState (<[ty := S i]> (ts_idx s)) (ts_roster s ++ [x])%list (ts_exhausted s)
  end.

(** teamshooter.go:86-111, the rosters of one match. [i] counts the teams. *)
Fixpoint fill_teams (pools : gmap string pool) (n i : nat) (idx : gmap string nat) (ex : bool)
    (rosters : gmap string roster) : gmap string nat * bool * gmap string roster :=
  match n with
  | O => (idx, ex, rosters)
  | S n' =>
      let s := foldl (fill_slot pools) (TeamState idx [] ex) team_comp in
      let tn := "team" +:+ format_pad 2 (N.of_nat i) in
      fill_teams pools n' (S i) (ts_idx s) (ts_exhausted s) (<[tn := Roster tn None (ts_roster s) ∅]> rosters)
  end.

(** teamshooter.go:84-151; [times k] is the formatted time when match [k] is made. *)
Fixpoint team_loop (fuel : nat) (times : N → string) (num : N) (pools : gmap string pool)
    (idx : gmap string nat) : list match_ :=
  match fuel with
  | O => []
  | S f =>
      let '(idx', ex, rosters) := fill_teams pools num_teams 1 idx false ∅ in
      if ex then [] else
        Match (match_id team_name (times num) num) rosters ∅ :: team_loop f times (num + 1) pools idx'
  end.
Definition teamshooter (times : N → string) (pools : gmap string pool) : list match_ :=
  team_loop max_matches times 0 pools start_indices.
