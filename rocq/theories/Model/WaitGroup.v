(** sync.WaitGroup of Go 1.21 (sync/waitgroup.go), one atomic operation after the
    other, and its uses: mmfwg and tdwg in InvokeMatchmakingFunctions (core/main.go:484,
    :517-522, :720; :584, :625-627, :703), and activationWg in activateTickets
    (matchmaker-example/main.go:385-481, a refinement of [a_step] in
    Model/Matchmaker.v), where Add is called by the goroutine that is waited for.

    Simplifications: the load and the CompareAndSwap of Wait are one step (when the
    second fails, Wait starts again); counters do not overflow. *)
From Coq Require Import Ascii String ZArith NArith.
From stdpp Require Import prelude strings.
From Verif.Model Require Import GoStrings Types Matchmaker.
Local Open Scope nat_scope.

(** [wg_count] and [wg_waiters] are the two halves of the field state. *)
Record wg := WG { wg_count : nat; wg_waiters : nat; wg_sema : nat }.
Definition wg0 : wg := WG 0 0 0.

(** "WaitGroup misuse: Add called concurrently with Wait", "WaitGroup is reused before
    previous Wait has returned", "negative WaitGroup counter". *)
Inductive wg_panic := Misuse | Reused | Negative.

(** Add(1). *)
Definition wg_add (w : wg) : wg * option wg_panic :=
  (WG (S (wg_count w)) (wg_waiters w) (wg_sema w),
   if negb (wg_waiters w =? 0) && (S (wg_count w) =? 1) then Some Misuse else None).

(** A goroutine that calls Done at its end: before its Add, if that is its own task;
    between Add and Done; after Done has brought the counter to 0 while [k] were
    waiting, before the check; before the Store(0); before the [k] calls of
    runtime_Semrelease, taken as one; and at its end. *)
Inductive g_pc := GNew | GBusy | GZero (k : nat) | GReset (k : nat) | GRelease (k : nat) | GOver.

Inductive g_step : wg → g_pc → wg → g_pc → option wg_panic → Prop :=
| GS_add w : g_step w GNew (wg_add w).1 GBusy (wg_add w).2
| GS_negative k s : g_step (WG 0 k s) GBusy (WG 0 k s) GOver (Some Negative)
| GS_done v k s :
    g_step (WG (S v) k s) GBusy (WG v k s) (if (0 <? v) || (k =? 0) then GOver else GZero k) None
| GS_check_ok k s : g_step (WG 0 k s) (GZero k) (WG 0 k s) (GReset k) None
| GS_check_fails v k' k s : (v, k') ≠ (0, k) → g_step (WG v k' s) (GZero k) (WG v k' s) GOver (Some Misuse)
| GS_reset v k' k s : g_step (WG v k' s) (GReset k) (WG 0 0 s) (GRelease k) None
| GS_release v k' k s : g_step (WG v k' s) (GRelease k) (WG v k' (s + k)) GOver None.

(** Wait: not called yet or at its load; in runtime_Semacquire; before the check
    after it; returned. *)
Inductive m_pc := MEnter | MAsleep | MAwake | MBack.

Inductive m_step : wg → m_pc → wg → m_pc → option wg_panic → Prop :=
| MS_nothing k s : m_step (WG 0 k s) MEnter (WG 0 k s) MBack None
| MS_sleep v k s : m_step (WG (S v) k s) MEnter (WG (S v) (S k) s) MAsleep None
| MS_wake v k s : m_step (WG v k (S s)) MAsleep (WG v k s) MAwake None
| MS_back s : m_step (WG 0 0 s) MAwake (WG 0 0 s) MBack None
| MS_reused v k s : (v, k) ≠ (0, 0) → m_step (WG v k s) MAwake (WG v k s) MBack (Some Reused).

(** ** mmfwg and tdwg: Add is called before the goroutine is started, by the goroutine
    that will call Wait. [c_adding]: it has not come to Wait. *)
Record cstate := CState { c_adding : bool; c_main : m_pc; c_gs : list g_pc; c_wg : wg; c_panic : option wg_panic }.
Definition c_init : cstate := CState true MEnter [] wg0 None.

Inductive c_step : cstate → cstate → Prop :=
| C_spawn gs w :
    c_step (CState true MEnter gs w None) (CState true MEnter (gs ++ [GBusy]) (wg_add w).1 (wg_add w).2)
| C_wait gs w :
    c_step (CState true MEnter gs w None) (CState false MEnter gs w None)
| C_main m gs w w' m' p :
    m_step w m w' m' p → c_step (CState false m gs w None) (CState false m' gs w' p)
| C_go a m gs w i g w' g' p :
    gs !! i = Some g → g_step w g w' g' p →
    c_step (CState a m gs w None) (CState a m (<[i := g']> gs) w' p).

(** ** activationWg *)
Record bstate := BState {
  b_phase : a_phase; b_main : m_pc; b_queue : list string; b_cur : list string;
  b_calls : list (list string * g_pc); b_arrived : list string; b_wg : wg; b_panic : option wg_panic
}.
Definition b_init (q : list string) : bstate := BState ACollect MEnter q [] [] q wg0 None.

Definition after_wait (m : m_pc) : a_phase := match m with MBack => AReturned | _ => AWaiting end.

Inductive b_step : bstate → bstate → Prop :=
| B_arrive id p m q cur calls arr w :
    (Z.of_nat (length q) < queue_cap)%Z →
    b_step (BState p m q cur calls arr w None) (BState p m (q ++ [id]) cur calls (arr ++ [id]) w None)
| B_recv id m q cur calls arr w :
    b_step (BState ACollect m (id :: q) cur calls arr w None)
           (BState (if is_full (cur ++ [id]) then ASend else ACollect) m q (cur ++ [id]) calls arr w None)
| B_default m cur calls arr w :
    b_step (BState ACollect m [] cur calls arr w None) (BState ASend m [] cur calls arr w None)
| B_send m q cur calls arr w :
    cur ≠ [] →
    b_step (BState ASend m q cur calls arr w None)
           (if is_full cur then BState ACollect m q [] (calls ++ [(cur, GNew)]) arr w None
            else BState AWaiting m q cur (calls ++ [(cur, GNew)]) arr w None)
| B_nothing m q calls arr w :
    b_step (BState ASend m q [] calls arr w None) (BState AWaiting m q [] calls arr w None)
(* :433-434 *)
| B_go n b g p m q cur calls arr w w' g' x :
    calls !! n = Some (b, g) → g_step w g w' g' x →
    b_step (BState p m q cur calls arr w None) (BState p m q cur (<[n := (b, g')]> calls) arr w' x)
(* :480 *)
| B_wait m q cur calls arr w w' m' x :
    m_step w m w' m' x →
    b_step (BState AWaiting m q cur calls arr w None)
           (BState (after_wait m') m' q cur calls arr w' x).
