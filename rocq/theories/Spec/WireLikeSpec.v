(** Vocabulary for C160: protobuf messages in bytes that say the same. *)
From Coq Require Import String NArith.
From stdpp Require Import prelude strings.
From Verif.Model Require Import Wire.

(** What the bytes of a field are: a text or other value, or a message whose fields have these numbers. *)
Inductive wshape := WText | WMsg (fields : list (N * wshape)).

(** Fields with different numbers in a different order; those with the same number stay in theirs. *)
Inductive shuffled : list field → list field → Prop :=
| sh_nil : shuffled [] []
| sh_skip x l l' : shuffled l l' → shuffled (x :: l) (x :: l')
| sh_swap x y l : x.1 ≠ y.1 → shuffled (x :: y :: l) (y :: x :: l)
| sh_trans l1 l2 l3 : shuffled l1 l2 → shuffled l2 l3 → shuffled l1 l3.

(** Two encodings that, at any depth, have the fields of messages in different orders, differ in fields that
    the message does not have, or write numbers differently. *)
Inductive wlike : wshape → string → string → Prop :=
| wl_self sh s : wlike sh s s
| wl_msg fs s s' l l' m : dec_fields s = Some l → dec_fields s' = Some l' →
    shuffled (filter (λ f, f.1 ∈ fs.*1) l) m →
    Forall2 (λ x y, x.1 = y.1 ∧ (x.2 = y.2 ∨ ∃ sh a b, (x.1, sh) ∈ fs ∧ x.2 = WLen a ∧ y.2 = WLen b ∧ wlike sh a b)) m (filter (λ f, f.1 ∈ fs.*1) l') →
    wlike (WMsg fs) s s'.

(** messages.proto, by numbers. *)
Definition texts (ns : list N) : list (N * wshape) := map (λ n, (n, WText)) ns.
Definition time_w : wshape := WMsg (texts [1; 2]%N).
Definition any_w : wshape := WMsg (texts [1; 2]%N).
Definition entry_w (v : wshape) : wshape := WMsg [(1%N, WText); (2%N, v)].
Definition filterable_w : wshape := WMsg [(1%N, WText); (2%N, entry_w WText); (3%N, entry_w WText); (4%N, time_w)].
Definition ticket_w : wshape := WMsg [(1%N, WText); (2%N, time_w); (3%N, filterable_w); (4%N, entry_w any_w)].
Definition assignment_w : wshape := WMsg [(1%N, WText); (2%N, entry_w any_w)].
Definition roster_w : wshape := WMsg [(1%N, WText); (2%N, assignment_w); (3%N, ticket_w); (4%N, entry_w any_w)].
Definition pool_w : wshape :=
  WMsg [(1%N, WText); (2%N, WMsg (texts [1]%N)); (3%N, WMsg (texts [1; 2]%N)); (4%N, WMsg (texts [1; 2; 3; 4]%N));
        (5%N, WMsg [(4%N, WText); (6%N, time_w); (7%N, time_w)]); (6%N, roster_w); (7%N, entry_w any_w)].
Definition profile_w : wshape := WMsg [(1%N, WText); (2%N, entry_w pool_w); (3%N, entry_w any_w)].
Definition match_w : wshape := WMsg [(1%N, WText); (2%N, entry_w roster_w); (3%N, entry_w any_w)].
Definition chunk_w : wshape := WMsg [(1%N, profile_w); (2%N, WText)].
Definition spec_w : wshape := WMsg (texts [1; 2; 3; 4]%N).
Definition request_w : wshape := WMsg [(1%N, profile_w); (2%N, spec_w)].
Definition result_w : wshape := WMsg [(1%N, match_w)].
