(** C159: what does not matter in JSON bodies. *)
From Coq Require Import Ascii String ZArith NArith Lia.
From stdpp Require Import prelude strings gmap.
From Verif.Model Require Import GoStrings Types Wire Proto ProtoMsg JsonMsg.
From Verif.Spec Require Import JsonSpec NamesSpec.
From Verif.Proofs Require Import JsonLemmas AlikeLemmas QuotedLemmas.
Local Open Scope string_scope.
Local Open Scope list_scope.

(** Bodies that differ, at any depth, in the order of members, in which of its names a field has, and in members
    that are no fields, are read as the same request, or refused together. *)
Theorem C159_requests : ∀ c j j',
  (alike create_shape j j' → gateway_request (r_create c) None (Some j) = gateway_request (r_create c) None (Some j')) ∧
  (alike ids_shape j j' → gateway_request r_ids [] (Some j) = gateway_request r_ids [] (Some j')) ∧
  (alike request_shape j j' → gateway_request (r_request c) (Request None []) (Some j) = gateway_request (r_request c) (Request None []) (Some j')) ∧
  (alike assign_shape j j' → gateway_request (r_assign c) None (Some j) = gateway_request (r_assign c) None (Some j')).
Proof.
  intros c j j'. split; [exact (create_alike c j j')|]. split; [exact (ids_alike j j')|]. split; [exact (request_alike c j j')|exact (assign_alike c j j')].
Qed.
Print Assumptions C159_requests.

(** So all clients that write the fields of a request are understood (under the conditions of C118). *)
Theorem C159_understood : ∀ c d eu, Agree c d →
  (∀ t, AllOpt (AllTicket (kept c d)) t →
    ∃ j, j_create c eu t = Some j ∧ ∀ j', alike create_shape j j' → gateway_request (r_create d) None (Some j') = Some t) ∧
  (∀ ids, AllList (λ s, utf8_valid s = true) ids →
    ∃ j, j_ids eu ids = Some j ∧ ∀ j', alike ids_shape j j' → gateway_request r_ids [] (Some j') = Some ids) ∧
  (∀ r, AllRequest (kept c d) r → AllList PlainType (rq_mmfs r) →
    ∃ j, j_request c eu r = Some j ∧ ∀ j', alike request_shape j j' → gateway_request (r_request d) (Request None []) (Some j') = Some r) ∧
  (∀ r, AllOpt (AllRoster (kept c d)) r →
    ∃ j, j_assign c eu r = Some j ∧ ∀ j', alike assign_shape j j' → gateway_request (r_assign d) None (Some j') = Some r).
Proof.
  intros c d eu H. destruct (same_request c d eu H) as (H1 & H2 & H3 & H4). split; [|split; [|split]].
  - intros t Ht. destruct (H1 t Ht) as (j & E & R). exists j. split; [done|]. intros j' Hs. rewrite <-R. symmetry. by apply C159_requests.
  - intros t Ht. destruct (H2 t Ht) as (j & E & R). exists j. split; [done|]. intros j' Hs. rewrite <-R. symmetry. by apply (C159_requests c).
  - intros t Ht Hp. destruct (H3 t Ht Hp) as (j & E & R). exists j. split; [done|]. intros j' Hs. rewrite <-R. symmetry. by apply C159_requests.
  - intros t Ht. destruct (H4 t Ht) as (j & E & R). exists j. split; [done|]. intros j' Hs. rewrite <-R. symmetry. by apply C159_requests.
Qed.
Print Assumptions C159_understood.

(** What a client of an older or newer version writes for a field unknown here is ignored, whatever its value. *)
Theorem C159_unknown_ignored : ∀ c fs l1 x l2, create_shape = Obj fs → unknown fs x →
  gateway_request (r_create c) None (Some (JDict (l1 ++ x :: l2))) = gateway_request (r_create c) None (Some (JDict (l1 ++ l2))).
Proof.
  intros c fs l1 x l2 [= <-] Hx. unfold gateway_request, r_create. etrans; [apply object_perm with (l' := [x] ++ (l1 ++ l2))|].
  - intros n m v w acc Hne Hn%elem_of_list_In Hm%elem_of_list_In. vm_compute in Hn, Hm. destruct_or!; by subst.
  - simpl. by rewrite <-Permutation_middle.
  - eapply object_unknown; [|by constructor; [exact Hx|]]. reflexivity.
Qed.
Print Assumptions C159_unknown_ignored.

(** The order of the elements of lists matters. *)
Theorem C159_lists_in_order : ∀ a b, a ≠ b →
  gateway_request r_ids [] (Some (JDict [("ticketIds", JList [JText a; JText b])])) ≠ gateway_request r_ids [] (Some (JDict [("ticketIds", JList [JText b; JText a])])).
Proof. intros a b Hab. vm_compute. congruence. Qed.
Print Assumptions C159_lists_in_order.

(** Example. *)
Example C159_example :
  let tickets := JDict [("stringArgs", JDict [("mode", JText "duel"); ("map", JText "desert")]); ("tags", JList [])] in
  let tickets' := JDict [("tags", JList []); ("string_args", JDict [("mode", JText "duel"); ("map", JText "desert")]); ("colour", JNum "7")] in
  let body := JDict [("ticket", JDict [("id", JText ""); ("attributes", tickets)])] in
  let body' := JDict [("version", JList [JNull]); ("ticket", JDict [("attributes", tickets'); ("id", JText "")])] in
  alike create_shape body body' ∧
  ∀ c, r_create c body' = Some (Some (Ticket "" None (Some (Filterable [] {["mode" := "duel"; "map" := "desert"]} ∅ None)) ∅)).
Proof.
  intros t t' b b'. assert (alike create_shape b b') as Ha.
  { apply alike_obj with (u := []) (m := [("ticket", JDict [("id", JText ""); ("attributes", t)])])
      (u' := [("version", JList [JNull])]) (m' := [("ticket", JDict [("attributes", t'); ("id", JText "")])]); [done|done|done| |].
    { constructor; [|done]. intros name s [= -> ->]%elem_of_list_singleton. by vm_compute. }
    constructor; [|constructor]. exists "ticket", ticket_shape. split; [left|]. split; [by left|]. split; [by left|]. simpl.
    apply alike_obj with (u := []) (m := [("id", JText ""); ("attributes", t)]) (u' := []) (m' := [("id", JText ""); ("attributes", t')]);
      [done|apply perm_swap|done|done|].
    constructor; [|constructor; [|constructor]].
    - exists "id", Leaf. split; [right; left|]. split; [by left|]. split; [by left|]. apply alike_self.
    - exists "attributes", filterable_shape. split; [left|]. split; [by left|]. split; [by left|]. simpl.
      apply alike_obj with (u := []) (m := [("stringArgs", JDict [("mode", JText "duel"); ("map", JText "desert")]); ("tags", JList [])])
        (u' := [("colour", JNum "7")]) (m' := [("string_args", JDict [("mode", JText "duel"); ("map", JText "desert")]); ("tags", JList [])]); [done| |done| |].
      + unfold t'. rewrite (Permutation_app_comm [_]). simpl. apply perm_swap.
      + constructor; [|done]. intros name s Hin. apply elem_of_list_In in Hin. vm_compute in Hin. destruct_or!; simplify_eq; by vm_compute.
      + constructor; [|constructor; [|constructor]]; eexists _, _.
        * split; [right; left|]. split; [by left|]. split; [by right|]. apply alike_self.
        * split; [left|]. split; [by left|]. split; [by left|]. apply alike_self. }
  split; [exact Ha|]. intros c. vm_compute. reflexivity.
Qed.

(** Nor do quotes around the numbers that ports, bounds of filters and attributes of tickets are. *)
Theorem C159_quotes : ∀ c t pre post,
  r_spec c (JDict (pre ++ ("port", JText t) :: post)) = r_spec c (JDict (pre ++ ("port", JNum t) :: post)) ∧
  (t ∉ ["NaN"; "Infinity"; "-Infinity"] →
    (∀ k, k = "minimum" ∨ k = "maximum" →
      r_double_filter c (JDict (pre ++ (k, JText t) :: post)) = r_double_filter c (JDict (pre ++ (k, JNum t) :: post))) ∧
    ∀ a k b, r_filterable c (JDict (pre ++ ("doubleArgs", JDict (a ++ (k, JText t) :: b)) :: post)) =
      r_filterable c (JDict (pre ++ ("doubleArgs", JDict (a ++ (k, JNum t) :: b)) :: post))).
Proof.
  exact (λ c t pre post, conj (port_quoted c t pre post) (λ Ht, conj (λ k, filter_quoted c t k pre post Ht) (λ a k b, attribute_quoted c t k a b pre post Ht))).
Qed.
Print Assumptions C159_quotes.
Example C159_example_quotes : ∀ c, jc_int_read c "50080" = Some 50080%Z →
  r_spec c (JDict [("host", JText "http://mmf"); ("port", JText "50080")]) = Some (MmfSpec "" "http://mmf" 50080 MMF_REST).
Proof. intros c E. etransitivity; [exact (port_quoted c "50080" [("host", JText "http://mmf")] [])|]. cbn. rewrite E. reflexivity. Qed.
