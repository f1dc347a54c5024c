(** C158: the two names of the fields of a message in JSON. *)
From Coq Require Import Ascii String ZArith NArith Lia.
From stdpp Require Import prelude strings gmap.
From Verif.Model Require Import GoStrings Types Wire Proto ProtoMsg JsonMsg ExampleCalls.
From Verif.Spec Require Import JsonSpec NamesSpec.
From Verif.Proofs Require Import JsonLemmas NamesLemmas.
Local Open Scope string_scope.
Local Open Scope list_scope.

(** Requests: a body that has, at any depth, the names of messages.proto instead of the JSON names of some fields is
    read as the same message, or refused with it. *)
Theorem C158_requests : ∀ c j j',
  (same create_shape j j' → gateway_request (r_create c) None (Some j) = gateway_request (r_create c) None (Some j')) ∧
  (same ids_shape j j' → gateway_request r_ids [] (Some j) = gateway_request r_ids [] (Some j')) ∧
  (same request_shape j j' → gateway_request (r_request c) (Request None []) (Some j) = gateway_request (r_request c) (Request None []) (Some j')) ∧
  (same assign_shape j j' → gateway_request (r_assign c) None (Some j) = gateway_request (r_assign c) None (Some j')).
Proof.
  intros c j j'. split; [exact (create_same c j j')|]. split; [exact (ids_same j j')|]. split; [exact (request_same c j j')|exact (assign_same c j j')].
Qed.
Print Assumptions C158_requests.

(** Answers, as the example reads them. *)
Theorem C158_answers : ∀ c j j',
  (same result_shape j j' → r_result c j = r_result c j') ∧ (same watch_shape j j' → r_watch c j = r_watch c j') ∧
  (same created_shape j j' → r_create_response (Some j) = r_create_response (Some j')).
Proof. intros c j j'. split; [exact (result_same c j j')|]. split; [exact (watch_same c j j')|exact (created_same j j')]. Qed.
Print Assumptions C158_answers.

(** So a client that writes all names as in messages.proto, or some, is understood (under the conditions of C118). *)
Theorem C158_understood : ∀ c d eu, Agree c d →
  (∀ t, AllOpt (AllTicket (kept c d)) t →
    ∃ j, j_create c eu t = Some j ∧ ∀ j', same create_shape j j' → gateway_request (r_create d) None (Some j') = Some t) ∧
  (∀ ids, AllList (λ s, utf8_valid s = true) ids →
    ∃ j, j_ids eu ids = Some j ∧ ∀ j', same ids_shape j j' → gateway_request r_ids [] (Some j') = Some ids) ∧
  (∀ r, AllRequest (kept c d) r → AllList PlainType (rq_mmfs r) →
    ∃ j, j_request c eu r = Some j ∧ ∀ j', same request_shape j j' → gateway_request (r_request d) (Request None []) (Some j') = Some r) ∧
  (∀ r, AllOpt (AllRoster (kept c d)) r →
    ∃ j, j_assign c eu r = Some j ∧ ∀ j', same assign_shape j j' → gateway_request (r_assign d) None (Some j') = Some r).
Proof.
  intros c d eu H. destruct (same_request c d eu H) as (H1 & H2 & H3 & H4). split; [|split; [|split]].
  - intros t Ht. destruct (H1 t Ht) as (j & E & R). exists j. split; [done|]. intros j' Hs. rewrite <-R. symmetry. by apply C158_requests.
  - intros t Ht. destruct (H2 t Ht) as (j & E & R). exists j. split; [done|]. intros j' Hs. rewrite <-R. symmetry. by apply (C158_requests c).
  - intros t Ht Hp. destruct (H3 t Ht Hp) as (j & E & R). exists j. split; [done|]. intros j' Hs. rewrite <-R. symmetry. by apply C158_requests.
  - intros t Ht. destruct (H4 t Ht) as (j & E & R). exists j. split; [done|]. intros j' Hs. rewrite <-R. symmetry. by apply C158_requests.
Qed.
Print Assumptions C158_understood.

(** The names of the values of enums, with all their aliases, exactly. *)
Theorem C158_enum_names : ∀ c s,
  EnumText bounds_table (jc_skip_enum c) s (r_enum c bounds_value (JText s)) ∧ EnumText type_table (jc_skip_enum c) s (r_enum c type_value (JText s)).
Proof. intros c s. split; [apply bounds_texts|apply type_texts]. Qed.
Print Assumptions C158_enum_names.

(** Example: an invocation with a pool; and a map key that looks like the name of a field is no such name. *)
Example C158_example :
  let body tag str arg := JDict [("profile", JDict [("pools", JDict [("stringArgs", JDict
    [(tag, JList [JDict [("tag", JText "blue")]]); (str, JList [JDict [(arg, JText "mode"); ("value", JText "duel")]])])])]); ("mmfs", JList [])] in
  same request_shape (body "tagPresentFilters" "stringEqualsFilters" "stringArg") (body "tag_present_filters" "string_equals_filters" "string_arg") ∧
  (∀ c, ∃ r p, r_request c (body "tag_present_filters" "string_equals_filters" "string_arg") = Some r ∧
     rq_profile r = Some p ∧ ∃ po, pr_pools p !! "stringArgs" = Some po ∧ po_tag_filters po = ["blue"] ∧ po_string_filters po = [("mode", "duel")]) ∧
  snake "creationTimeRangeFilter" = "creation_time_range_filter".
Proof.
  split; [|split; [|done]].
  - apply same_obj. constructor; [|constructor; [by left|constructor]]. right. exists "profile", profile_shape.
    split; [left|]. split; [by left|]. split; [by left|]. simpl. apply same_obj. constructor; [|constructor].
    right. exists "pools", (Dict pool_shape). split; [left|]. split; [by left|]. split; [by left|]. simpl. apply same_dict.
    constructor; [|constructor]. split; [done|]. simpl. apply same_obj. constructor; [|constructor; [|constructor]]; right.
    + eexists "tagPresentFilters", _. split; [left|]. split; [by left|]. split; [by right|]. apply same_self.
    + eexists "stringEqualsFilters", _. split; [right; left|]. split; [by left|]. split; [by right|]. simpl. apply same_many.
      constructor; [|constructor]. apply same_obj. constructor; [|constructor; [by left|constructor]]. right.
      eexists "stringArg", _. split; [left|]. split; [by left|]. split; [by right|]. apply same_self.
  - intros c. eexists _, _. split; [reflexivity|]. split; [reflexivity|]. eexists. split; [vm_compute; reflexivity|]. done.
Qed.
