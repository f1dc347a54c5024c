(** Lemmas for C115: values of the replication stream that do not decode. *)
From Coq Require Import Ascii String ZArith NArith Lia ZifyBool ZifyN ZifyNat.
From stdpp Require Import prelude strings gmap.
From Verif.Model Require Import Types Wire Proto Cache.
From Verif.Spec Require Import CacheSpec.
From Verif.Proofs Require Import StringLemmas WireLemmas ProtoLemmas.
Local Open Scope string_scope.
Local Arguments String.append _ _ : simpl nomatch.

Lemma dec_prefix_f_app fs tail fuel :
  Forall wf_field fs → tail ≠ "" → dec_field tail = None →
  String.length (enc_fields fs +:+ tail) ≤ fuel →
  dec_prefix_f fuel (enc_fields fs +:+ tail) = (fs, false).
Proof.
  intros Hwf Hne Ht. revert fuel. induction Hwf as [|f fs Hf _ IH]; intros fuel Hl.
  - cbn [enc_fields] in *. change ("" +:+ tail) with tail in *.
    destruct tail as [|c tail]; [done|]. destruct fuel as [|fuel]; [simpl in Hl; lia|].
    cbn [dec_prefix_f]. by rewrite Ht.
  - cbn [enc_fields] in *. rewrite app_assoc_s in *. rewrite app_length_s in Hl.
    pose proof (enc_field_nonempty f) as Hn.
    destruct fuel as [|fuel]; [lia|]. cbn [dec_prefix_f].
    destruct (enc_field f +:+ (enc_fields fs +:+ tail)) eqn:E.
    + destruct (enc_field f); simpl in *; [lia|discriminate].
    + rewrite <- E, dec_enc_field by done. rewrite IH by lia. done.
Qed.

Lemma unmarshal_part_damaged {A} step (part : A → field → A * bool) a fs tail x :
  parts step part → Forall wf_field fs → tail ≠ "" → dec_field tail = None →
  fold_fields step a fs = Some x →
  unmarshal_part part a (enc_fields fs +:+ tail) = (x, false).
Proof.
  intros Hp Hwf Hne Ht Hx. unfold unmarshal_part, dec_prefix.
  rewrite dec_prefix_f_app by done. apply (fold_part_spec _ _ _ _ _ Hp) in Hx. by rewrite Hx.
Qed.

Lemma ticket_damaged fs tail t k :
  Forall wf_field fs → tail ≠ "" → dec_field tail = None →
  unmarshal ticket_step empty_ticket (enc_fields fs) = Some t →
  stored_ticket k (enc_fields fs +:+ tail) = Ticket k (tk_exp t) (tk_attrs t) (tk_ext t).
Proof.
  intros Hwf Hne Ht Hx. rewrite unmarshal_enc in Hx by done. unfold stored_ticket, unmarshal_ticket.
  by rewrite (unmarshal_part_damaged _ _ _ _ _ _ parts_ticket Hwf Hne Ht Hx).
Qed.

Lemma assignment_damaged fs tail a :
  Forall wf_field fs → tail ≠ "" → dec_field tail = None →
  unmarshal assignment_step empty_assignment (enc_fields fs) = Some a →
  unmarshal_assignment (enc_fields fs +:+ tail) = a.
Proof.
  intros Hwf Hne Ht Hx. rewrite unmarshal_enc in Hx by done. unfold unmarshal_assignment.
  by rewrite (unmarshal_part_damaged _ _ _ _ _ _ (parts_or_keep assignment_step) Hwf Hne Ht Hx).
Qed.

Lemma undamaged_ticket v t k :
  unmarshal ticket_step empty_ticket v = Some t →
  stored_ticket k v = Ticket k (tk_exp t) (tk_attrs t) (tk_ext t).
Proof.
  intros H. unfold stored_ticket, unmarshal_ticket.
  by rewrite (unmarshal_part_ok _ _ _ _ _ parts_ticket H).
Qed.

Lemma undamaged_assignment v a :
  unmarshal assignment_step empty_assignment v = Some a → unmarshal_assignment v = a.
Proof.
  intros H. unfold unmarshal_assignment.
  by rewrite (unmarshal_part_ok _ _ _ _ _ (parts_or_keep assignment_step) H).
Qed.

(** Damage inside the attributes, whatever comes behind them. *)
Lemma dec_prefix_f_rest fs rest fuel :
  Forall wf_field fs → String.length (enc_fields fs +:+ rest) ≤ fuel →
  ∃ l ok, dec_prefix_f fuel (enc_fields fs +:+ rest) = ((fs ++ l)%list, ok).
Proof.
  intros Hwf. revert fuel. induction Hwf as [|f fs Hf _ IH]; intros fuel Hl.
  - cbn [enc_fields]. change ("" +:+ rest) with rest.
    destruct (dec_prefix_f fuel rest) as [l ok]. by exists l, ok.
  - cbn [enc_fields] in *. rewrite app_assoc_s in *. rewrite app_length_s in Hl.
    pose proof (enc_field_nonempty f) as Hn.
    destruct fuel as [|fuel]; [lia|]. cbn [dec_prefix_f].
    destruct (enc_field f +:+ (enc_fields fs +:+ rest)) eqn:E.
    + destruct (enc_field f); simpl in *; [lia|discriminate].
    + rewrite <- E, dec_enc_field by done. destruct (IH fuel) as (l & ok & ->); [lia|]. by exists l, ok.
Qed.

Lemma fold_part_app {A} (part : A → field → A * bool) a fs f l x y :
  fold_part part a fs = (x, true) → part x f = (y, false) → fold_part part a (fs ++ f :: l)%list = (y, false).
Proof.
  revert a. induction fs as [|g fs IH]; intros a H1 H2; cbn [fold_part app] in *.
  - injection H1 as ->. by rewrite H2.
  - destruct (part a g) as [a' []]; [by apply IH|discriminate].
Qed.

Lemma attributes_damaged fs gs tail rest t x k :
  Forall wf_field fs → Forall wf_field gs → tail ≠ "" → dec_field tail = None →
  wf_field (3%N, WLen (enc_fields gs +:+ tail)) →
  unmarshal ticket_step empty_ticket (enc_fields fs) = Some t →
  unmarshal filterable_step (default empty_filterable (tk_attrs t)) (enc_fields gs) = Some x →
  stored_ticket k (enc_fields fs +:+ (enc_field (3%N, WLen (enc_fields gs +:+ tail)) +:+ rest)) =
  Ticket k (tk_exp t) (Some x) (tk_ext t).
Proof.
  intros Hf Hg Hne Ht Hw Hx Hy. rewrite unmarshal_enc in Hx by done. rewrite unmarshal_enc in Hy by done.
  unfold stored_ticket, unmarshal_ticket, unmarshal_part, dec_prefix.
  set (f := (3%N, WLen (enc_fields gs +:+ tail))) in *.
  assert (E : enc_fields fs +:+ (enc_field f +:+ rest) = enc_fields (fs ++ [f])%list +:+ rest).
  { rewrite enc_fields_app. cbn [enc_fields]. by rewrite app_nil_r_s, app_assoc_s. }
  rewrite E. destruct (dec_prefix_f_rest (fs ++ [f])%list rest (String.length (enc_fields (fs ++ [f])%list +:+ rest))) as (l & ok & ->).
  { apply Forall_app. by split; [|constructor]. }
  { done. }
  rewrite <-app_assoc. cbn [app].
  assert (Hp : ticket_part t f = (Ticket (tk_id t) (tk_exp t) (Some x) (tk_ext t), false)).
  { unfold f. cbn [ticket_part]. by rewrite (unmarshal_part_damaged _ _ _ _ _ _ parts_filterable Hg Hne Ht Hy). }
  assert (Hr : fold_part ticket_part empty_ticket fs = (t, true)) by by apply (fold_part_spec _ _ _ _ _ parts_ticket).
  by rewrite (fold_part_app _ _ _ _ _ _ _ Hr Hp).
Qed.

(** Whatever its value, an announced ticket is stored, inactive. *)
Lemma announced_is_stored c k v :
  c_tickets (apply_update c (Update CmdTicket k v)) !! k = Some (stored_ticket k v) ∧
  k ∈ c_inactive (apply_update c (Update CmdTicket k v)).
Proof.
  unfold apply_update, apply_ops, update_ops. cbn [u_cmd u_key u_value foldl apply_op c_tickets c_inactive].
  split; [apply lookup_insert|set_solver].
Qed.
