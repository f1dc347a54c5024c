(** Foreign entries of the replication stream: lemmas. *)
From Coq Require Import Ascii String ZArith NArith Lia.
From stdpp Require Import prelude strings gmap.
From Verif.Model Require Import GoStrings Types Filter Proto Cache RedisRepl.
From Verif.Spec Require Import CacheSpec ForeignSpec.
Local Open Scope string_scope.

Lemma decode_panic e : redis_decode e = Panic ↔ Short e.
Proof.
  unfold redis_decode, Short. split.
  - destruct (e_fields e) as [|c args]; [by left|]. intros H. right.
    destruct (bool_decide (c = "ticket")) eqn:E1.
    { apply bool_decide_eq_true_1 in E1 as ->. destruct args; [|done]. left. eexists. split; [|done]. set_solver. }
    destruct (bool_decide (c = "activate")) eqn:E2.
    { apply bool_decide_eq_true_1 in E2 as ->. destruct args; [|done]. left. eexists. split; [|done]. set_solver. }
    destruct (bool_decide (c = "deactivate")) eqn:E3.
    { apply bool_decide_eq_true_1 in E3 as ->. destruct args; [|done]. left. eexists. split; [|done]. set_solver. }
    destruct (bool_decide (c = "assign")) eqn:E4; [|done].
    apply bool_decide_eq_true_1 in E4 as ->. right. exists args. split; [done|].
    destruct args as [|k [|w [|v args]]]; simpl; try lia. done.
  - intros [->|[(c & Hc & ->)|(args & -> & Hl)]]; [done| |].
    + rewrite !elem_of_cons in Hc. by destruct Hc as [->|[->|[->|?%elem_of_nil]]].
    + destruct args as [|k [|w [|v args]]]; simpl in *; try lia; done.
Qed.

Lemma decode_all_panic es : decode_all es = Panic ↔ ∃ e, e ∈ es ∧ Short e.
Proof.
  induction es as [|e es IH]; simpl.
  - split; [done|]. by intros (e & ?%elem_of_nil & _).
  - destruct (redis_decode e) as [u|] eqn:E.
    + assert (Hn : ¬ Short e) by (rewrite <-decode_panic; congruence).
      destruct (decode_all es) as [us|].
      * split; [done|]. intros (e' & [->|He]%elem_of_cons & Hs); [done|].
        assert (X : Done us = Panic) by (apply IH; by exists e'). done.
      * split; [|done]. intros _. destruct (proj1 IH eq_refl) as (e' & He & Hs). exists e'. split; [by right|done].
    + apply decode_panic in E. split; [|done]. intros _. exists e. split; [by left|done].
Qed.

Lemma get_panic count s cur : (redis_get count s cur true).1 = Panic ↔ ∃ e, e ∈ xread s count cur ∧ Short e.
Proof. unfold redis_get. cbn [fst]. apply decode_all_panic. Qed.

Lemma foreign_blank e : Foreign e → redis_decode e = Done (Update CmdTicket "" "").
Proof.
  intros (c & args & E & Hc). unfold redis_decode. rewrite E. unfold kinds in Hc.
  rewrite !not_elem_of_cons in Hc. destruct Hc as (H1 & H2 & H3 & H4 & _).
  by rewrite !bool_decide_eq_false_2 by done.
Qed.

Lemma foreign_effect e c u : Foreign e → redis_decode e = Done u →
  (∀ k, k ≠ "" → c_tickets (apply_update c u) !! k = c_tickets c !! k) ∧
  c_assign (apply_update c u) = c_assign c ∧
  (∀ k, Active (apply_update c u) k ↔ k ≠ "" ∧ Active c k).
Proof.
  intros He Hu. rewrite foreign_blank in Hu by done. injection Hu as <-.
  unfold apply_update, update_ops, apply_ops. cbn [u_cmd u_key u_value foldl apply_op c_tickets c_inactive c_assign].
  split; [|split; [done|]].
  - intros k Hk. by rewrite lookup_insert_ne.
  - intros k. unfold Active. cbn [c_tickets c_inactive]. destruct (decide (k = "")) as [->|Hk].
    + split; [|by intros [? _]]. intros [_ H]. set_solver.
    + rewrite lookup_insert_ne by done. set_solver.
Qed.
