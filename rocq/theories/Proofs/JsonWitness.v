(** A concrete codec for which numbers and times are read back as written: times and
    doubles are written in binary. *)
From Coq Require Import Ascii String ZArith NArith Lia.
From stdpp Require Import prelude strings gmap countable.
From Verif.Model Require Import GoStrings Types Wire Proto ProtoMsg JsonMsg.
From Verif.Spec Require Import JsonSpec StringSpec SettingsSpec.
From Verif.Proofs Require Import MiscLemmas SettingsLemmas.
Local Open Scope string_scope.
Local Open Scope list_scope.

Fixpoint bits (p : positive) : string :=
  match p with xH => "" | xO q => String "0" (bits q) | xI q => String "1" (bits q) end.
Fixpoint unbits (s : string) : positive :=
  match s with
  | EmptyString => xH
  | String ch s' => if Ascii.eqb ch "0" then xO (unbits s') else xI (unbits s')
  end.
Lemma unbits_bits p : unbits (bits p) = p.
Proof. induction p as [p IH|p IH|]; cbn; [by rewrite IH..|done]. Qed.

Definition bin_codec (types : string → option embedded) : codec := Codec
  (λ x, bits (N.succ_pos x)) (λ s, Some (Pos.pred_N (unbits s)))
  (λ s, match parse_int s with PRok z => Some z | _ => None end)
  (λ t, bits (encode (ts_seconds t, ts_nanos t)))
  (λ s, match decode (unbits s) with Some (a, b) => Some (Timestamp a b) | None => None end)
  types true.
Lemma bin_agree ty1 ty2 : Agree (bin_codec ty1) (bin_codec ty2).
Proof.
  unfold Agree. split_and!.
  - intros [a b] _. cbn. by rewrite unbits_bits, decode_encode.
  - intros x z _ _. cbn. rewrite unbits_bits, N.pos_pred_succ. done.
  - intros z Hz. cbn. assert (parse_int (format_Z z) = PRok z) as ->; [|done].
    apply parse_int_ok. split; [apply plain_signed, format_plain|]. unfold FitsInt64, Fits32 in *. lia.
Qed.
