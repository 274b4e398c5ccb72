(** A concrete printer and parser for rationals ("numerator/denominator"), used
    only to show that the hypotheses of the serialization theorems can be met. *)
From Verif Require Import QcBase StrBase.
Set Implicit Arguments.
Open Scope string_scope.

Definition fmt_q (x : Qc) : string :=
  str_of_Z (Qnum (this x)) ++ String "/" (str_of_Z (Zpos (Qden (this x)))).

Definition parse_q (s : string) : option Qc :=
  match split "/" s with
  | [a; b] =>
    match Z_of_str a, Z_of_str b with
    | Some n, Some (Zpos d) => Some (Q2Qc (n # d))
    | _, _ => None
    end
  | _ => None
  end.

Lemma parse_fmt_q x : parse_q (fmt_q x) = Some x.
Proof.
  unfold parse_q, fmt_q.
  rewrite split_cons by (apply str_of_Z_no; reflexivity).
  rewrite split_none by (apply str_of_Z_no; reflexivity).
  rewrite !Z_of_str_of_Z. f_equal.
  apply Qc_is_canon. cbn [this Q2Qc]. rewrite Qred_correct. destruct (this x); reflexivity.
Qed.

Lemma fmt_q_no c x : is_digit c = false -> Ascii.eqb c "-" = false ->
  Ascii.eqb "/" c = false -> has_char c (fmt_q x) = false.
Proof.
  intros H1 H2 H3. unfold fmt_q. rewrite has_char_app. cbn [has_char].
  rewrite !str_of_Z_no by assumption. rewrite H3. reflexivity.
Qed.

Lemma fmt_q_nonempty x : fmt_q x <> "".
Proof.
  unfold fmt_q. destruct (str_of_Z (Qnum (this x))); discriminate.
Qed.
