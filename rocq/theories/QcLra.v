(** Linear arithmetic over the canonical rationals, by translation to [Q]. *)
From Verif Require Export QcBase.
From Coq Require Import Lqa.
Open Scope Qc_scope.

Lemma qc_this_eq (x y : Qc) : x = y -> (this x == this y)%Q.
Proof. intros ->. reflexivity. Qed.
Lemma qc_plus_this x y : (this (x + y) == this x + this y)%Q.
Proof. apply Qred_correct. Qed.
Lemma qc_mult_this x y : (this (x * y) == this x * this y)%Q.
Proof. apply Qred_correct. Qed.
Lemma qc_opp_this x : (this (- x) == - this x)%Q.
Proof. apply Qred_correct. Qed.
Lemma qc_minus_this x y : (this (x - y) == this x - this y)%Q.
Proof. unfold Qcminus. rewrite qc_plus_this, qc_opp_this. reflexivity. Qed.
Lemma qc_0_this : (this 0 == 0)%Q.
Proof. reflexivity. Qed.
Lemma qc_1_this : (this 1 == 1)%Q.
Proof. reflexivity. Qed.
Lemma qc_q2qc_this q : (this (Q2Qc q) == q)%Q.
Proof. apply Qred_correct. Qed.

Ltac qc_to_q :=
  repeat match goal with
  | H : @eq Qc _ _ |- _ => apply qc_this_eq in H
  end;
  try apply qc_eq;
  unfold Qclt, Qcle in *;
  repeat (rewrite ?qc_plus_this, ?qc_mult_this, ?qc_minus_this, ?qc_opp_this,
    ?qc_0_this, ?qc_1_this, ?qc_q2qc_this in * ).
Ltac qlra := qc_to_q; lra.
Ltac qnra := qc_to_q; nra.

Example qlra_test (x y z : Qc) : x < y -> y <= z - 1 -> x + 1 < z.
Proof. intros. qlra. Qed.
Example qlra_test2 (x y : Qc) : x <= y -> y <= x -> x = y.
Proof. intros. qlra. Qed.
