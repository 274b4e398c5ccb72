(** Exact rational arithmetic used wherever the modelled code only needs field
    operations and comparisons on floating point numbers.  Not a model of code
    by itself. *)
From Coq Require Export List Arith ZArith QArith Qcanon Lia Permutation.
From Coq Require Import Field.
Export ListNotations.
Set Implicit Arguments.

Open Scope Qc_scope.

(** Injection of natural numbers (Python [int] / C++ [std::size_t] used in a
    floating point expression). *)
Definition qn (n : nat) : Qc := Q2Qc (inject_Z (Z.of_nat n)).
(** Injection of integers. *)
Definition qz (z : Z) : Qc := Q2Qc (inject_Z z).

Lemma qc_eq (x y : Qc) : (this x == this y)%Q -> x = y.
Proof. apply Qc_is_canon. Qed.

Ltac qcred := apply qc_eq; cbn [this Q2Qc Qcplus Qcmult Qcopp Qcminus Qcdiv Qcinv];
  repeat rewrite !Qred_correct.

Lemma qz_add a b : qz (a + b) = qz a + qz b.
Proof.
  unfold qz. qcred. unfold inject_Z, Qeq, Qplus; simpl. lia.
Qed.
Lemma qz_mul a b : qz (a * b) = qz a * qz b.
Proof.
  unfold qz. qcred. unfold inject_Z, Qeq, Qmult; simpl. lia.
Qed.
Lemma qz_opp a : qz (- a) = - qz a.
Proof.
  unfold qz. qcred. unfold inject_Z, Qeq, Qopp; simpl. lia.
Qed.
Lemma qz_sub a b : qz (a - b) = qz a - qz b.
Proof. unfold Z.sub. rewrite qz_add, qz_opp. ring. Qed.
Lemma qz_inj a b : qz a = qz b -> a = b.
Proof.
  intros H. unfold qz in H. apply Q2Qc_eq_iff in H.
  unfold inject_Z, Qeq in H; simpl in H. lia.
Qed.
Lemma qz_le a b : (a <= b)%Z -> qz a <= qz b.
Proof.
  intros H. unfold Qcle, qz. cbn [this Q2Qc]. rewrite !Qred_correct.
  unfold inject_Z, Qle; simpl. lia.
Qed.
Lemma qz_le_inv a b : qz a <= qz b -> (a <= b)%Z.
Proof.
  intros H. unfold Qcle, qz in H. cbn [this Q2Qc] in H. rewrite !Qred_correct in H.
  unfold inject_Z, Qle in H; simpl in H. lia.
Qed.
Lemma qz_lt a b : (a < b)%Z -> qz a < qz b.
Proof.
  intros H. unfold Qclt, qz. cbn [this Q2Qc]. rewrite !Qred_correct.
  unfold inject_Z, Qlt; simpl. lia.
Qed.

Lemma qn_qz n : qn n = qz (Z.of_nat n).
Proof. reflexivity. Qed.
Lemma qn_0 : qn 0 = 0.
Proof. apply Qc_is_canon. reflexivity. Qed.
Lemma qn_1 : qn 1 = 1.
Proof. apply Qc_is_canon. reflexivity. Qed.
Lemma qn_add a b : qn (a + b) = qn a + qn b.
Proof. rewrite !qn_qz, Nat2Z.inj_add. apply qz_add. Qed.
Lemma qn_S a : qn (S a) = qn a + 1.
Proof. rewrite <- Nat.add_1_r, qn_add, qn_1. reflexivity. Qed.
Lemma qn_mul a b : qn (a * b) = qn a * qn b.
Proof. rewrite !qn_qz, Nat2Z.inj_mul. apply qz_mul. Qed.
Lemma qn_inj a b : qn a = qn b -> a = b.
Proof. rewrite !qn_qz. intros H. apply qz_inj in H. lia. Qed.
Lemma qn_neq0 a : a <> 0%nat -> qn a <> 0.
Proof. rewrite <- qn_0. intros H E. apply qn_inj in E. auto. Qed.
Lemma qn_Sneq0 a : qn a + 1 <> 0.
Proof. rewrite <- qn_S. apply qn_neq0. discriminate. Qed.
Lemma qn_nonneg a : 0 <= qn a.
Proof. rewrite <- qn_0, !qn_qz. apply qz_le. lia. Qed.
Lemma qn_pos a : (0 < a)%nat -> 0 < qn a.
Proof. intros H. rewrite <- qn_0, !qn_qz. apply qz_lt. lia. Qed.

(** Order helpers. *)
Lemma Qc_sq_nonneg (x : Qc) : 0 <= x * x.
Proof.
  unfold Qcle. cbn [this Q2Qc Qcmult]. rewrite !Qred_correct.
  generalize (this x). intros [a b].
  change (0 * Z.pos (b * b) <= a * a * 1)%Z.
  pose proof (Z.square_nonneg a). lia.
Qed.
Lemma Qc_add_nonneg (x y : Qc) : 0 <= x -> 0 <= y -> 0 <= x + y.
Proof.
  intros Hx Hy. replace 0 with (0 + 0) by ring.
  apply Qcplus_le_compat; assumption.
Qed.
Lemma Qc_mul_nonneg (x y : Qc) : 0 <= x -> 0 <= y -> 0 <= x * y.
Proof.
  intros Hx Hy. replace 0 with (0 * y) by ring.
  apply Qcmult_le_compat_r; assumption.
Qed.
Lemma Qc_inv_nonneg (x : Qc) : 0 <= x -> 0 <= / x.
Proof.
  unfold Qcle. cbn [this Q2Qc Qcinv]. rewrite !Qred_correct.
  intros H. apply Qinv_le_0_compat. exact H.
Qed.
Lemma Qc_div_nonneg (x y : Qc) : 0 <= x -> 0 <= y -> 0 <= x / y.
Proof.
  intros Hx Hy. unfold Qcdiv. apply Qc_mul_nonneg; [assumption|].
  apply Qc_inv_nonneg; assumption.
Qed.

(** Decidable comparisons, as booleans. *)
Definition qeqb (x y : Qc) : bool := if Qc_eq_dec x y then true else false.
Definition qltb (x y : Qc) : bool := match (x ?= y) with Lt => true | _ => false end.
Definition qleb (x y : Qc) : bool := match (x ?= y) with Gt => false | _ => true end.

Lemma qeqb_spec x y : qeqb x y = true <-> x = y.
Proof. unfold qeqb. destruct (Qc_eq_dec x y); split; congruence. Qed.
Lemma qltb_spec x y : qltb x y = true <-> x < y.
Proof.
  unfold qltb. rewrite Qclt_alt.
  destruct (x ?= y); split; congruence.
Qed.
Lemma qleb_spec x y : qleb x y = true <-> x <= y.
Proof.
  unfold qleb. rewrite Qcle_alt. destruct (x ?= y); split; congruence.
Qed.
Lemma qltb_false x y : qltb x y = false <-> y <= x.
Proof.
  split; intros H.
  - apply Qcnot_lt_le. intros H2. apply qltb_spec in H2. congruence.
  - destruct (qltb x y) eqn:E; [|reflexivity].
    apply qltb_spec in E. exfalso. apply (Qclt_not_le _ _ E H).
Qed.
Lemma qleb_false x y : qleb x y = false <-> y < x.
Proof.
  split; intros H.
  - apply Qcnot_le_lt. intros H2. apply qleb_spec in H2. congruence.
  - destruct (qleb x y) eqn:E; [|reflexivity].
    apply qleb_spec in E. exfalso. apply (Qclt_not_le _ _ H E).
Qed.

(** Sums of lists of rationals. *)
Fixpoint qsum (l : list Qc) : Qc :=
  match l with [] => 0 | x :: r => x + qsum r end.

Lemma qsum_app l1 l2 : qsum (l1 ++ l2) = qsum l1 + qsum l2.
Proof. induction l1 as [|x l IH]; simpl; [ring|rewrite IH; ring]. Qed.
Lemma qsum_perm l1 l2 : Permutation l1 l2 -> qsum l1 = qsum l2.
Proof. induction 1; simpl; try congruence; ring. Qed.
Lemma qsum_nonneg l : (forall x, In x l -> 0 <= x) -> 0 <= qsum l.
Proof.
  induction l as [|x l IH]; simpl; intros H; [apply Qcle_refl|].
  apply Qc_add_nonneg; auto.
Qed.
Lemma qsum_map_plus A (f g : A -> Qc) l :
  qsum (map (fun x => f x + g x) l) = qsum (map f l) + qsum (map g l).
Proof. induction l as [|x l IH]; simpl; [ring|rewrite IH; ring]. Qed.
Lemma qsum_map_scale A (f : A -> Qc) c l :
  qsum (map (fun x => c * f x) l) = c * qsum (map f l).
Proof. induction l as [|x l IH]; simpl; [ring|rewrite IH; ring]. Qed.
Lemma qsum_map_const A (c : Qc) (l : list A) :
  qsum (map (fun _ => c) l) = qn (length l) * c.
Proof.
  induction l as [|x l IH]; cbn [map qsum length].
  - rewrite qn_0. ring.
  - rewrite IH, qn_S. ring.
Qed.
