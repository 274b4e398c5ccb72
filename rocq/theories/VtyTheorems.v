(** C134: arguments of vectors of real numbers, and when vectors are equal or close. *)
From Coq Require Import List ZArith QArith Qcanon Bool.
From Verif Require Import QcBase PyBase VtyModel VtySpec VtyProof.
Import ListNotations.
Open Scope Qc_scope.

(** Vectors are made from a vector, a sequence of three numbers, or three numbers; all else is a TypeError. *)
Theorem vector_made : forall x y z v, construct x y z = Ok v <-> made_from x y z v.
Proof.
  intros x y z v. split.
  - destruct x as [n|[a b c]|l| |]; cbn; try discriminate.
    + destruct y; cbn; try discriminate. destruct z; cbn; try discriminate. intros H. inversion H. constructor.
    + destruct y; cbn; try discriminate. destruct z; cbn; try discriminate. intros H. inversion H. constructor.
    + destruct y; cbn; try discriminate. destruct z; cbn; try discriminate.
      destruct l as [|a [|b [|c [|d l]]]]; cbn; try discriminate.
      destruct a; cbn; try discriminate. destruct b; cbn; try discriminate. destruct c; cbn; try discriminate. intros H. inversion H. constructor.
  - intros H. inversion H; subst; cbn; try reflexivity. destruct v; reflexivity.
Qed.
Print Assumptions vector_made.
Theorem vector_not_made : forall x y z, (forall v, ~ made_from x y z v) -> construct x y z = Err TypeError.
Proof.
  intros x y z H. destruct (construct x y z) as [v|e] eqn:E; [apply vector_made in E; destruct (H v E)|]. revert E. clear H.
  destruct x as [n|[a b c]|l| |]; cbn; try (intros E; inversion E; reflexivity).
  - destruct y; cbn; try (intros E; inversion E; reflexivity). destruct z; cbn; intros E; inversion E; reflexivity.
  - destruct (negb (is_none y) || negb (is_none z)); intros E; inversion E; reflexivity.
  - destruct (negb (is_none y) || negb (is_none z)); [intros E; inversion E; reflexivity|].
    destruct l as [|a [|b [|c [|d l]]]]; cbn; try (intros E; inversion E; reflexivity).
    destruct a; cbn; try (intros E; inversion E; reflexivity). destruct b; cbn; try (intros E; inversion E; reflexivity).
    destruct c; cbn; intros E; inversion E; reflexivity.
Qed.
Print Assumptions vector_not_made.
Example vector_made_example :
  construct (VSeq [VNum (NInt 1); VNum (NFloat 0); VNum (NInt 3)]) VNone VNone = Ok (PVec (NInt 1) (NFloat 0) (NInt 3)) /\
  construct (VNum (NInt 1)) (VNum (NInt 2)) VNone = Err TypeError /\ construct (VSeq [VNum (NInt 1)]) VNone VNone = Err TypeError /\
  construct (VSeq [VNum (NInt 1); VNum (NInt 2); VNum (NInt 3)]) (VNum (NInt 4)) VNone = Err TypeError.
Proof. repeat split. Qed.
Example vector_not_made_example : construct VNone VNone VNone = Err TypeError.
Proof. reflexivity. Qed.

(** Vectors are equal if their coordinates are, integers or not; what is not a vector cannot be compared. *)
Theorem vector_equality : forall v rhs,
  (forall w, rhs = VVec w -> exists b, py_eq v rhs = Ok b /\ py_ne v rhs = Ok (negb b) /\ (b = true <-> coordinates v = coordinates w)) /\
  (~ is_vector rhs -> py_eq v rhs = Err TypeError /\ py_ne v rhs = Err TypeError).
Proof.
  intros v rhs. split.
  - intros w ->. unfold py_ne, py_eq, num_eqb, coordinates. cbn.
    destruct (qeqb (num_value (px v)) (num_value (px w))) eqn:A; cbn;
      [|exists false; repeat split; try discriminate; intros E; inversion E; apply qeqb_spec in H0; congruence].
    destruct (qeqb (num_value (py v)) (num_value (py w))) eqn:B; cbn;
      [|exists false; repeat split; try discriminate; intros E; inversion E; apply qeqb_spec in H1; congruence].
    destruct (qeqb (num_value (pz v)) (num_value (pz w))) eqn:C; cbn;
      [|exists false; repeat split; try discriminate; intros E; inversion E; apply qeqb_spec in H2; congruence].
    apply qeqb_spec in A, B, C. exists true. repeat split. intros _. now rewrite A, B, C.
  - intros N. destruct rhs; cbn; try (split; reflexivity). destruct N. eexists. reflexivity.
Qed.
Print Assumptions vector_equality.
Example vector_equality_example :
  py_eq (PVec (NInt 1) (NInt 2) (NInt 3)) (VVec (PVec (NFloat 1) (NInt 2) (NInt 3))) = Ok true /\
  py_ne (PVec (NInt 1) (NInt 2) (NInt 3)) (VVec (PVec (NInt 1) (NInt 2) (NInt 4))) = Ok true /\
  py_eq (PVec (NInt 1) (NInt 2) (NInt 3)) VNone = Err TypeError.
Proof. repeat split; vm_compute; reflexivity. Qed.

(** Vectors are close if all coordinates are within the tolerances, with those of numpy if none are given. *)
Theorem vector_close : forall v w r t rtol atol, stands_for (Q2Qc (1 # 100000)) r rtol -> stands_for (Q2Qc (1 # 100000000)) t atol ->
  exists b, isClose v (VVec w) r t = Ok b /\ (b = true <-> close rtol atol v w).
Proof.
  intros v w r t rtol atol A B. destruct (tolerance_spec _ _ _ A) as (o & E & F). destruct (tolerance_spec _ _ _ B) as (p & G & H).
  unfold isClose. cbn [assertIsSameType]. cbn. rewrite E. cbn. rewrite G. cbn. unfold default_rtol, default_atol. rewrite F, H.
  eexists. split; [reflexivity|]. apply close_spec.
Qed.
Print Assumptions vector_close.
Example vector_close_example :
  isClose (PVec (NInt 1) (NInt 2) (NInt 3)) (VVec (PVec (NInt 1) (NInt 2) (NInt 3))) VNone VNone = Ok true /\
  isClose (PVec (NInt 1) (NInt 2) (NInt 3)) (VVec (PVec (NInt 1) (NInt 2) (NInt 4))) VNone VNone = Ok false /\
  isClose (PVec (NInt 1) (NInt 2) (NInt 3)) (VVec (PVec (NInt 1) (NInt 2) (NInt 4))) VNone (VNum (NFloat 1)) = Ok true.
Proof. repeat split; vm_compute; reflexivity. Qed.

(** Tolerances that are negative or not floats are refused, as are arguments that are not vectors. *)
Theorem close_refused : forall v w r t q,
  (~ is_vector w -> isClose v w r t = Err TypeError) /\
  (q < 0 -> isClose v (VVec v) (VNum (NFloat q)) t = Err ValueError /\ isClose v (VVec v) VNone (VNum (NFloat q)) = Err ValueError) /\
  (forall z, isClose v (VVec v) (VNum (NInt z)) t = Err TypeError /\ isClose v (VVec v) VNone (VNum (NInt z)) = Err TypeError).
Proof.
  intros v w r t q. split; [|split].
  - intros N. destruct w; try reflexivity. destruct N. eexists. reflexivity.
  - intros H. apply qltb_spec in H. unfold isClose. cbn. rewrite H. split; reflexivity.
  - intros z. split; reflexivity.
Qed.
Print Assumptions close_refused.
Example close_refused_example : isClose (PVec (NInt 1) (NInt 2) (NInt 3)) VNone VNone VNone = Err TypeError.
Proof. reflexivity. Qed.

(** Not true: whether vectors are close to each other does not depend on which comes first. *)
Theorem close_refuted : exists v w r, isClose v (VVec w) r VNone = Ok true /\ isClose w (VVec v) r VNone = Ok false.
Proof. exists (PVec (NInt 1) (NInt 0) (NInt 0)), (PVec (NInt 2) (NInt 0) (NInt 0)), (VNum (NFloat (Q2Qc (1 # 2)))). split; vm_compute; reflexivity. Qed.
Print Assumptions close_refuted.
Example close_refuted_example :
  isClose (PVec (NInt 5) (NInt 0) (NInt 0)) (VVec (PVec (NInt 10) (NInt 0) (NInt 0))) (VNum (NFloat (Q2Qc (1 # 2)))) VNone = Ok true.
Proof. vm_compute. reflexivity. Qed.

(** Factors must be numbers, and divisors not zero; ratios are floats. *)
Theorem vector_scaled : forall v n,
  (exists w, py_mul v (VNum n) = Ok w /\ coordinates w = map (fun x => x * num_value n) (coordinates v)) /\
  (num_value n <> 0 -> exists w, py_div v (VNum n) = Ok w /\ coordinates w = map (fun x => x / num_value n) (coordinates v) /\
     exists a b c, w = PVec (NFloat a) (NFloat b) (NFloat c)) /\
  (num_value n = 0 -> py_div v (VNum n) = Err ValueError) /\
  (forall x, (forall m, x <> VNum m) -> py_mul v x = Err TypeError /\ py_div v x = Err TypeError).
Proof.
  intros v n. split; [|split; [|split]].
  - eexists. split; [reflexivity|]. unfold coordinates. cbn.
    assert (M : forall a, num_value (num_mul a n) = num_value a * num_value n) by (intros [x|x]; destruct n; cbn; try reflexivity; apply qz_mul).
    now rewrite !M.
  - intros N. unfold py_div. cbn. destruct (qeqb (num_value n) 0) eqn:E; [apply qeqb_spec in E; contradiction|].
    eexists. split; [reflexivity|]. split; [reflexivity|]. eauto.
  - intros E. unfold py_div. cbn. apply qeqb_spec in E. now rewrite E.
  - intros x N. destruct x; try (split; reflexivity). destruct (N n0). reflexivity.
Qed.
Print Assumptions vector_scaled.
Example vector_scaled_example :
  py_mul (PVec (NInt 1) (NInt 2) (NInt 3)) (VNum (NInt 2)) = Ok (PVec (NInt 2) (NInt 4) (NInt 6)) /\
  py_div (PVec (NInt 1) (NInt 2) (NInt 3)) (VNum (NInt 0)) = Err ValueError /\ py_mul (PVec (NInt 1) (NInt 2) (NInt 3)) VNone = Err TypeError.
Proof. repeat split. Qed.

(** Coordinates by index. *)
Theorem vector_item : forall v i,
  (py_item v 0 = Ok (px v) /\ py_item v 1 = Ok (py v) /\ py_item v 2 = Ok (pz v)) /\ ((i < 0 \/ 2 < i)%Z -> py_item v i = Err KeyError).
Proof.
  intros v i. split; [repeat split|]. intros H. unfold py_item.
  destruct (Z.eqb_spec i 0), (Z.eqb_spec i 1), (Z.eqb_spec i 2); subst; try reflexivity; exfalso; destruct H as [H|H]; revert H; apply Z.le_ngt; discriminate.
Qed.
Print Assumptions vector_item.
Example vector_item_example : py_item (PVec (NInt 1) (NInt 2) (NInt 3)) 2 = Ok (NInt 3) /\ py_item (PVec (NInt 1) (NInt 2) (NInt 3)) (-1) = Err KeyError.
Proof. split; reflexivity. Qed.

(** Not true: one can iterate over the coordinates of a vector, for instance to make a list of them. *)
Theorem vector_iterated_refuted : forall v fuel, py_iterate v (4 + fuel) 0 = Err KeyError.
Proof. reflexivity. Qed.
Print Assumptions vector_iterated_refuted.
Example vector_iterated_refuted_example : py_iterate (PVec (NInt 1) (NInt 2) (NInt 3)) 3 0 = Ok [NInt 1; NInt 2; NInt 3] /\
  py_iterate (PVec (NInt 1) (NInt 2) (NInt 3)) 100 0 = Err KeyError.
Proof. split; reflexivity. Qed.
