(** Property theorems about vectors: rotations (C30, C31), projections and products
    (C32), random directions (C33), and the order of vectors (C72). *)
From Coq Require Import Reals Lra.
From Verif Require Import PyBase VecBase VecModel VecSpec VecProof.
Open Scope R_scope.

(** C30: rotating about a unit axis is the counter-clockwise rotation about it by the
    given angle; there is only one such map; it keeps scalar products and orientation. *)
Theorem rotation_is_rotation : forall n x, unit3 n ->
  rotation_about n (cos x) (sin x) (vrotate n x) /\ rigid (vrotate n x) /\
  forall f, rotation_about n (cos x) (sin x) f -> forall v, f v = vrotate n x v.
Proof.
  exact (fun n x H => conj (vrotate_rotation n x H) (conj (vrotate_rigid n x H)
    (fun f F => rotation_unique n _ _ f _ H F (vrotate_rotation n x H)))).
Qed.
Print Assumptions rotation_is_rotation.
(** A quarter turn about the third axis takes the first axis to the second. *)
Example rotation_example : unit3 (Vec 0 0 1) /\ vrotate (Vec 0 0 1) (PI / 2) (Vec 1 0 5) = Vec 0 1 5.
Proof.
  split; [unfold unit3, dot3; cbn; ring|]. unfold vrotate, vrotate_cs. cbv zeta.
  rewrite cos_PI2, sin_PI2. vring.
Qed.

(** C30: angles add up, the opposite angle undoes a rotation, the angle zero does
    nothing. *)
Theorem rotation_group : forall n x y v, unit3 n ->
  vrotate n x (vrotate n y v) = vrotate n (x + y) v /\ vrotate n (- x) (vrotate n x v) = v
  /\ vrotate n 0 v = v.
Proof. exact (fun n x y v H => conj (vrotate_add n x y v H) (conj (vrotate_inv n x v H) (vrotate_0 n v H))). Qed.
Print Assumptions rotation_group.

(** C30: the analysis code computes the same rotation, and refuses an axis without
    length. *)
Theorem rotation_python : forall v n x,
  (n <> zero3 -> pyrotated v n x = Ok (vrotate n x v)) /\
  (n = zero3 -> pyrotated v n x = Err ValueError).
Proof.
  exact (fun v n x => conj
    (fun H => eq_trans (pyrotated_spec v n x)
       (match vec_eq_dec n zero3 as d return (if d then Err ValueError else Ok (vrotate n x v)) = Ok (vrotate n x v)
        with left E => False_ind _ (H E) | right _ => eq_refl end))
    (fun H => eq_trans (pyrotated_spec v n x)
       (match vec_eq_dec n zero3 as d return (if d then Err ValueError else Ok (vrotate n x v)) = Err ValueError
        with left _ => eq_refl | right N => False_ind _ (N H) end))).
Qed.
Print Assumptions rotation_python.

(** C31 is false: a vector with an imaginary component along the axis does not keep its
    length. *)
Theorem complex_rotation_refuted :
  exists v n x, unit3 n /\ clength2 v = 1 /\ cvlen2 v = 1 /\
    cvrotated v (real_cvec n) x = CVec (Cplx 0 (-3)) (Cplx 0 0) (Cplx 0 0) /\
    clength2 (cvrotated v (real_cvec n) x) = 9.
Proof. exact complex_rotation_witness. Qed.
Print Assumptions complex_rotation_refuted.

(** C31: the length is kept exactly if the component along the axis is real or the angle
    is a multiple of a quarter turn, other than half a turn. *)
Theorem complex_rotation_length : forall v n x, unit3 n ->
  cvlen2 v = clength2 v /\
  (clength2 (cvrotated v (real_cvec n) x) = clength2 v <->
   dot3 (cim v) n = 0 \/ cos x = 0 \/ cos x = 1).
Proof. exact complex_rotation_kept. Qed.
Print Assumptions complex_rotation_length.

(** C31: if the component along the axis is real, then the real and the imaginary parts
    are rotated separately, as the real vectors that they are. *)
Theorem complex_rotation_real : forall v n x, unit3 n -> dot3 (cim v) n = 0 ->
  cre (cvrotated v (real_cvec n) x) = vrotate n x (cre v) /\
  cim (cvrotated v (real_cvec n) x) = vrotate n x (cim v).
Proof. exact (fun v n x => cvrot_real n v x). Qed.
Print Assumptions complex_rotation_real.
Example complex_rotation_example :
  let v := CVec (Cplx 1 0) (Cplx 0 2) (Cplx 0 0) in unit3 (Vec 1 0 0) /\ dot3 (cim v) (Vec 1 0 0) = 0.
Proof. split; unfold unit3, dot3; cbn; ring. Qed.

(** C32: the projection and the perpendicular part split a vector, in the only possible
    way; projecting twice is projecting once; both programs agree. *)
Theorem projection_splits : forall v u, u <> zero3 ->
  exists p q, pyprojection v u = Ok p /\ pyperpendicular v u = Ok q /\
    vprojected v u = Ok p /\ vperpendicular v u = Ok q /\
    splits v u p q /\ (forall p' q', splits v u p' q' -> p' = p /\ q' = q) /\
    pyprojection p u = Ok p /\ vprojected p u = Ok p.
Proof. exact projection_ok. Qed.
Print Assumptions projection_splits.
Example projection_example : Vec 0 3 4 <> zero3 /\ splits (Vec 1 5 0) (Vec 0 3 4) (Vec 0 (9/5) (12/5)) (Vec 1 (16/5) (-12/5)).
Proof.
  split; [intros H; apply vec_inj in H; lra|]. unfold splits, plus3, dot3, times3; cbn. split; [|split].
  - apply vec_ext; lra.
  - exists (3/5). apply vec_ext; lra.
  - lra.
Qed.

(** C32: normalizing gives a vector of length one in the same direction; without a
    direction, all of these functions raise an exception. *)
Theorem normalized_unit : forall u, u <> zero3 ->
  exists k, 0 < k /\ pynormalized u = Ok (times3 k u) /\ vnormalized u = Ok (times3 k u) /\ unit3 (times3 k u).
Proof. exact normalized_ok. Qed.
Print Assumptions normalized_unit.
Theorem no_direction_fails : forall v,
  pynormalized zero3 = Err ValueError /\ pyprojection v zero3 = Err ValueError /\
  pyperpendicular v zero3 = Err ValueError /\ vnormalized zero3 = Err ZeroDivisionError /\
  vprojected v zero3 = Err ZeroDivisionError /\ vperpendicular v zero3 = Err ZeroDivisionError.
Proof.
  exact (fun v => match py_zero v with conj a (conj b c) => conj a (conj b (conj c (cpp_zero v))) end).
Qed.
Print Assumptions no_direction_fails.

(** C32: the vector product represents the spanned volume, is the only vector that does,
    is orthogonal to its factors, and has the length of the spanned area; the two
    programs agree on both products. *)
Theorem products_correct : forall a b,
  vector_product a b (vcross a b) /\ (forall c, vector_product a b c -> c = vcross a b) /\
  vdot a b = dot3 a b /\ pydot a b = dot3 a b /\ pycross a b = vcross a b /\
  dot3 (vcross a b) a = 0 /\ dot3 (vcross a b) b = 0 /\
  dot3 (vcross a b) (vcross a b) = dot3 a a * dot3 b b - dot3 a b * dot3 a b.
Proof. exact products_ok. Qed.
Print Assumptions products_correct.
Example products_example : vcross (Vec 1 0 0) (Vec 0 1 0) = Vec 0 0 1 /\ vcross (Vec 0 1 0) (Vec 1 0 0) = Vec 0 0 (-1).
Proof. split; vring. Qed.

(** C32: the angle between two vectors lies between zero and pi and has the cosine that
    the scalar product says. *)
Theorem angle_correct : forall a b, a <> zero3 -> b <> zero3 ->
  0 <= vangle a b <= PI /\ sqrt (dot3 a a) * sqrt (dot3 b b) * cos (vangle a b) = dot3 a b.
Proof. exact angle_cos. Qed.
Print Assumptions angle_correct.

(** C33: every vector built from numbers of the unit interval has length one; its height
    is affine in the first number and its azimuth linear in the second; and every
    direction can occur. *)
Theorem random_direction_unit : forall X1 X2, 0 <= X1 <= 1 ->
  unit3 (unit_vector X1 X2) /\ unit_vector X1 X2 = direction (2 * X1 - 1) (2 * PI * X2).
Proof. exact (fun X1 X2 H => conj (unit_vector_unit X1 X2 H) (unit_vector_direction X1 X2)). Qed.
Print Assumptions random_direction_unit.
Theorem random_direction_all : forall u, unit3 u ->
  exists X1 X2, 0 <= X1 <= 1 /\ 0 <= X2 < 1 /\ unit_vector X1 X2 = u.
Proof. exact unit_vector_onto. Qed.
Print Assumptions random_direction_all.
Example random_direction_example : unit_vector (1/2) (1/4) = Vec 0 1 0.
Proof.
  rewrite unit_vector_direction. unfold direction.
  replace (2 * PI * (1 / 4)) with (PI / 2) by field. rewrite cos_PI2, sin_PI2.
  replace (1 - (2 * (1 / 2) - 1) * (2 * (1 / 2) - 1)) with 1 by field. rewrite sqrt_1.
  apply vec_ext; field.
Qed.

(** C72: the order of vectors is the dictionary order, which is a strict total order. *)
Theorem vector_order : forall a b c,
  (vltb a b = true <-> lex3 a b) /\ vltb a a = false /\
  (vltb a b = true -> vltb b c = true -> vltb a c = true) /\
  (vltb a b = true \/ a = b \/ vltb b a = true) /\
  (vltb a b = true -> vltb b a = false).
Proof. exact vltb_order. Qed.
Print Assumptions vector_order.
Example vector_order_example : vltb (Vec 1 2 3) (Vec 1 2 4) = true /\ vltb (Vec 1 3 0) (Vec 1 2 4) = false.
Proof.
  split; [apply vltb_lex; unfold lex3; cbn; lra|].
  destruct (vltb (Vec 1 3 0) (Vec 1 2 4)) eqn:E; [|reflexivity].
  apply vltb_lex in E. unfold lex3 in E; cbn in E. lra.
Qed.
