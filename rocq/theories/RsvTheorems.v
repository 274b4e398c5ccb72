(** Theorems about vectors that are stored elsewhere, and two-dimensional vectors. *)
From Coq Require Import List ZArith Bool Reals Lia Lra Psatz.
From Verif Require Import PyBase VecModel RsvModel RsvSpec RsvProof.
Import ListNotations.
Open Scope Z_scope.

(** ** C108: vectors that are stored elsewhere *)

(** Storing into the vector with number [i] changes it as the same operation on coordinates would, and no other vector of the array. *)
Theorem remote_updates : forall (m : Z -> R) base i (v : vec) (x : R),
  let here := located 3 base i in
  let old := vector_number m base i in
  vector_becomes m (setX m here x) base i (Vec x (vy old) (vz old)) /\
  vector_becomes m (setY m here x) base i (Vec (vx old) x (vz old)) /\
  vector_becomes m (setZ m here x) base i (Vec (vx old) (vy old) x) /\
  vector_becomes m (addToX m here x) base i (Vec (vx old + x)%R (vy old) (vz old)) /\
  vector_becomes m (assign_vector m here v) base i v /\
  vector_becomes m (add_assign m here v) base i (Vec (vx old + vx v) (vy old + vy v) (vz old + vz v))%R /\
  vector_becomes m (atomicAdd_vector m here v) base i (Vec (vx old + vx v) (vy old + vy v) (vz old + vz v))%R /\
  vector_becomes m (times_assign m here x) base i (Vec (vx old * x) (vy old * x) (vz old * x))%R /\
  vector_becomes m (over_assign m here x) base i (Vec (vx old / x) (vy old / x) (vz old / x))%R.
Proof. intros. apply updates. Qed.
Print Assumptions remote_updates.

(** Reading gives the coordinates, and operators give what they give for the vectors that are stored. *)
Theorem remote_values : forall (m : Z -> R) base base' i j (v : vec) (x : R),
  let a := vector_number m base i in
  let b := vector_number m base' j in
  let here := located 3 base i in
  let there := located 3 base' j in
  converted m here = a /\ getX m here = vx a /\ getY m here = vy a /\ getZ m here = vz a /\
  plus_remote m here there = Vec (vx a + vx b) (vy a + vy b) (vz a + vz b) /\
  plus_vector m here v = Vec (vx a + vx v) (vy a + vy v) (vz a + vz v) /\
  minus_remote m here there = Vec (vx a - vx b) (vy a - vy b) (vz a - vz b) /\
  minus_vector m here v = Vec (vx a - vx v) (vy a - vy v) (vz a - vz v) /\
  times m here x = Vec (vx a * x) (vy a * x) (vz a * x) /\
  over m here x = Vec (vx a / x) (vy a / x) (vz a / x) /\
  (equals m here v = true <-> a = v) /\
  dot 3 m here there = (vx a * vx b + vy a * vy b + vz a * vz b)%R /\
  getMagnitudeSquared 3 m here = (vx a * vx a + vy a * vy a + vz a * vz a)%R /\
  getMagnitude 3 m here = sqrt (vx a * vx a + vy a * vy a + vz a * vz a).
Proof.
  intros. subst a b here there.
  assert (D : forall p q, dot 3 m (located 3 base p) (located 3 base' q) =
    (m (base + 3 * p)%Z * m (base' + 3 * q)%Z + m (base + 3 * p + 1)%Z * m (base' + 3 * q + 1)%Z + m (base + 3 * p + 2)%Z * m (base' + 3 * q + 2)%Z)%R).
  { intros p q. rewrite dot_total. unfold located. cbn [seq map total fold_right]. change (Z.of_nat 0) with 0. change (Z.of_nat 1) with 1. change (Z.of_nat 2) with 2.
    rewrite !Z.add_0_r. lra. }
  assert (M : dot 3 m (located 3 base i) (located 3 base i) =
    (m (base + 3 * i)%Z * m (base + 3 * i)%Z + m (base + 3 * i + 1)%Z * m (base + 3 * i + 1)%Z + m (base + 3 * i + 2)%Z * m (base + 3 * i + 2)%Z)%R).
  { rewrite dot_total. unfold located. cbn [seq map total fold_right]. change (Z.of_nat 0) with 0. change (Z.of_nat 1) with 1. change (Z.of_nat 2) with 2.
    rewrite !Z.add_0_r. lra. }
  assert (X : forall bs p, getX m (located 3 bs p) = m (bs + 3 * p)) by (intros; unfold getX, located; rewrite Z.add_0_r; reflexivity).
  assert (Y : forall bs p, getY m (located 3 bs p) = m (bs + 3 * p + 1)) by reflexivity.
  assert (W : forall bs p, getZ m (located 3 bs p) = m (bs + 3 * p + 2)) by reflexivity.
  unfold converted, plus_remote, plus_vector, minus_remote, minus_vector, times, over, getMagnitudeSquared, getMagnitude.
  rewrite D, M, !X, !Y, !W. unfold vector_number; cbn [vx vy vz].
  split; [reflexivity|]. split; [reflexivity|]. split; [reflexivity|]. split; [reflexivity|]. split; [reflexivity|]. split; [reflexivity|]. split; [reflexivity|].
  split; [reflexivity|]. split; [reflexivity|]. split; [reflexivity|]. split; [apply equals_spec|]. repeat split; reflexivity.
Qed.
Print Assumptions remote_values.

(** In [D] dimensions: assignment and addition of a vector of the same array, which may be the same vector. *)
Theorem remote_vector_updates : forall (m : Z -> R) (D : nat) base i j,
  let here := located (Z.of_nat D) base i in
  let there := located (Z.of_nat D) base j in
  only_elements m (assign D m here there) here (elements m there D) /\
  only_elements m (atomicAdd_remote D m here there) here (map (fun p => fst p + snd p)%R (combine (elements m here D) (elements m there D))).
Proof.
  intros. split; [apply assigned, same_array|].
  replace (map _ (combine _ _)) with (map (fun k => m (here + Z.of_nat k)%Z + m (there + Z.of_nat k)%Z)%R (seq 0 D)).
  - apply added, same_array.
  - unfold elements. generalize (seq 0 D). induction l as [|k l IH]; [reflexivity|]. cbn [map combine fst snd]. rewrite IH. reflexivity.
Qed.
Print Assumptions remote_vector_updates.
(** More generally, storage may overlap unless a later part of the source is overwritten first. *)
Theorem remote_assignment : forall V (m : Z -> V) (D : nat) destination source, readable_in_order D destination source ->
  only_elements m (assign D m destination source) destination (elements m source D).
Proof. intros. apply assigned. assumption. Qed.
Print Assumptions remote_assignment.
(** If it is, assignment does not make the vectors equal: the first element is repeated. *)
Theorem remote_assignment_refuted : forall V (m : Z -> V) source, m (source + 1) <> m source ->
  elements (assign 3 m (source + 1) source) (source + 1) 3 <> elements m source 3.
Proof.
  intros V m s N E. unfold elements, assign in E. cbn [seq map assign_from] in E. injection E as _ E _. apply N. rewrite <- E. clear E. cbv [poke].
  change (Z.of_nat 1) with 1. repeat match goal with |- context [?a =? ?b] => destruct (Z.eqb_spec a b); try lia end. f_equal; lia.
Qed.
Print Assumptions remote_assignment_refuted.

(** The scalar product, the magnitude, and whether all elements are finite, in [D] dimensions. *)
Theorem remote_products : forall (m : Z -> R) (D : nat) a b,
  dot D m a b = total (map (fun p => fst p * snd p)%R (combine (elements m a D) (elements m b D))) /\
  getMagnitudeSquared D m a = total (map (fun x => x * x)%R (elements m a D)) /\
  getMagnitude D m a = sqrt (total (map (fun x => x * x)%R (elements m a D))) /\
  (forall V (m : Z -> V) isfinite, isFinite isfinite D m a = true <-> Forall (fun x => isfinite x = true) (elements m a D)).
Proof.
  intros.
  assert (Q : dot D m a a = total (map (fun x => x * x)%R (elements m a D))) by (rewrite dot_total; unfold elements; rewrite map_map; reflexivity).
  unfold getMagnitudeSquared, getMagnitude. rewrite Q. split; [|split; [reflexivity|split; [reflexivity|]]].
  - rewrite dot_total. f_equal. unfold elements. generalize (seq 0 D). induction l as [|k l IH]; [reflexivity|]. cbn [map combine fst snd]. rewrite IH. reflexivity.
  - intros V m' f. rewrite finite_elements, forallb_forall, Forall_forall. reflexivity.
Qed.
Print Assumptions remote_products.

(** Elements by index: those of the vector; beyond them, an exception on the host if [OPENMPCD_DEBUG] is defined, and elements of later vectors otherwise. *)
Theorem remote_get : forall V (m : Z -> V) D base i k, 0 < D -> 0 <= k ->
  (k < D -> forall checked, get checked D m (located D base i) k = Ok (m (base + D * i + k))) /\
  (D <= k -> get true D m (located D base i) k = Err OutOfBoundsException) /\
  get false D m (located D base i) k = get true D m (located D base (i + k / D)) (k mod D).
Proof.
  intros V m D base i k P K. unfold get, located. split; [|split].
  - intros H checked. destruct (Z.leb_spec D k); [lia|]. rewrite andb_false_r. reflexivity.
  - intros H. destruct (Z.leb_spec D k); [reflexivity|lia].
  - cbn [andb]. pose proof (Z.mod_pos_bound k D P). destruct (Z.leb_spec D (k mod D)); [lia|]. do 2 f_equal.
    pose proof (Z.div_mod k D). lia.
Qed.
Print Assumptions remote_get.

(** With complex elements, [dot] does not conjugate, unlike that of [Vector3D]: a vector that is not zero can have the squared magnitude zero. *)
Theorem remote_complex_refuted : exists m : Z -> cplx,
  m 0 <> Cplx 0 0 /\ complex_dot 3 m 0 0 = Cplx 0 0 /\ cvdot (CVec (m 0) (m 1) (m 2)) (CVec (m 0) (m 1) (m 2)) = Cplx 2 0.
Proof.
  exists (fun c => if c =? 0 then Cplx 1 0 else if c =? 1 then Cplx 0 1 else Cplx 0 0). split; [|split].
  - cbn. intros H. injection H. lra.
  - unfold complex_dot, dot_of. cbn [dot_from]. cbn. unfold cadd, cmul, cR; cbn. f_equal; ring.
  - unfold cvdot, cadd, cmul, cconj; cbn. f_equal; ring.
Qed.
Print Assumptions remote_complex_refuted.

Definition example_memory : Z -> R := fun c => IZR (c * c).
Example remote_example :
  vector_number example_memory 0 1 = Vec 9 16 25 /\
  vector_number (add_assign example_memory (located 3 0 1) (Vec 1 2 3)) 0 1 = Vec 10 18 28 /\
  vector_number (add_assign example_memory (located 3 0 1) (Vec 1 2 3)) 0 2 = Vec 36 49 64 /\
  elements (assign 2 example_memory (located 2 0 3) (located 2 0 1)) 4 4 = [16; 25; 4; 9]%R /\
  elements (assign 3 example_memory 2 1) 1 4 = [1; 1; 1; 1]%R /\
  elements (assign 3 example_memory 1 2) 1 4 = [4; 9; 16; 16]%R /\
  dot 2 example_memory 1 2 = 40%R.
Proof.
  repeat match goal with |- _ /\ _ => split end; cbv -[IZR Rplus Rmult]; repeat f_equal; try lra; try (unfold elements; cbn).
Qed.

(** ** C109: vectors in the plane *)
Open Scope R_scope.

(** The scalar product is symmetric and bilinear, and that of a vector with itself is the square of its magnitude, which is only zero for the vector of zeros. *)
Theorem planar_products : forall u v w k,
  dot2 u v = x2 u * x2 v + y2 u * y2 v /\
  dot2 u v = dot2 v u /\
  dot2 (Vec2 (x2 u + k * x2 v) (y2 u + k * y2 v)) w = dot2 u w + k * dot2 v w /\
  dot2 u u = magnitude2 u * magnitude2 u /\ magnitude2_squared u = dot2 u u /\ 0 <= magnitude2 u /\
  (magnitude2 u = 0 <-> u = default2) /\
  Rabs (dot2 u v) <= magnitude2 u * magnitude2 v.
Proof.
  intros. split; [reflexivity|]. split; [unfold dot2; ring|]. split; [unfold dot2; cbn [x2 y2]; ring|].
  split; [rewrite magnitude2_square; reflexivity|]. split; [reflexivity|]. split; [apply sqrt_pos|]. split.
  - split.
    + intros H. apply squares_zero. rewrite <- magnitude2_square, H. ring.
    + intros ->. unfold magnitude2. rewrite (proj2 (squares_zero default2) eq_refl). apply sqrt_0.
  - apply Rsqr_incr_0_var; [|apply Rmult_le_pos; apply sqrt_pos]. rewrite <- Rsqr_abs. unfold Rsqr.
    replace (magnitude2 u * magnitude2 v * (magnitude2 u * magnitude2 v)) with (magnitude2_squared u * magnitude2_squared v) by (rewrite <- !magnitude2_square; ring).
    rewrite <- (lagrange u v). pose proof (Rle_0_sqr (x2 u * y2 v - y2 u * x2 v)) as Q. unfold Rsqr in Q. lra.
Qed.
Print Assumptions planar_products.

(** The angle between two vectors. *)
Theorem planar_angle : forall v w, v <> default2 -> w <> default2 ->
  exists th, angle2 v w = Some th /\ angle2 w v = Some th /\ 0 <= th <= PI /\ cosine2 v w = Some (cos th) /\
    dot2 v w = magnitude2 v * magnitude2 w * cos th /\
    (th = PI / 2 <-> dot2 v w = 0) /\
    (th = 0 <-> exists k, 0 < k /\ w = Vec2 (k * x2 v) (k * y2 v)) /\
    (th = PI <-> exists k, k < 0 /\ w = Vec2 (k * x2 v) (k * y2 v)) /\
    (forall k, 0 < k -> angle2 v (Vec2 (k * x2 w) (k * y2 w)) = Some th).
Proof.
  intros v w Nv Nw. destruct (angle2_some v w Nv Nw) as (th & E & B & H). destruct (cosine2_some v w Nv Nw) as [C CB].
  pose proof (magnitude2_positive v Nv) as Pv. pose proof (magnitude2_positive w Nw) as Pw. pose proof PI_RGT_0 as PP.
  assert (P : 0 < magnitude2 v * magnitude2 w) by (apply Rmult_lt_0_compat; assumption).
  assert (CT : dot2 v w / (magnitude2 v * magnitude2 w) = cos th) by (rewrite H; field; lra).
  assert (S : forall s, cos th = s -> s * s = 1 -> exists k, 0 < s * k /\ w = Vec2 (k * x2 v) (k * y2 v)).
  { intros s Hs S1. pose proof (lagrange v w) as L. rewrite H, Hs in L.
    assert (X : x2 v * y2 w - y2 v * x2 w = 0).
    { rewrite <- !magnitude2_square in L. assert (Q : (x2 v * y2 w - y2 v * x2 w) * (x2 v * y2 w - y2 v * x2 w) = 0).
      { transitivity (magnitude2 v * magnitude2 v * (magnitude2 w * magnitude2 w) * (1 - s * s)); [lra|rewrite S1; ring]. }
      nra. }
    pose proof (squares_positive v Nv) as Qv. exists (dot2 v w / magnitude2_squared v). split.
    - rewrite H, Hs. replace (s * (magnitude2 v * magnitude2 w * s / magnitude2_squared v)) with (s * s * (magnitude2 v * magnitude2 w / magnitude2_squared v)) by (field; lra).
      rewrite S1, Rmult_1_l. apply Rdiv_lt_0_compat; assumption.
    - destruct v as [a b], w as [c d]. unfold magnitude2_squared, dot2 in *. cbn [x2 y2] in *.
      assert (b * c = a * d) by lra. f_equal.
      + replace ((a * c + b * d) / (a * a + b * b) * a) with ((a * a * c + b * (a * d)) / (a * a + b * b)) by (field; lra).
        rewrite <- H0. field. lra.
      + replace ((a * c + b * d) / (a * a + b * b) * b) with ((a * (b * c) + b * b * d) / (a * a + b * b)) by (field; lra).
        rewrite H0. field. lra. }
  assert (T : forall k, w = Vec2 (k * x2 v) (k * y2 v) -> dot2 v w = k * magnitude2_squared v /\ magnitude2 w = Rabs k * magnitude2 v).
  { intros k ->. split; [unfold magnitude2_squared, dot2; cbn [x2 y2]; ring|]. unfold magnitude2.
    replace (magnitude2_squared (Vec2 (k * x2 v) (k * y2 v))) with (Rsqr k * magnitude2_squared v) by (unfold magnitude2_squared, dot2, Rsqr; cbn [x2 y2]; ring).
    rewrite sqrt_mult; [|apply Rle_0_sqr|apply squares_nonneg]. rewrite sqrt_Rsqr_abs. reflexivity. }
  exists th. split; [exact E|]. split.
  { unfold angle2 in *. replace (cosine2 w v) with (cosine2 v w); [exact E|]. unfold cosine2.
    rewrite (Rmult_comm (magnitude2_squared w)). replace (dot2 w v) with (dot2 v w) by (unfold dot2; ring). reflexivity. }
  split; [exact B|]. split; [rewrite C, CT; reflexivity|]. split; [exact H|]. split; [|split; [|split]].
  - split.
    + intros ->. rewrite H, cos_PI2. ring.
    + intros D. assert (Z0 : cos th = 0) by (rewrite <- CT, D; unfold Rdiv; ring).
      rewrite <- (acos_cos th B), Z0. apply acos_0.
  - split.
    + intros ->. destruct (S 1) as (k & K & W); [apply cos_0|ring|]. exists k. split; [lra|exact W].
    + intros (k & K & W). destruct (T k W) as [D M]. rewrite (Rabs_right k) in M by lra.
      assert (O : cos th = 1) by (rewrite <- CT, D, M, <- magnitude2_square; field; lra).
      rewrite <- (acos_cos th B), O. apply acos_1.
  - split.
    + intros ->. destruct (S (-1)) as (k & K & W); [apply cos_PI|ring|]. exists k. split; [lra|exact W].
    + intros (k & K & W). destruct (T k W) as [D M]. rewrite (Rabs_left k) in M by lra.
      assert (O : cos th = cos PI) by (rewrite cos_PI, <- CT, D, M, <- magnitude2_square; field; lra).
      rewrite <- (acos_cos th B), O. apply acos_cos. lra.
  - intros k K. set (w' := Vec2 (k * x2 w) (k * y2 w)).
    assert (N' : w' <> Vec2 0 0).
    { intros Q. apply Nw. unfold w' in Q. injection Q as Q1 Q2. destruct w as [c d]; cbn [x2 y2] in *. unfold default2. f_equal; nra. }
    unfold angle2. rewrite (proj1 (cosine2_some v w' Nv N')). cbn [option_map]. rewrite <- E. unfold angle2. rewrite C. cbn [option_map]. do 2 f_equal.
    assert (M : magnitude2 w' = k * magnitude2 w).
    { unfold magnitude2. replace (magnitude2_squared w') with (Rsqr k * magnitude2_squared w) by (unfold w', magnitude2_squared, dot2, Rsqr; cbn [x2 y2]; ring).
      rewrite sqrt_mult; [|apply Rle_0_sqr|apply squares_nonneg]. rewrite sqrt_Rsqr by lra. reflexivity. }
    rewrite M. replace (dot2 v w') with (k * dot2 v w) by (unfold w', dot2; cbn [x2 y2]; ring). field. lra.
Qed.
Print Assumptions planar_angle.
(** There is none with the vector of zeros, for which the code divides by zero. *)
Theorem planar_angle_zero : forall v w, (cosine2 v w = None <-> v = default2 \/ w = default2) /\ (angle2 v w = None <-> v = default2 \/ w = default2).
Proof.
  intros. split; [apply cosine2_none|]. rewrite <- (cosine2_none v w). unfold angle2. destruct (cosine2 v w); cbn; split; congruence.
Qed.
Print Assumptions planar_angle_zero.
(** Equality. *)
Theorem planar_equality : forall v w, (equal2 v w = true <-> v = w) /\ unequal2 v w = negb (equal2 v w).
Proof.
  intros [a b] [c d]. split; [|reflexivity]. unfold equal2; cbn [x2 y2].
  destruct (reqb_spec a c), (reqb_spec b d); cbn [andb]; split; intros H; try discriminate H; try reflexivity; try (f_equal; assumption); injection H; intros; contradiction.
Qed.
Print Assumptions planar_equality.
(** With complex coordinates, the first vector is conjugated; the square of a magnitude is the sum of the squares of absolute values. *)
Theorem planar_complex : forall u v : cvec2,
  cdot2 u v = cconj (cdot2 v u) /\ im (cdot2 u u) = 0 /\
  cmagnitude2_squared u = re (cx2 u) * re (cx2 u) + im (cx2 u) * im (cx2 u) + (re (cy2 u) * re (cy2 u) + im (cy2 u) * im (cy2 u)) /\
  cmagnitude2 u * cmagnitude2 u = cmagnitude2_squared u /\
  (cmagnitude2 u = 0 <-> u = CVec2 (Cplx 0 0) (Cplx 0 0)) /\
  forall a, cdot2 u (CVec2 (cmul a (cx2 v)) (cmul a (cy2 v))) = cmul a (cdot2 u v).
Proof.
  intros [[a b] [c d]] [[e f] [g h]].
  assert (Q : cmagnitude2_squared (CVec2 (Cplx a b) (Cplx c d)) = a * a + b * b + (c * c + d * d)).
  { unfold cmagnitude2_squared, cdot2, cadd, cmul, cconj; cbn [re im cx2 cy2]. ring. }
  split; [unfold cdot2, cadd, cmul, cconj; cbn [re im cx2 cy2]; f_equal; ring|].
  split; [unfold cdot2, cadd, cmul, cconj; cbn [re im cx2 cy2]; ring|].
  split; [exact Q|]. split; [unfold cmagnitude2; rewrite Q; apply sqrt_sqrt; nra|]. split.
  - unfold cmagnitude2. rewrite Q. split.
    + intros H. apply sqrt_eq_0 in H; [|nra]. assert (a = 0) by nra. assert (b = 0) by nra. assert (c = 0) by nra. assert (d = 0) by nra. subst. reflexivity.
    + intros H. injection H as -> -> -> ->. replace (0 * 0 + 0 * 0 + (0 * 0 + 0 * 0)) with 0 by ring. apply sqrt_0.
  - intros [s t]. unfold cdot2, cadd, cmul, cconj; cbn [re im cx2 cy2]. f_equal; ring.
Qed.
Print Assumptions planar_complex.
Example planar_example : dot2 (Vec2 1 2) (Vec2 3 4) = 11 /\ angle2 (Vec2 1 2) (Vec2 (-2) 1) = Some (PI / 2) /\ angle2 (Vec2 1 2) (Vec2 2 4) = Some 0 /\
  cdot2 (CVec2 (Cplx 0 1) (Cplx 1 0)) (CVec2 (Cplx 0 1) (Cplx 2 0)) = Cplx 3 0 /\ equal2 (Vec2 1 2) (Vec2 1 2) = true.
Proof.
  split; [unfold dot2; cbn [x2 y2]; lra|]. split; [|split; [|split]].
  - destruct (planar_angle (Vec2 1 2) (Vec2 (-2) 1)) as (th & E & _ & _ & _ & _ & O & _); [unfold default2; intros H; injection H; lra|unfold default2; intros H; injection H; lra|].
    rewrite E. f_equal. apply O. unfold dot2; cbn [x2 y2]. lra.
  - destruct (planar_angle (Vec2 1 2) (Vec2 2 4)) as (th & E & _ & _ & _ & _ & _ & O & _); [unfold default2; intros H; injection H; lra|unfold default2; intros H; injection H; lra|].
    rewrite E. f_equal. apply O. exists 2. split; [lra|]. cbn [x2 y2]. f_equal; lra.
  - unfold cdot2, cadd, cmul, cconj; cbn [re im cx2 cy2]. f_equal; ring.
  - apply planar_equality. reflexivity.
Qed.
