(** Proofs about vectors. *)
From Coq Require Import Reals Lra Psatz.
From Verif Require Import PyBase VecBase VecModel VecSpec.
Open Scope R_scope.

Ltac vunfold := unfold vadd, vsub, vneg, vscale, vdivs, vcross, vdot, vmag2,
  pyadd, pysub, pymul, pydot, pycross, pylen2,
  plus3, minus3, times3, zero3, dot3, det3, unit3 in *; cbn [vx vy vz] in *.
Ltac vring := intros; vunfold; repeat match goal with |- Vec _ _ _ = Vec _ _ _ => apply vec_ext end; ring.

Lemma vdot_dot a b : vdot a b = dot3 a b.
Proof. reflexivity. Qed.
Lemma vadd_plus a b : vadd a b = plus3 a b.
Proof. reflexivity. Qed.
Lemma vsub_minus a b : vsub a b = minus3 a b.
Proof. reflexivity. Qed.
Lemma vscale_times k a : vscale k a = times3 k a.
Proof. destruct a. unfold vscale, times3; cbn. apply vec_ext; ring. Qed.
Lemma cross_product a b : vector_product a b (vcross a b).
Proof. intros v. destruct a, b, v. vring. Qed.
Lemma dot_self_nonneg v : 0 <= dot3 v v.
Proof. unfold dot3. nra. Qed.
Lemma dot_self_zero v : dot3 v v = 0 -> v = zero3.
Proof.
  destruct v as [x y z]. unfold dot3, zero3; cbn. intros H.
  apply vec_ext; nra.
Qed.
Lemma vector_product_unique a b c d : vector_product a b c -> vector_product a b d -> c = d.
Proof.
  intros H1 H2. destruct c as [x y z], d as [x' y' z'].
  assert (X := eq_trans (H1 (Vec 1 0 0)) (eq_sym (H2 (Vec 1 0 0)))).
  assert (Y := eq_trans (H1 (Vec 0 1 0)) (eq_sym (H2 (Vec 0 1 0)))).
  assert (Z := eq_trans (H1 (Vec 0 0 1)) (eq_sym (H2 (Vec 0 0 1)))).
  unfold dot3 in X, Y, Z; cbn in X, Y, Z. apply vec_ext; lra.
Qed.
Lemma dot_comm a b : dot3 a b = dot3 b a.
Proof. unfold dot3. ring. Qed.
Lemma lagrange a b : dot3 (vcross a b) (vcross a b) = dot3 a a * dot3 b b - dot3 a b * dot3 a b.
Proof. destruct a, b. vring. Qed.
Lemma cauchy_schwarz a b : dot3 a b * dot3 a b <= dot3 a a * dot3 b b.
Proof. assert (H := dot_self_nonneg (vcross a b)). rewrite lagrange in H. lra. Qed.

(** * Rotations *)

Lemma rotate_linear n c s : linear3 (fun v => vrotate_cs n v c s).
Proof.
  split.
  - intros a b. destruct n, a, b. unfold vrotate_cs. cbv zeta. vring.
  - intros k a. destruct n, a. unfold vrotate_cs. cbv zeta. vring.
Qed.
Lemma unit3_sq n : unit3 n -> vx n * vx n = 1 - vy n * vy n - vz n * vz n.
Proof. unfold unit3, dot3. lra. Qed.
Lemma cs_sq c s : s * s + c * c = 1 -> c * c = 1 - s * s.
Proof. lra. Qed.
Lemma rotate_dot n c s a b : unit3 n -> s * s + c * c = 1 ->
  dot3 (vrotate_cs n a c s) (vrotate_cs n b c s) = dot3 a b.
Proof.
  intros Hn Hc. apply unit3_sq in Hn. apply cs_sq in Hc.
  destruct n as [nx ny nz], a as [a1 a2 a3], b as [b1 b2 b3]. unfold vrotate_cs. cbv zeta. vunfold.
  ring [Hn Hc].
Qed.
Lemma rotate_det n c s u v w : unit3 n -> s * s + c * c = 1 ->
  det3 (vrotate_cs n u c s) (vrotate_cs n v c s) (vrotate_cs n w c s) = det3 u v w.
Proof.
  intros Hn Hc. apply unit3_sq in Hn. apply cs_sq in Hc.
  destruct n as [nx ny nz], u as [u1 u2 u3], v as [v1 v2 v3], w as [w1 w2 w3]. unfold vrotate_cs. cbv zeta. vunfold.
  ring [Hn Hc].
Qed.
Lemma rotate_axis n c s : unit3 n -> vrotate_cs n n c s = n.
Proof.
  intros Hn. apply unit3_sq in Hn. destruct n as [nx ny nz]. unfold vrotate_cs. cbv zeta. vunfold.
  apply vec_ext; ring [Hn].
Qed.
Lemma rotate_is n c s : unit3 n -> rotation_about n c s (fun v => vrotate_cs n v c s).
Proof.
  intros Hn. split; [apply rotate_linear|]. split; [apply rotate_axis, Hn|]. intros v Hv.
  assert (E : vrotate_cs n v c s = plus3 (times3 c v) (times3 s (vcross n v))).
  { unfold vrotate_cs. cbv zeta. rewrite vdot_dot, Hv. destruct n, v. vring. }
  rewrite E. apply unit3_sq in Hn. destruct n as [nx ny nz], v as [v1 v2 v3]. vunfold. split; [|split].
  - transitivity (c * (v1 * nx + v2 * ny + v3 * nz)); [ring|]. rewrite Hv. ring.
  - ring.
  - transitivity (s * ((nx * nx + ny * ny + nz * nz) * (v1 * v1 + v2 * v2 + v3 * v3)
      - (v1 * nx + v2 * ny + v3 * nz) * (v1 * nx + v2 * ny + v3 * nz))); [ring|].
    rewrite Hv. replace (nx * nx + ny * ny + nz * nz) with 1 by lra. ring.
Qed.
Lemma rotate_compose n c s c' s' v : unit3 n ->
  vrotate_cs n (vrotate_cs n v c s) c' s' = vrotate_cs n v (c' * c - s' * s) (s' * c + c' * s).
Proof.
  intros Hn. apply unit3_sq in Hn.
  destruct n as [nx ny nz], v as [a1 a2 a3]. unfold vrotate_cs. cbv zeta. vunfold.
  apply vec_ext; ring [Hn].
Qed.
Lemma rotate_id n v : unit3 n -> vrotate_cs n v 1 0 = v.
Proof. intros _. destruct n, v. unfold vrotate_cs. cbv zeta. vring. Qed.

Lemma frame_expand n v w : unit3 n -> dot3 v n = 0 ->
  times3 (dot3 v v) w =
  plus3 (plus3 (times3 (dot3 v w) v) (times3 (det3 n v w) (vcross n v))) (times3 (dot3 v v * dot3 w n) n).
Proof.
  intros Hn Hv.
  assert (K : minus3 (times3 (dot3 n n * dot3 v v) w)
    (plus3 (plus3 (times3 (dot3 n n * dot3 v w) v) (times3 (det3 n v w) (vcross n v))) (times3 (dot3 v v * dot3 w n) n))
    = times3 (dot3 v n) (minus3 (times3 (dot3 v n) w) (plus3 (times3 (dot3 v w) n) (times3 (dot3 w n) v)))).
  { clear. destruct n as [nx ny nz], v as [v1 v2 v3], w as [w1 w2 w3]. vring. }
  unfold unit3 in Hn. rewrite Hn, Hv in K. revert K.
  generalize (dot3 v v) (dot3 v w) (det3 n v w) (dot3 w n) (vcross n v). intros p q r t x.
  destruct n as [nx ny nz], v as [v1 v2 v3], w as [w1 w2 w3], x as [x1 x2 x3]. vunfold. intros K.
  apply vec_inj in K. destruct K as (K1 & K2 & K3). apply vec_ext; lra.
Qed.
Lemma linear_zero f : linear3 f -> f zero3 = zero3.
Proof.
  intros (_ & H). specialize (H 0 zero3).
  replace (times3 0 zero3) with zero3 in H by (vring). rewrite H. destruct (f zero3). vring.
Qed.
Lemma times_cancel k a b : k <> 0 -> times3 k a = times3 k b -> a = b.
Proof.
  intros Hk. destruct a, b. unfold times3; cbn. intros H. apply vec_inj in H. destruct H as (H1 & H2 & H3).
  apply Rmult_eq_reg_l in H1, H2, H3; try assumption. subst. reflexivity.
Qed.
Lemma perp_rotation_unique n c s f v : unit3 n -> rotation_about n c s f -> dot3 v n = 0 ->
  f v = plus3 (times3 c v) (times3 s (vcross n v)).
Proof.
  intros Hn (L & _ & H) Hv.
  destruct (Req_EM_T (dot3 v v) 0) as [Z|NZ].
  - apply dot_self_zero in Z. subst v. rewrite (linear_zero f L). destruct n. vring.
  - destruct (H v Hv) as (H1 & H2 & H3).
    apply (times_cancel (dot3 v v)); [exact NZ|].
    rewrite (frame_expand n v (f v) Hn Hv), H1, H2, H3.
    generalize (dot3 v v) (vcross n v). intros p x. destruct n, v, x. vring.
Qed.
Lemma split_along n v : v = plus3 (times3 (dot3 v n) n) (minus3 v (times3 (dot3 v n) n)).
Proof. generalize (dot3 v n). intros p. destruct n, v. vring. Qed.
Lemma rotation_unique n c s f g : unit3 n -> rotation_about n c s f -> rotation_about n c s g ->
  forall v, f v = g v.
Proof.
  intros Hn F G v. rewrite (split_along n v).
  assert (Hp : dot3 (minus3 v (times3 (dot3 v n) n)) n = 0).
  { unfold unit3 in Hn. transitivity (dot3 v n * (1 - dot3 n n)).
    - clear. destruct n, v. vring. - rewrite Hn. ring. }
  assert (F' := F). assert (G' := G).
  destruct F' as ((FA & FM) & FN & _). destruct G' as ((GA & GM) & GN & _).
  rewrite FA, GA, FM, GM, FN, GN.
  rewrite (perp_rotation_unique n c s f _ Hn F Hp), (perp_rotation_unique n c s g _ Hn G Hp). reflexivity.
Qed.

Lemma trig_cs x : sin x * sin x + cos x * cos x = 1.
Proof. exact (sin2_cos2 x). Qed.
Lemma vrotate_rotation n x : unit3 n -> rotation_about n (cos x) (sin x) (vrotate n x).
Proof. intros H. exact (rotate_is n (cos x) (sin x) H). Qed.
Lemma vrotate_rigid n x : unit3 n -> rigid (vrotate n x).
Proof.
  intros H. split; [|split].
  - exact (rotate_linear n (cos x) (sin x)).
  - intros a b. apply rotate_dot; [exact H|apply trig_cs].
  - intros a b c. apply rotate_det; [exact H|apply trig_cs].
Qed.
Lemma vrotate_add n x y v : unit3 n -> vrotate n x (vrotate n y v) = vrotate n (x + y) v.
Proof.
  intros H. unfold vrotate. rewrite rotate_compose by exact H. rewrite cos_plus, sin_plus. reflexivity.
Qed.
Lemma vrotate_0 n v : unit3 n -> vrotate n 0 v = v.
Proof. intros H. unfold vrotate. rewrite cos_0, sin_0. apply rotate_id, H. Qed.
Lemma vrotate_inv n x v : unit3 n -> vrotate n (- x) (vrotate n x v) = v.
Proof. intros H. rewrite vrotate_add by exact H. replace (- x + x) with 0 by ring. apply vrotate_0, H. Qed.
Lemma pyrotated_spec a n x :
  pyrotated a n x = if vec_eq_dec n zero3 then Err ValueError else Ok (vrotate n x a).
Proof.
  unfold pyrotated. destruct (Req_EM_T (pylen2 n) 0) as [Z|NZ].
  - apply dot_self_zero in Z. subst. destruct (vec_eq_dec zero3 zero3); congruence.
  - destruct (vec_eq_dec n zero3) as [->|_].
    + exfalso. apply NZ. unfold pylen2, pydot, zero3; cbn; ring.
    + f_equal.
Qed.

(** * Projections *)

Lemma sqrt_norm v : v <> zero3 -> sqrt (dot3 v v) <> 0 /\ sqrt (dot3 v v) * sqrt (dot3 v v) = dot3 v v.
Proof.
  intros H. assert (P := dot_self_nonneg v).
  assert (dot3 v v <> 0) by (intros E; apply dot_self_zero in E; congruence).
  split; [|apply sqrt_sqrt; exact P].
  intros E. apply sqrt_eq_0 in E; auto.
Qed.
Lemma vnormalized_ok u : u <> zero3 -> vnormalized u = Ok (times3 (/ sqrt (dot3 u u)) u).
Proof.
  intros H. destruct (sqrt_norm u H) as (N & _). unfold vnormalized, vmag, vmag2. rewrite vdot_dot.
  destruct (Req_EM_T (sqrt (dot3 u u)) 0) as [E|_]; [congruence|].
  f_equal. unfold vdivs, times3, Rdiv. apply vec_ext; ring.
Qed.
Lemma zero_mag : vmag zero3 = 0.
Proof. unfold vmag, vmag2, vdot, zero3; cbn. replace (0 * 0 + 0 * 0 + 0 * 0) with 0 by ring. apply sqrt_0. Qed.
Lemma vnormalized_zero : vnormalized zero3 = Err ZeroDivisionError.
Proof. unfold vnormalized. rewrite zero_mag. destruct (Req_EM_T 0 0); [reflexivity|congruence]. Qed.
Lemma pylen2_zero : pylen2 zero3 = 0.
Proof. unfold pylen2, pydot, zero3; cbn; ring. Qed.
Lemma pylen2_nz u : u <> zero3 -> pylen2 u <> 0.
Proof. intros H E. apply dot_self_zero in E. congruence. Qed.
Lemma pynormalized_ok u : u <> zero3 -> pynormalized u = Ok (times3 (/ sqrt (dot3 u u)) u).
Proof.
  intros H. assert (N := pylen2_nz u H). unfold pynormalized.
  destruct (Req_EM_T (pylen2 u) 0) as [E|_]; [congruence|].
  f_equal. unfold pylen, pylen2, times3, Rdiv. change (pydot u u) with (dot3 u u). cbv zeta. apply vec_ext; ring.
Qed.
Lemma normal_unit u : u <> zero3 -> unit3 (times3 (/ sqrt (dot3 u u)) u).
Proof.
  intros H. destruct (sqrt_norm u H) as (N & E). unfold unit3.
  transitivity (/ sqrt (dot3 u u) * / sqrt (dot3 u u) * dot3 u u).
  - generalize (/ sqrt (dot3 u u)). intros k. destruct u. vring.
  - rewrite <- E at 3. field. exact N.
Qed.
(** The projection, in closed form. *)
Definition proj3 (v u : vec) : vec := times3 (dot3 u v / dot3 u u) u.
Lemma normal_proj v u : u <> zero3 ->
  let n := times3 (/ sqrt (dot3 u u)) u in times3 (dot3 n v) n = proj3 v u.
Proof.
  intros H n. unfold proj3. destruct (sqrt_norm u H) as (N & E).
  assert (D : dot3 n v = dot3 u v / sqrt (dot3 u u)).
  { unfold n, Rdiv. generalize (/ sqrt (dot3 u u)). intros k. destruct u, v. vring. }
  rewrite D. unfold n. rewrite <- E at 3. revert N. generalize (sqrt (dot3 u u)) (dot3 u v). intros k d N.
  destruct u as [x y z]. unfold times3; cbn. apply vec_ext; field; exact N.
Qed.
Lemma vprojected_ok v u : u <> zero3 -> vprojected v u = Ok (proj3 v u).
Proof.
  intros H. unfold vprojected. rewrite vnormalized_ok by exact H. cbn [bind]. f_equal.
  rewrite vscale_times, vdot_dot. apply normal_proj, H.
Qed.
Lemma pyprojection_ok v u : u <> zero3 -> pyprojection v u = Ok (proj3 v u).
Proof.
  intros H. assert (N := pylen2_nz u H). unfold pyprojection.
  destruct (Req_EM_T (pylen2 u) 0) as [E|_]; [congruence|].
  rewrite pynormalized_ok by exact H. cbn [bind]. f_equal.
  change pymul with (fun a k => vscale k a). cbv beta. rewrite vscale_times.
  change pydot with dot3. apply normal_proj, H.
Qed.
Lemma proj3_splits v u : u <> zero3 -> splits v u (proj3 v u) (minus3 v (proj3 v u)).
Proof.
  intros H. split; [|split].
  - generalize (proj3 v u). intros p. destruct v, p. vring.
  - exists (dot3 u v / dot3 u u). reflexivity.
  - assert (N : dot3 u u <> 0) by (intros E; apply dot_self_zero in E; congruence).
    transitivity (dot3 u v - dot3 u v / dot3 u u * dot3 u u).
    + unfold proj3. generalize (dot3 u v / dot3 u u). intros k. destruct u, v. vring.
    + field. exact N.
Qed.
Lemma splits_unique v u p q p' q' : u <> zero3 -> splits v u p q -> splits v u p' q' -> p = p' /\ q = q'.
Proof.
  intros H (E1 & (k & ->) & O1) (E2 & (k' & ->) & O2).
  assert (N : dot3 u u <> 0) by (intros E; apply dot_self_zero in E; congruence).
  assert (K : k = k').
  { assert (D : dot3 v u = k * dot3 u u + dot3 q u) by (rewrite E1; clear; destruct u, q; vring).
    assert (D' : dot3 v u = k' * dot3 u u + dot3 q' u) by (rewrite E2; clear; destruct u, q'; vring).
    rewrite O1 in D. rewrite O2 in D'. apply (Rmult_eq_reg_r (dot3 u u)); [lra|exact N]. }
  subst k'. split; [reflexivity|]. rewrite E1 in E2. revert E2. destruct u, q, q'. vunfold.
  intros E. apply vec_inj in E. destruct E as (A & B & C). apply vec_ext; lra.
Qed.
Lemma proj3_twice v u : u <> zero3 -> proj3 (proj3 v u) u = proj3 v u.
Proof.
  intros H. assert (N : dot3 u u <> 0) by (intros E; apply dot_self_zero in E; congruence).
  unfold proj3 at 1 3. f_equal. unfold proj3.
  replace (dot3 u (times3 (dot3 u v / dot3 u u) u)) with (dot3 u v / dot3 u u * dot3 u u).
  - field. exact N.
  - generalize (dot3 u v / dot3 u u). intros k. destruct u. vring.
Qed.
Lemma vperp_ok v u : u <> zero3 -> vperpendicular v u = Ok (minus3 v (proj3 v u)).
Proof. intros H. unfold vperpendicular. rewrite vprojected_ok by exact H. reflexivity. Qed.
Lemma pyperp_ok v u : u <> zero3 -> pyperpendicular v u = Ok (minus3 v (proj3 v u)).
Proof.
  intros H. assert (N := pylen2_nz u H). unfold pyperpendicular.
  destruct (Req_EM_T (pylen2 u) 0) as [E|_]; [congruence|].
  rewrite pyprojection_ok by exact H. reflexivity.
Qed.
Lemma py_zero v : pynormalized zero3 = Err ValueError /\ pyprojection v zero3 = Err ValueError
  /\ pyperpendicular v zero3 = Err ValueError.
Proof.
  unfold pyperpendicular, pyprojection, pynormalized. rewrite pylen2_zero.
  destruct (Req_EM_T 0 0); [auto|congruence].
Qed.
Lemma cpp_zero v : vnormalized zero3 = Err ZeroDivisionError /\ vprojected v zero3 = Err ZeroDivisionError
  /\ vperpendicular v zero3 = Err ZeroDivisionError.
Proof. unfold vperpendicular, vprojected. rewrite vnormalized_zero. auto. Qed.

Lemma cos_angle_range a b : a <> zero3 -> b <> zero3 -> -1 <= vcos_angle a b <= 1.
Proof.
  intros Ha Hb. unfold vcos_angle, vmag, vmag2. change vdot with dot3.
  destruct (sqrt_norm a Ha) as (Na & Ea). destruct (sqrt_norm b Hb) as (Nb & Eb).
  assert (Pa := sqrt_pos (dot3 a a)). assert (Pb := sqrt_pos (dot3 b b)).
  assert (C := cauchy_schwarz a b). rewrite <- Ea, <- Eb in C.
  revert Na Nb Pa Pb C. generalize (sqrt (dot3 a a)) (sqrt (dot3 b b)) (dot3 a b). intros p q d Na Nb Pa Pb C.
  assert (0 < p * q) by (apply Rmult_lt_0_compat; lra).
  assert (L : - (p * q) <= d <= p * q).
  { split; nra. }
  split.
  - apply (Rmult_le_reg_r (p * q)); [assumption|]. replace (d / (p * q) * (p * q)) with d by (field; auto). lra.
  - apply (Rmult_le_reg_r (p * q)); [assumption|]. replace (d / (p * q) * (p * q)) with d by (field; auto). lra.
Qed.
Lemma angle_cos a b : a <> zero3 -> b <> zero3 ->
  0 <= vangle a b <= PI /\ sqrt (dot3 a a) * sqrt (dot3 b b) * cos (vangle a b) = dot3 a b.
Proof.
  intros Ha Hb. unfold vangle. split; [apply acos_bound|].
  rewrite cos_acos by (apply cos_angle_range; assumption).
  unfold vcos_angle, vmag, vmag2. change vdot with dot3.
  destruct (sqrt_norm a Ha) as (Na & _). destruct (sqrt_norm b Hb) as (Nb & _). field. auto.
Qed.

(** * Random directions *)

Lemma unit_vector_direction X1 X2 : unit_vector X1 X2 = direction (2 * X1 - 1) (2 * PI * X2).
Proof.
  unfold unit_vector, direction. cbv zeta. replace (2 * X2 * PI) with (2 * PI * X2) by ring.
  apply vec_ext; ring.
Qed.
Lemma direction_unit z phi : -1 <= z <= 1 -> unit3 (direction z phi).
Proof.
  intros H. unfold unit3, direction, dot3; cbn [vx vy vz].
  assert (Q : sqrt (1 - z * z) * sqrt (1 - z * z) = 1 - z * z) by (apply sqrt_sqrt; nra).
  assert (T := trig_cs phi).
  transitivity (sqrt (1 - z * z) * sqrt (1 - z * z) * (sin phi * sin phi + cos phi * cos phi) + z * z); [ring|].
  rewrite Q, T. ring.
Qed.
Lemma angle_exists x y : x * x + y * y = 1 -> exists phi, 0 <= phi < 2 * PI /\ x = cos phi /\ y = sin phi.
Proof.
  intros H. assert (P := PI_RGT_0).
  assert (B : -1 <= x <= 1) by nra.
  assert (C : cos (acos x) = x) by (apply cos_acos; exact B).
  assert (Bd := acos_bound x).
  assert (S1 : sin (acos x) * sin (acos x) = y * y).
  { assert (T := trig_cs (acos x)). rewrite C in T. nra. }
  assert (S2 : 0 <= sin (acos x)) by (apply sin_ge_0; lra).
  destruct (Rle_dec 0 y) as [Y|Y].
  - exists (acos x). split; [lra|]. split; [symmetry; exact C|]. nra.
  - exists (2 * PI - acos x).
    assert (Hpos : acos x <> 0).
    { intros E. rewrite E, sin_0 in S1. nra. }
    split; [lra|]. split.
    + replace (2 * PI - acos x) with (- acos x + 2 * PI) by ring.
      rewrite cos_plus, cos_2PI, sin_2PI, cos_neg, C. ring.
    + replace (2 * PI - acos x) with (- acos x + 2 * PI) by ring.
      rewrite sin_plus, cos_2PI, sin_2PI, sin_neg. nra.
Qed.
Lemma direction_all u : unit3 u -> exists z phi, -1 <= z <= 1 /\ 0 <= phi < 2 * PI /\ u = direction z phi.
Proof.
  destruct u as [x y z]. unfold unit3, dot3; cbn. intros H.
  assert (B : -1 <= z <= 1) by nra.
  assert (Q : sqrt (1 - z * z) * sqrt (1 - z * z) = 1 - z * z) by (apply sqrt_sqrt; nra).
  assert (P := PI_RGT_0).
  unfold direction.
  destruct (Req_EM_T (sqrt (1 - z * z)) 0) as [E|N].
  - exists z, 0. split; [exact B|]. split; [lra|]. rewrite E in *.
    apply vec_ext; nra.
  - remember (sqrt (1 - z * z)) as r eqn:Er.
    destruct (angle_exists (x / r) (y / r)) as (phi & Hp & Hx & Hy).
    { transitivity ((x * x + y * y) / (r * r)); [field; exact N|].
      replace (x * x + y * y) with (r * r) by lra. field. exact N. }
    exists z, phi. split; [exact B|]. split; [exact Hp|]. rewrite <- Er, <- Hx, <- Hy.
    apply vec_ext; field; exact N.
Qed.
Lemma unit_vector_unit X1 X2 : 0 <= X1 <= 1 -> unit3 (unit_vector X1 X2).
Proof. intros H. rewrite unit_vector_direction. apply direction_unit. lra. Qed.
Lemma unit_vector_onto u : unit3 u -> exists X1 X2, 0 <= X1 <= 1 /\ 0 <= X2 < 1 /\ unit_vector X1 X2 = u.
Proof.
  intros H. destruct (direction_all u H) as (z & phi & Hz & Hp & E). assert (P := PI_RGT_0).
  exists ((z + 1) / 2), (phi / (2 * PI)). split; [lra|]. split.
  - split.
    + apply Rmult_le_pos; [lra|]. left. apply Rinv_0_lt_compat. lra.
    + apply (Rmult_lt_reg_r (2 * PI)); [lra|]. replace (phi / (2 * PI) * (2 * PI)) with phi by (field; lra). lra.
  - rewrite unit_vector_direction, E. f_equal; field. lra.
Qed.

(** * Order *)

Lemma rltb_spec x y : rltb x y = true <-> x < y.
Proof. unfold rltb. destruct (Rlt_dec x y); split; intros; auto; discriminate. Qed.
Lemma rltb_false x y : rltb x y = false <-> y <= x.
Proof. unfold rltb. destruct (Rlt_dec x y); split; intros; try discriminate; auto; lra. Qed.
Lemma vltb_lex a b : vltb a b = true <-> lex3 a b.
Proof.
  unfold vltb, lex3.
  destruct (rltb (vx a) (vx b)) eqn:E1; [apply rltb_spec in E1; tauto|]. apply rltb_false in E1.
  destruct (rltb (vx b) (vx a)) eqn:E2.
  { apply rltb_spec in E2. split; [discriminate|]. intros [?|(? & _)]; lra. } apply rltb_false in E2.
  assert (X : vx a = vx b) by lra.
  destruct (rltb (vy a) (vy b)) eqn:E3; [apply rltb_spec in E3; tauto|]. apply rltb_false in E3.
  destruct (rltb (vy b) (vy a)) eqn:E4.
  { apply rltb_spec in E4. split; [discriminate|]. intros [?|(_ & [?|(? & _)])]; lra. } apply rltb_false in E4.
  assert (Y : vy a = vy b) by lra.
  destruct (rltb (vz a) (vz b)) eqn:E5; [apply rltb_spec in E5; tauto|]. apply rltb_false in E5.
  split; [discriminate|]. intros [?|(_ & [?|(_ & ?)])]; lra.
Qed.
Lemma lex3_irrefl a : ~ lex3 a a.
Proof. unfold lex3. lra. Qed.
Lemma lex3_trans a b c : lex3 a b -> lex3 b c -> lex3 a c.
Proof. unfold lex3. lra. Qed.
Lemma lex3_total a b : lex3 a b \/ a = b \/ lex3 b a.
Proof.
  destruct a as [x y z], b as [x' y' z']. unfold lex3; cbn.
  destruct (Rtotal_order x x') as [?|[->|?]]; [tauto| |tauto].
  destruct (Rtotal_order y y') as [?|[->|?]]; [tauto| |tauto].
  destruct (Rtotal_order z z') as [?|[->|?]]; tauto.
Qed.

(** * Complex vectors *)

Ltac cunfold := unfold real_cvec, cvlen2, cvrotated, cvdot, cvadd, cvmul, cvsub, cvcross, cadd, csub, cmul, cconj, cR;
  cbv zeta; cbn [vx vy vz cvx cvy cvz re im].
Lemma cvlen2_parts v : cvlen2 v = dot3 (cre v) (cre v) + dot3 (cim v) (cim v).
Proof. destruct v as [[a1 b1] [a2 b2] [a3 b3]]. unfold cre, cim, dot3. cunfold. ring. Qed.
(** The complex vector with the given real and imaginary parts. *)
Definition cmk (r i : vec) : cvec := CVec (Cplx (vx r) (vx i)) (Cplx (vy r) (vy i)) (Cplx (vz r) (vz i)).
Lemma cplx_ext a b c d : a = c -> b = d -> Cplx a b = Cplx c d.
Proof. intros -> ->. reflexivity. Qed.
Lemma cvec_ext a b c a' b' c' : a = a' -> b = b' -> c = c' -> CVec a b c = CVec a' b' c'.
Proof. intros -> -> ->. reflexivity. Qed.
Lemma cmk_eta v : v = cmk (cre v) (cim v).
Proof. destruct v as [[a1 b1] [a2 b2] [a3 b3]]. reflexivity. Qed.
Ltac ceq := intros; repeat match goal with v : vec |- _ => destruct v end;
  unfold cmk, real_cvec, cvdot, cvadd, cvmul, cvsub, cvcross, cadd, csub, cmul, cconj, cR;
  cbn [vx vy vz cvx cvy cvz re im]; vunfold;
  try apply cvec_ext; apply cplx_ext; ring.
Lemma cmk_dot r i n : cvdot (cmk r i) (real_cvec n) = Cplx (dot3 r n) (- dot3 i n).
Proof. ceq. Qed.
Lemma cmk_axis n a b : cvmul (real_cvec n) (Cplx a b) = cmk (times3 a n) (times3 b n).
Proof. ceq. Qed.
Lemma cmk_scale r i k : cvmul (cmk r i) (cR k) = cmk (times3 k r) (times3 k i).
Proof. ceq. Qed.
Lemma cmk_cross r i n : cvcross (real_cvec n) (cmk r i) = cmk (vcross n r) (vcross n i).
Proof. ceq. Qed.
Lemma cmk_add r i r' i' : cvadd (cmk r i) (cmk r' i') = cmk (plus3 r r') (plus3 i i').
Proof. ceq. Qed.
Lemma cmk_sub r i r' i' : cvsub (cmk r i) (cmk r' i') = cmk (minus3 r r') (minus3 i i').
Proof. ceq. Qed.
Lemma cmk_re r i : cre (cmk r i) = r.
Proof. destruct r. reflexivity. Qed.
Lemma cmk_im r i : cim (cmk r i) = i.
Proof. destruct i. reflexivity. Qed.
Lemma cvrot_parts n v x : cvrotated v (real_cvec n) x =
  cmk (vrotate n x (cre v)) (plus3 (vrotate n x (cim v)) (times3 (2 * (cos x - 1) * dot3 (cim v) n) n)).
Proof.
  rewrite (cmk_eta v) at 1. unfold cvrotated. cbv zeta.
  rewrite cmk_dot, cmk_axis, cmk_cross, cmk_sub, !cmk_scale, !cmk_add. unfold vrotate, vrotate_cs. cbv zeta.
  change vdot with dot3. f_equal.
  - generalize (dot3 (cre v) n) (vcross n (cre v)) (cos x) (sin x) (cre v). intros d w c s u.
    destruct n, w, u. vring.
  - generalize (dot3 (cim v) n) (vcross n (cim v)) (cos x) (sin x) (cim v). intros d w c s u.
    destruct n, w, u. vring.
Qed.
Lemma cvrot_re n v x : cre (cvrotated v (real_cvec n) x) = vrotate n x (cre v).
Proof. rewrite cvrot_parts. apply cmk_re. Qed.
Lemma cvrot_im n v x : cim (cvrotated v (real_cvec n) x) =
  plus3 (vrotate n x (cim v)) (times3 (2 * (cos x - 1) * dot3 (cim v) n) n).
Proof. rewrite cvrot_parts. apply cmk_im. Qed.
Lemma cvlen2_rotated n v x : unit3 n ->
  cvlen2 (cvrotated v (real_cvec n) x) =
  cvlen2 v + 4 * (cos x * (cos x - 1)) * (dot3 (cim v) n * dot3 (cim v) n).
Proof.
  intros Hn. rewrite !cvlen2_parts, cvrot_re, cvrot_im.
  destruct (vrotate_rigid n x Hn) as (_ & D & _).
  assert (A : dot3 (vrotate n x (cim v)) n = dot3 (cim v) n).
  { destruct (vrotate_rotation n x Hn) as (_ & F & _). rewrite <- F at 2. apply D. }
  set (k := 2 * (cos x - 1) * dot3 (cim v) n).
  transitivity (dot3 (vrotate n x (cre v)) (vrotate n x (cre v)) + dot3 (vrotate n x (cim v)) (vrotate n x (cim v))
     + 2 * k * dot3 (vrotate n x (cim v)) n + k * k * dot3 n n).
  - generalize (vrotate n x (cre v)) (vrotate n x (cim v)). intros a b. destruct a, b, n. vring.
  - unfold unit3 in Hn. rewrite !D, A, Hn. unfold k. ring.
Qed.
Lemma cvlen2_kept n v x : unit3 n ->
  (cvlen2 (cvrotated v (real_cvec n) x) = cvlen2 v <-> dot3 (cim v) n = 0 \/ cos x = 0 \/ cos x = 1).
Proof.
  intros Hn. rewrite cvlen2_rotated by exact Hn. split.
  - intros H. assert (E : cos x * (cos x - 1) * (dot3 (cim v) n * dot3 (cim v) n) = 0) by lra.
    apply Rmult_integral in E. destruct E as [E|E]; apply Rmult_integral in E; destruct E; try tauto.
    right. right. lra.
  - intros [E|[E|E]]; rewrite E; ring.
Qed.
Lemma cvrot_real n v x : unit3 n -> dot3 (cim v) n = 0 ->
  cre (cvrotated v (real_cvec n) x) = vrotate n x (cre v) /\
  cim (cvrotated v (real_cvec n) x) = vrotate n x (cim v).
Proof.
  intros Hn H. split; [apply cvrot_re|]. rewrite cvrot_im, H.
  destruct (vrotate n x (cim v)), n. vring.
Qed.
Lemma cvrot_witness : cvrotated i_axis (real_cvec (Vec 1 0 0)) PI = CVec (Cplx 0 (-3)) (Cplx 0 0) (Cplx 0 0).
Proof.
  rewrite cvrot_parts. unfold i_axis, cre, cim, vrotate, vrotate_cs, cmk, cR. cbv zeta.
  cbn [cvx cvy cvz re im]. rewrite cos_PI, sin_PI. vunfold.
  apply cvec_ext; apply cplx_ext; ring.
Qed.

(** * Summaries *)

Lemma complex_rotation_witness :
  exists v n x, unit3 n /\ clength2 v = 1 /\ cvlen2 v = 1 /\
    cvrotated v (real_cvec n) x = CVec (Cplx 0 (-3)) (Cplx 0 0) (Cplx 0 0) /\
    clength2 (cvrotated v (real_cvec n) x) = 9.
Proof.
  exists i_axis, (Vec 1 0 0), PI. rewrite cvrot_witness, cvlen2_parts.
  unfold clength2, unit3, i_axis, cre, cim, dot3; cbn. repeat split; ring.
Qed.
Lemma complex_rotation_kept : forall v n x, unit3 n ->
  cvlen2 v = clength2 v /\
  (clength2 (cvrotated v (real_cvec n) x) = clength2 v <->
   dot3 (cim v) n = 0 \/ cos x = 0 \/ cos x = 1).
Proof.
  intros v n x H. split; [apply cvlen2_parts|].
  assert (K := cvlen2_kept n v x H). rewrite !cvlen2_parts in K. exact K.
Qed.
Lemma projection_ok : forall v u, u <> zero3 ->
  exists p q, pyprojection v u = Ok p /\ pyperpendicular v u = Ok q /\
    vprojected v u = Ok p /\ vperpendicular v u = Ok q /\
    splits v u p q /\ (forall p' q', splits v u p' q' -> p' = p /\ q' = q) /\
    pyprojection p u = Ok p /\ vprojected p u = Ok p.
Proof.
  intros v u H. exists (proj3 v u), (minus3 v (proj3 v u)).
  rewrite !pyprojection_ok, pyperp_ok, !vprojected_ok, vperp_ok, proj3_twice by exact H.
  repeat (split; [reflexivity|]). split; [apply proj3_splits, H|]. split; [|split; reflexivity].
  intros p' q' K. exact (splits_unique v u p' q' _ _ H K (proj3_splits v u H)).
Qed.
Lemma normalized_ok : forall u, u <> zero3 ->
  exists k, 0 < k /\ pynormalized u = Ok (times3 k u) /\ vnormalized u = Ok (times3 k u) /\ unit3 (times3 k u).
Proof.
  intros u H. exists (/ sqrt (dot3 u u)). split.
  - destruct (sqrt_norm u H) as (N & _). apply Rinv_0_lt_compat. assert (P := sqrt_pos (dot3 u u)). lra.
  - split; [apply pynormalized_ok, H|]. split; [apply vnormalized_ok, H|apply normal_unit, H].
Qed.
Lemma products_ok : forall a b,
  vector_product a b (vcross a b) /\ (forall c, vector_product a b c -> c = vcross a b) /\
  vdot a b = dot3 a b /\ pydot a b = dot3 a b /\ pycross a b = vcross a b /\
  dot3 (vcross a b) a = 0 /\ dot3 (vcross a b) b = 0 /\
  dot3 (vcross a b) (vcross a b) = dot3 a a * dot3 b b - dot3 a b * dot3 a b.
Proof.
  intros a b. split; [apply cross_product|].
  split; [intros c H; exact (vector_product_unique a b c _ H (cross_product a b))|].
  repeat (split; [reflexivity|]). split; [destruct a, b; vring|]. split; [destruct a, b; vring|]. apply lagrange.
Qed.
Lemma vltb_order : forall a b c,
  (vltb a b = true <-> lex3 a b) /\ vltb a a = false /\
  (vltb a b = true -> vltb b c = true -> vltb a c = true) /\
  (vltb a b = true \/ a = b \/ vltb b a = true) /\
  (vltb a b = true -> vltb b a = false).
Proof.
  intros a b c. rewrite !vltb_lex. split; [reflexivity|]. split; [|split; [|split]].
  - destruct (vltb a a) eqn:E; [|reflexivity]. apply vltb_lex in E. destruct (lex3_irrefl a E).
  - apply lex3_trans.
  - apply lex3_total.
  - intros H. destruct (vltb b a) eqn:E; [|reflexivity]. apply vltb_lex in E.
    destruct (lex3_irrefl a (lex3_trans a b a H E)).
Qed.
