(** Proofs about the quantities derived from the gyration tensor, and about rigid
    rotation. *)
From Coq Require Import List Arith Bool Reals Lra Lia Psatz.
From Verif Require Import PyBase VecBase VecModel VecSpec VecProof PartModel PartSpec PartProof.
Import ListNotations.
Open Scope R_scope.

(** * Eigenvalues *)

Definition qf (p q r s t u x y z : R) : R :=
  p * x * x + s * y * y + u * z * z + 2 * q * x * y + 2 * r * x * z + 2 * t * y * z.
Lemma minor_nonneg p q s :
  (forall x y, 0 <= p * x * x + s * y * y + 2 * q * x * y) -> 0 <= p /\ 0 <= s /\ q * q <= p * s.
Proof.
  intros H. assert (P : 0 <= p) by (assert (K := H 1 0); lra).
  assert (U : 0 <= s) by (assert (K := H 0 1); lra).
  split; [exact P|]. split; [exact U|].
  destruct (Req_EM_T p 0) as [->|N].
  - destruct (Req_EM_T q 0) as [->|Nq]; [lra|]. exfalso.
    assert (K := H (- (s + 1) / (2 * q)) 1).
    replace (0 * (- (s + 1) / (2 * q)) * (- (s + 1) / (2 * q)) + s * 1 * 1 + 2 * q * (- (s + 1) / (2 * q)) * 1) with (-1) in K
      by (field; exact Nq). lra.
  - assert (K := H (- q) p). assert (K2 : 0 <= p * (p * s - q * q)) by nra.
    assert (0 < p) by lra. nra.
Qed.
Lemma psd_root_nonneg p q r s t u l :
  (forall x y z, 0 <= qf p q r s t u x y z) ->
  (p - l) * ((s - l) * (u - l) - t * t) - q * (q * (u - l) - t * r) + r * (q * t - (s - l) * r) = 0 ->
  0 <= l.
Proof.
  intros H D. destruct (Rle_dec 0 l) as [L|L]; [exact L|]. exfalso.
  destruct (minor_nonneg p q s) as (P & U & M).
  { intros x y. assert (K := H x y 0). unfold qf in K. lra. }
  set (A := p - l) in *. set (B := s - l) in *. set (C := u - l) in *.
  set (v1 := q * t - r * B). set (v2 := r * q - A * t). set (v3 := A * B - q * q).
  assert (V3 : 0 < v3).
  { unfold v3, A, B. nra. }
  assert (Q : qf p q r s t u v1 v2 v3 - l * (v1 * v1 + v2 * v2 + v3 * v3) = 0).
  { transitivity (v3 * (A * (B * C - t * t) - q * (q * C - t * r) + r * (q * t - B * r))).
    - unfold qf, v1, v2, v3, A, B, C. ring.
    - rewrite D. ring. }
  assert (K := H v1 v2 v3). clearbody v1 v2 v3.
  assert (W : 0 < v1 * v1 + v2 * v2 + v3 * v3) by nra.
  assert (0 < - l * (v1 * v1 + v2 * v2 + v3 * v3)) by (apply Rmult_lt_0_compat; lra). lra.
Qed.

Definition mrow0 (M : mat) := Vec (m00 M) (m01 M) (m02 M).
Definition mrow1 (M : mat) := Vec (m10 M) (m11 M) (m12 M).
Definition mrow2 (M : mat) := Vec (m20 M) (m21 M) (m22 M).
Lemma eigen_trace a b c x y z : eigenvalues a b c x y z -> x + y + z = vx a + vy b + vz c.
Proof.
  intros H. assert (H0 := H 0). assert (H1 := H 1). assert (H2 := H (-1)).
  unfold charpoly, det3, minus3 in H0, H1, H2. cbn [vx vy vz] in H0, H1, H2. lra.
Qed.
Lemma eigen_swap12 a b c x y z : eigenvalues a b c x y z -> eigenvalues a b c y x z.
Proof. intros H t. rewrite H. ring. Qed.
Lemma eigen_swap23 a b c x y z : eigenvalues a b c x y z -> eigenvalues a b c x z y.
Proof. intros H t. rewrite H. ring. Qed.
Lemma rleb_cases x y : (rleb x y = true /\ x <= y) \/ (rleb x y = false /\ y < x).
Proof. unfold rleb. destruct (Rle_dec x y); [left|right]; split; auto; lra. Qed.
Lemma sort3_spec a b c x y z : eigenvalues a b c x y z ->
  exists x' y' z', sort3 x y z = (x', y', z') /\ x' <= y' <= z' /\ eigenvalues a b c x' y' z'.
Proof.
  intros H. unfold sort3.
  destruct (rleb_cases x y) as [(-> & K)|(-> & K)].
  - destruct (rleb_cases y z) as [(-> & K2)|(-> & K2)].
    + destruct (rleb_cases x y) as [(-> & K3)|(-> & K3)]; [|lra].
      exists x, y, z. repeat split; try lra. exact H.
    + destruct (rleb_cases x z) as [(-> & K3)|(-> & K3)].
      * exists x, z, y. repeat split; try lra. apply eigen_swap23, H.
      * exists z, x, y. repeat split; try lra. apply eigen_swap12, eigen_swap23, H.
  - apply eigen_swap12 in H. destruct (rleb_cases x z) as [(-> & K2)|(-> & K2)].
    + destruct (rleb_cases y x) as [(-> & K3)|(-> & K3)]; [|lra].
      exists y, x, z. repeat split; try lra. exact H.
    + destruct (rleb_cases y z) as [(-> & K3)|(-> & K3)].
      * exists y, z, x. repeat split; try lra. apply eigen_swap23, H.
      * exists z, y, x. repeat split; try lra. apply eigen_swap12, eigen_swap23, H.
Qed.
Lemma gyr_eigen_nonneg l x y z :
  let M := full (gyr l) in eigenvalues (mrow0 M) (mrow1 M) (mrow2 M) x y z -> 0 <= x.
Proof.
  intros M H. assert (H0 := H x).
  apply (psd_root_nonneg (gyr l 0 0) (gyr l 0 1) (gyr l 0 2) (gyr l 1 1) (gyr l 1 2) (gyr l 2 2)).
  - intros a b c. assert (K := gyr_psd l (Vec a b c)). unfold qform in K. cbn [map rsum coord vx vy vz] in K.
    rewrite (gyr_sym l 1 0), (gyr_sym l 2 0), (gyr_sym l 2 1) in K. unfold qf. lra.
  - unfold M, charpoly, det3, minus3, mrow0, mrow1, mrow2, full in H0.
    cbn [vx vy vz m00 m01 m02 m10 m11 m12 m20 m21 m22] in H0.
    rewrite (gyr_sym l 1 0), (gyr_sym l 2 0), (gyr_sym l 2 1) in H0.
    replace ((x - x) * (y - x) * (z - x)) with 0 in H0 by ring. rewrite <- H0. ring.
Qed.

Lemma shape_ok eig c x y z : coherent c -> positions c <> [] ->
  let M := full (gyr (pos_values c)) in
  eig M = (x, y, z) -> eigenvalues (mrow0 M) (mrow1 M) (mrow2 M) x y z ->
  exists x' y' z', eigenvalues (mrow0 M) (mrow1 M) (mrow2 M) x' y' z' /\ 0 <= x' <= y' /\ y' <= z' /\
    principal_moments eig c = Ok (x', y', z') /\
    radius2 eig c = Ok (spread (pos_values c)) /\ spread (pos_values c) = x' + y' + z' /\
    asphericity eig c = Ok (z' - (x' + y') / 2) /\ 0 <= z' - (x' + y') / 2 /\
    acylindricity eig c = Ok (y' - x') /\
    exists k, anisotropy eig c = Ok k /\
      (spread (pos_values c) <> 0 -> 0 <= k <= 1 /\
       k * (spread (pos_values c) * spread (pos_values c)) =
       (z' - (x' + y') / 2) * (z' - (x' + y') / 2) + 3 / 4 * ((y' - x') * (y' - x'))).
Proof.
  intros C N M E H. destruct (gyration_coherent c C) as (_ & G). destruct (G N) as (c' & G' & _). fold M in G'.
  destruct (sort3_spec _ _ _ _ _ _ H) as (x' & y' & z' & S3 & (O1 & O2) & H').
  assert (P : principal_moments eig c = Ok (x', y', z')).
  { unfold principal_moments. rewrite G'. cbn [bind fst]. rewrite E, S3. reflexivity. }
  assert (X0 : 0 <= x') by (exact (gyr_eigen_nonneg _ _ _ _ H')).
  assert (T : spread (pos_values c) = x' + y' + z').
  { rewrite (eigen_trace _ _ _ _ _ _ H'). rewrite <- gyr_trace by (apply pos_values_nonempty, N). reflexivity. }
  exists x', y', z'. split; [exact H'|]. split; [lra|]. split; [exact O2|]. split; [exact P|].
  assert (R2 : radius2 eig c = Ok (spread (pos_values c))).
  { unfold radius2. rewrite P. cbn [bind]. rewrite T. reflexivity. }
  assert (As : asphericity eig c = Ok (z' - (x' + y') / 2)).
  { unfold asphericity. rewrite P. cbn [bind]. f_equal. lra. }
  assert (Ac : acylindricity eig c = Ok (y' - x')) by (unfold acylindricity; rewrite P; reflexivity).
  split; [exact R2|]. split; [exact T|]. split; [exact As|]. split; [lra|]. split; [exact Ac|].
  eexists. split.
  { unfold anisotropy. rewrite As, Ac, R2. cbn [bind]. reflexivity. }
  intros NZ. set (b := z' - (x' + y') / 2). set (a := y' - x'). set (g := spread (pos_values c)) in *.
  assert (Q : (b * b + 3 / 4 * a * a) / (g * g) * (g * g) = b * b + 3 / 4 * (a * a)) by (field; exact NZ).
  split; [|exact Q].
  assert (Pg : 0 < g * g) by (rewrite T in *; nra).
  assert (Lo : 0 <= b * b + 3 / 4 * (a * a)) by nra.
  assert (Hi : b * b + 3 / 4 * (a * a) <= g * g).
  { rewrite T. unfold b, a.
    assert (Hxy : 0 <= x' * y') by nra. assert (Hyz : 0 <= y' * z') by nra. assert (Hzx : 0 <= z' * x') by nra. nra. }
  split; nra.
Qed.

Lemma line_angle_ok v w : v <> zero3 -> w <> zero3 ->
  0 <= line_angle v w <= PI / 2 /\
  sqrt (dot3 v v) * sqrt (dot3 w w) * cos (line_angle v w) = Rabs (dot3 v w).
Proof.
  intros Hv Hw. unfold line_angle. change pydot with dot3. cbv zeta.
  destruct (sqrt_norm v Hv) as (Nv & Ev). destruct (sqrt_norm w Hw) as (Nw & Ew).
  assert (Pv := sqrt_pos (dot3 v v)). assert (Pw := sqrt_pos (dot3 w w)).
  rewrite sqrt_mult by apply dot_self_nonneg.
  assert (A : (if Rlt_dec (dot3 v w) 0 then dot3 v w * -1 else dot3 v w) = Rabs (dot3 v w)).
  { destruct (Rlt_dec (dot3 v w) 0); [rewrite Rabs_left by assumption; ring|rewrite Rabs_right; lra]. }
  rewrite A. assert (C := cauchy_schwarz v w). assert (Pa := Rabs_pos (dot3 v w)).
  assert (Sq : Rabs (dot3 v w) * Rabs (dot3 v w) = dot3 v w * dot3 v w) by (rewrite <- Rabs_mult; apply Rabs_right; nra).
  rewrite <- Sq, <- Ev, <- Ew in C. revert Nv Nw Pv Pw C Pa.
  generalize (sqrt (dot3 v v)) (sqrt (dot3 w w)) (Rabs (dot3 v w)). intros p q d Nv Nw Pv Pw C Pa.
  assert (PQ : 0 < p * q) by (apply Rmult_lt_0_compat; lra).
  assert (DQ : d <= p * q) by nra.
  assert (E : d / (p * q) * (p * q) = d) by (field; auto).
  assert (R : 0 <= d / (p * q) <= 1) by (split; nra).
  split.
  - assert (B := acos_bound (d / (p * q))). split; [lra|].
    destruct (Rle_dec (acos (d / (p * q))) (PI / 2)) as [K|K]; [exact K|]. exfalso.
    assert (cos (acos (d / (p * q))) < 0) by (apply cos_lt_0; lra).
    rewrite cos_acos in H by lra. lra.
  - rewrite cos_acos by lra. field. auto.
Qed.

(** * Rigid rotation *)

Definition mplus (A B : mat) : mat :=
  Mat (m00 A + m00 B) (m01 A + m01 B) (m02 A + m02 B) (m10 A + m10 B) (m11 A + m11 B) (m12 A + m12 B)
      (m20 A + m20 B) (m21 A + m21 B) (m22 A + m22 B).
Lemma inertia_step_apply m M p w : m10 M = m01 M -> m20 M = m02 M -> m21 M = m12 M ->
  mapply (inertia_step m M p) w = plus3 (mapply M w) (times3 m (cross3 p (cross3 w p))).
Proof.
  intros H1 H2 H3. destruct p, w, M as [a0 a1 a2 a3 a4 a5 a6 a7 a8]. cbn [m00 m01 m02 m10 m11 m12 m20 m21 m22] in *. subst.
  unfold mapply, inertia_step, cross3, plus3, times3. cbn. apply vec_ext; ring.
Qed.
Lemma inertia_fold m w l : forall M, m10 M = m01 M -> m20 M = m02 M -> m21 M = m12 M ->
  mapply (fold_left (inertia_step m) l M) w =
  plus3 (mapply M w) (times3 m (vsum (map (fun p => cross3 p (cross3 w p)) l))).
Proof.
  induction l as [|p l IH]; intros M H1 H2 H3.
  - cbn. destruct (mapply M w). vring.
  - cbn [fold_left map vsum]. rewrite IH by reflexivity. rewrite inertia_step_apply by assumption.
    destruct (mapply M w), (cross3 p (cross3 w p)), (vsum (map (fun p => cross3 p (cross3 w p)) l)). vring.
Qed.
Lemma angular_fold c m w : uniformMass c = Some m -> forall l L,
  angular_loop c L l (map (cross3 w) l) = Ok (plus3 L (times3 m (vsum (map (fun p => cross3 p (cross3 w p)) l)))).
Proof.
  intros H. induction l as [|p l IH]; intros L.
  - cbn. f_equal. destruct L. vring.
  - cbn [map angular_loop vsum]. unfold get_mass. rewrite H. cbn [bind]. rewrite IH. f_equal.
    destruct (vsum (map (fun p => cross3 p (cross3 w p)) l)). destruct L, p, w. unfold cross3. vring.
Qed.
Lemma rotation_frequency_ok inv c m w com : uniformMass c = Some m ->
  center_of_mass c = Ok com -> dot3 com com <= / 10 ^ 20 ->
  turning w (pos_values c) (vel_values c) ->
  exists M, inertia c = Ok M /\
    (forall u, mapply M u = times3 m (vsum (map (fun p => cross3 p (cross3 u p)) (pos_values c)))) /\
    angular_momentum c = Ok (mapply M w) /\
    forall J, inv M = Ok J -> (forall u, mapply J (mapply M u) = u) -> rotation_frequency inv c = Ok w.
Proof.
  intros H C Z T. set (M := fold_left (inertia_step m) (pos_values c) mzero).
  assert (A : forall u, mapply M u = times3 m (vsum (map (fun p => cross3 p (cross3 u p)) (pos_values c)))).
  { intros u. unfold M. rewrite inertia_fold by reflexivity.
    replace (mapply mzero u) with zero3 by (unfold mapply, zero3; cbn; apply vec_ext; ring).
    destruct (times3 m (vsum (map (fun p => cross3 p (cross3 u p)) (pos_values c)))). vring. }
  assert (E : inertia c = Ok M).
  { unfold inertia. rewrite C. cbn [bind]. destruct (Rlt_dec (/ 10 ^ 20) (pylen2 com)) as [K|_].
    - exfalso. change (pylen2 com) with (dot3 com com) in K. lra.
    - unfold get_mass. rewrite H. reflexivity. }
  assert (L : angular_momentum c = Ok (mapply M w)).
  { unfold angular_momentum. rewrite T, (angular_fold c m w H), A. f_equal.
    destruct (times3 m (vsum (map (fun p => cross3 p (cross3 w p)) (pos_values c)))). vring. }
  exists M. split; [exact E|]. split; [exact A|]. split; [exact L|].
  intros J HJ HI. unfold rotation_frequency. rewrite E, L. cbn [bind]. rewrite HJ. cbn [bind]. rewrite HI. reflexivity.
Qed.

(** * Witnesses *)

Definition two_same : heap := fun _ => Vec 1 0 0.
Lemma rotate_shared :
  exists c', (do c <- set_pv empty_coll two_same [0; 0]%nat []; rotate c (Vec 0 0 1) (PI / 2)) = Ok c' /\
    pos_values c' = [Vec (-1) 0 0; Vec (-1) 0 0] /\ vrotate (Vec 0 0 1) (PI / 2) (Vec 1 0 0) = Vec 0 1 0.
Proof.
  assert (U : unit3 (Vec 0 0 1)) by (unfold unit3, dot3; cbn; ring).
  cbn [set_pv length Nat.eqb negb andb bind].
  destruct (rotate_count (Coll two_same [0; 0]%nat two_same [] (uniformMass empty_coll) None) (Vec 0 0 1) (PI / 2) U)
    as (c' & E & P & _ & V & _).
  exists c'. split; [exact E|]. split.
  - unfold pos_values. rewrite P. cbn [positions map]. rewrite (V 0%nat). cbn [positions ph count_occ].
    destruct (Nat.eq_dec 0 0) as [_|K]; [|congruence].
    assert (X : vrotate (Vec 0 0 1) (INR 2 * (PI / 2)) (two_same 0) = Vec (-1) 0 0).
    { replace (INR 2 * (PI / 2)) with PI by (cbn; field). unfold vrotate, vrotate_cs, two_same. cbv zeta.
      rewrite cos_PI, sin_PI. vring. }
    rewrite X. reflexivity.
  - unfold vrotate, vrotate_cs. cbv zeta. rewrite cos_PI2, sin_PI2. vring.
Qed.

Definition two_points : heap := fun i => match i with 0%nat => Vec 1 0 0 | _ => Vec 0 0 0 end.
Definition stale_coll : coll := Coll two_points [0; 1]%nat two_points [] None None.
Lemma stale_tensor :
  exists c1 c2, gyration stale_coll = Ok (full (gyr (pos_values stale_coll)), c1) /\
    rotate_position c1 0 (Vec 0 0 1) (PI / 2) = Ok c2 /\
    gyration c2 = Ok (full (gyr (pos_values stale_coll)), c2) /\
    gyr (pos_values stale_coll) 0 0 = 1 / 4 /\ gyr (pos_values c2) 0 0 = 0 /\ gyr (pos_values c2) 1 1 = 1 / 4.
Proof.
  exists (Coll two_points [0; 1]%nat two_points [] None (Some (full (gyr (pos_values stale_coll))))).
  exists (Coll (hset two_points 0 (vrotate (Vec 0 0 1) (PI / 2) (Vec 1 0 0))) [0; 1]%nat two_points [] None
     (Some (full (gyr (pos_values stale_coll))))).
  split; [unfold gyration; cbn [gyrationTensor positions stale_coll]; rewrite compute_full; reflexivity|].
  split.
  { unfold rotate_position. cbn [positions nth_error ph]. rewrite pyrotated_spec.
    destruct (vec_eq_dec (Vec 0 0 1) zero3) as [K|_]; [apply vec_inj in K; lra|]. reflexivity. }
  split; [reflexivity|].
  assert (E : vrotate (Vec 0 0 1) (PI / 2) (Vec 1 0 0) = Vec 0 1 0).
  { unfold vrotate, vrotate_cs. cbv zeta. rewrite cos_PI2, sin_PI2. vring. }
  rewrite E. unfold pos_values, stale_coll, gyr, hset. cbn. repeat split; field.
Qed.

(** * Summaries *)

Lemma tensor_always : forall ops, let c := run_ops ops in
  (positions c = [] -> gyration c = Err ValueError) /\
  (positions c <> [] -> exists T c', gyration c = Ok (T, c') /\
     (forall m n, (m < 3)%nat -> (n < 3)%nat -> mget T m n = gyr (pos_values c) m n) /\
     pos_values c' = pos_values c /\ vel_values c' = vel_values c /\ uniformMass c' = uniformMass c).
Proof.
  intros ops c. destruct (gyration_coherent c (run_coherent ops)) as (A & B). split; [exact A|].
  intros N. destruct (B N) as (c' & E & K). exists (full (gyr (pos_values c))), c'. split; [exact E|].
  split; [|exact K]. intros m n. apply mget_full.
Qed.
Lemma shape_always : forall eig ops x y z, let c := run_ops ops in let l := pos_values c in
  positions c <> [] ->
  (forall T, (forall m n, (m < 3)%nat -> (n < 3)%nat -> mget T m n = gyr l m n) -> eig T = (x, y, z)) ->
  eigenvalues (gyr_row l 0) (gyr_row l 1) (gyr_row l 2) x y z ->
  exists x' y' z', eigenvalues (gyr_row l 0) (gyr_row l 1) (gyr_row l 2) x' y' z' /\ 0 <= x' <= y' /\ y' <= z' /\
    principal_moments eig c = Ok (x', y', z') /\
    radius2 eig c = Ok (spread l) /\ spread l = x' + y' + z' /\
    asphericity eig c = Ok (z' - (x' + y') / 2) /\ 0 <= z' - (x' + y') / 2 /\
    acylindricity eig c = Ok (y' - x') /\
    exists k, anisotropy eig c = Ok k /\
      (spread l <> 0 -> 0 <= k <= 1 /\
       k * (spread l * spread l) =
       (z' - (x' + y') / 2) * (z' - (x' + y') / 2) + 3 / 4 * ((y' - x') * (y' - x'))).
Proof.
  intros eig ops x y z c l N E H.
  exact (shape_ok eig c x y z (run_coherent ops) N (E _ (mget_full (gyr l))) H).
Qed.
Lemma gyr_facts : forall l,
  (forall m n, gyr l m n = gyr l n m) /\ (forall v, 0 <= qform (gyr l) v) /\
  (forall t m n, gyr (map (plus3 t) l) m n = gyr l m n) /\
  (forall f v, rigid f -> qform (gyr (map f l)) (f v) = qform (gyr l) v) /\
  (l <> [] -> gyr l 0 0 + gyr l 1 1 + gyr l 2 2 = spread l).
Proof.
  intros l. split; [apply gyr_sym|]. split; [apply gyr_psd|]. split; [intros; apply gyr_translate|].
  split; [intros f v; apply gyr_rotate|apply gyr_trace].
Qed.
Lemma centre_ok : forall c m, uniformMass c = Some m -> 0 < m -> positions c <> [] ->
  exists x, center_of_mass c = Ok x /\ centre m (pos_values c) x /\
    (forall y, centre m (pos_values c) y -> y = x) /\ center_of_positions c = Ok x /\
    (velocities c <> [] -> exists v, center_of_mass_velocity c = Ok v /\ centre m (vel_values c) v).
Proof.
  intros c m H M N. exists (mean (pos_values c)). assert (PN := pos_values_nonempty c N).
  split; [exact (com_spec c m H M N)|]. split; [apply mean_centre, PN|].
  split; [intros y K; exact (centre_unique m _ y _ M PN K (mean_centre m _ PN))|].
  split; [apply cop_spec, N|]. intros V. exists (mean (vel_values c)).
  split; [exact (comv_spec c m H M N V)|]. apply mean_centre, vel_values_nonempty, V.
Qed.
Lemma stale_refuted :
  exists c1 c2 T, gyration stale_coll = Ok (T, c1) /\
    rotate_position c1 0 (Vec 0 0 1) (PI / 2) = Ok c2 /\
    gyration c2 = Ok (T, c2) /\
    mget T 0 0 = 1 / 4 /\ mget T 1 1 = 0 /\ gyr (pos_values c2) 0 0 = 0 /\ gyr (pos_values c2) 1 1 = 1 / 4.
Proof.
  destruct stale_tensor as (c1 & c2 & A & B & C & D & E & F).
  exists c1, c2, (full (gyr (pos_values stale_coll))). rewrite !mget_full by lia. repeat (split; [assumption|]).
  split; [|split; assumption]. unfold pos_values, stale_coll, gyr. cbn. field.
Qed.
