(** Property theorems about collections of particles: the centre-of-mass frame (C34),
    the gyration tensor and its cache (C35), rotating a collection (C73), shape
    descriptors (C74), and the rotation frequency (C75). *)
From Coq Require Import List Arith Bool Reals Lra Lia.
From Verif Require Import PyBase VecBase VecModel VecSpec VecProof PartModel PartSpec PartProof PartShapeProof.
Import ListNotations.
Open Scope R_scope.

(** C34: the centre of mass is the balance point of the positions (and likewise of the
    velocities), and with equal masses it is the centre of the positions. *)
Theorem centre_of_mass_correct : forall c m, uniformMass c = Some m -> 0 < m -> positions c <> [] ->
  exists x, center_of_mass c = Ok x /\ centre m (pos_values c) x /\
    (forall y, centre m (pos_values c) y -> y = x) /\ center_of_positions c = Ok x /\
    (velocities c <> [] -> exists v, center_of_mass_velocity c = Ok v /\ centre m (vel_values c) v).
Proof. exact centre_ok. Qed.
Print Assumptions centre_of_mass_correct.

(** C34: after the shift the centre of mass rests at the origin, the differences of
    positions and of velocities are unchanged, and a second shift changes nothing. *)
Theorem centre_of_mass_frame : forall c m,
  uniformMass c = Some m -> 0 < m -> positions c <> [] -> velocities c <> [] ->
  exists c' c'', shift c = Ok c' /\
    center_of_mass c' = Ok zero3 /\ center_of_mass_velocity c' = Ok zero3 /\ uniformMass c' = Some m /\
    same_differences (pos_values c) (pos_values c') /\ same_differences (vel_values c) (vel_values c') /\
    shift c' = Ok c'' /\ pos_values c'' = pos_values c' /\ vel_values c'' = vel_values c' /\ uniformMass c'' = Some m.
Proof. exact shift_frame. Qed.
Print Assumptions centre_of_mass_frame.
Example centre_example :
  let c := Coll two_points [0; 1]%nat two_points [1; 0]%nat (Some 3) None in
  uniformMass c = Some 3 /\ 0 < 3 /\ positions c <> [] /\ velocities c <> [] /\
  center_of_mass c = Ok (Vec (1/2) 0 0).
Proof.
  cbv zeta. split; [reflexivity|]. split; [lra|]. split; [cbn; congruence|]. split; [cbn; congruence|].
  rewrite (com_spec _ 3) by (try reflexivity; try lra; cbn; congruence).
  f_equal. unfold mean, pos_values, two_points. cbn. unfold times3; cbn. apply vec_ext; field.
Qed.

(** C34: when the shift fails, and how: in particular for particles without velocities,
    although their positions could be shifted. *)
Theorem centre_of_mass_frame_fails : forall c,
  (positions c = [] -> shift c = Err RuntimeError) /\
  (positions c <> [] -> uniformMass c = None -> shift c = Err RuntimeError) /\
  (positions c <> [] -> uniformMass c = Some 0 -> shift c = Err ValueError) /\
  (positions c <> [] -> (exists m, uniformMass c = Some m /\ 0 < m) -> velocities c = [] -> shift c = Err ValueError).
Proof. exact shift_fails. Qed.
Print Assumptions centre_of_mass_frame_fails.

(** C35: whatever was done to a collection before, the gyration tensor it returns has the
    documented entries for the present positions; an empty collection raises an
    exception; asking does not change the collection. *)
Theorem gyration_tensor_always : forall ops, let c := run_ops ops in
  (positions c = [] -> gyration c = Err ValueError) /\
  (positions c <> [] -> exists T c', gyration c = Ok (T, c') /\
     (forall m n, (m < 3)%nat -> (n < 3)%nat -> mget T m n = gyr (pos_values c) m n) /\
     pos_values c' = pos_values c /\ vel_values c' = vel_values c /\ uniformMass c' = uniformMass c).
Proof. exact tensor_always. Qed.
Print Assumptions gyration_tensor_always.
Example gyration_example :
  let c := run_ops [SetPositionsAndVelocities two_points [0; 1]%nat []; GyrationTensor; Rotate (Vec 0 0 1) (PI / 2)] in
  positions c <> [] /\ pos_values c = [Vec 0 1 0; Vec 0 0 0] /\ gyrationTensor c = None.
Proof.
  cbv zeta. unfold run_ops. cbn [fold_left step set_pv length Nat.eqb negb andb after gyration gyrationTensor positions empty_coll].
  set (c := Coll _ _ _ _ _ _).
  destruct (rotate_distinct c (Vec 0 0 1) (PI / 2)) as (c' & E & P & _).
  - unfold pylen2, pydot; cbn; ring.
  - unfold c. cbn. repeat constructor; cbn; intuition congruence.
  - unfold c. cbn. constructor.
  - rewrite E. cbn [after].
    assert (V : pos_values c' = [Vec 0 1 0; Vec 0 0 0]).
    { rewrite P. unfold c, pos_values, two_points. cbn [ph positions map]. unfold vrotate, vrotate_cs. cbv zeta.
      rewrite cos_PI2, sin_PI2. repeat (apply f_equal2; [vring|]). reflexivity. }
    split; [apply values_nonempty_pos; rewrite V; congruence|]. split; [exact V|].
    revert E. unfold rotate. destruct (Req_EM_T _ _); [|discriminate].
    destruct (rotate_objects (ph c) _ _ _); [|discriminate]. cbn [bind].
    destruct (rotate_objects (vh c) _ _ _); [|discriminate]. cbn [bind]. intros K. injection K as <-. reflexivity.
Qed.

(** C35: the tensor is symmetric, positive semidefinite, independent of the origin, turns
    with the particles, and its trace is the squared radius of gyration. *)
Theorem gyration_tensor_facts : forall l,
  (forall m n, gyr l m n = gyr l n m) /\ (forall v, 0 <= qform (gyr l) v) /\
  (forall t m n, gyr (map (plus3 t) l) m n = gyr l m n) /\
  (forall f v, rigid f -> qform (gyr (map f l)) (f v) = qform (gyr l) v) /\
  (l <> [] -> gyr l 0 0 + gyr l 1 1 + gyr l 2 2 = spread l).
Proof. exact gyr_facts. Qed.
Print Assumptions gyration_tensor_facts.

(** C35 is false once a caller changes a vector that [getPosition] returned: the tensor
    stays that of the old positions. *)
Theorem gyration_tensor_stale_refuted :
  exists c1 c2 T, gyration stale_coll = Ok (T, c1) /\
    rotate_position c1 0 (Vec 0 0 1) (PI / 2) = Ok c2 /\
    gyration c2 = Ok (T, c2) /\
    mget T 0 0 = 1 / 4 /\ mget T 1 1 = 0 /\ gyr (pos_values c2) 0 0 = 0 /\ gyr (pos_values c2) 1 1 = 1 / 4.
Proof. exact stale_refuted. Qed.
Print Assumptions gyration_tensor_stale_refuted.

(** C73: rotating a collection turns every position and velocity once, if no two entries
    are the same object. *)
Theorem rotate_collection : forall c n x, unit3 n -> NoDup (positions c) -> NoDup (velocities c) ->
  exists c', rotate c n x = Ok c' /\ pos_values c' = map (vrotate n x) (pos_values c)
    /\ vel_values c' = map (vrotate n x) (vel_values c) /\ uniformMass c' = uniformMass c.
Proof. exact rotate_distinct. Qed.
Print Assumptions rotate_collection.
(** C73 is false in general: an object that occurs several times is turned once per
    occurrence; here by half a turn instead of a quarter. *)
Theorem rotate_collection_refuted :
  exists c', (do c <- set_pv empty_coll two_same [0; 0]%nat []; rotate c (Vec 0 0 1) (PI / 2)) = Ok c' /\
    pos_values c' = [Vec (-1) 0 0; Vec (-1) 0 0] /\ vrotate (Vec 0 0 1) (PI / 2) (Vec 1 0 0) = Vec 0 1 0.
Proof. exact rotate_shared. Qed.
Print Assumptions rotate_collection_refuted.
(** C73: what happens in general. *)
Theorem rotate_collection_general : forall c n x, unit3 n ->
  exists c', rotate c n x = Ok c' /\ positions c' = positions c /\ velocities c' = velocities c /\
    (forall i, ph c' i = vrotate n (INR (count_occ Nat.eq_dec (positions c) i) * x) (ph c i)) /\
    (forall i, vh c' i = vrotate n (INR (count_occ Nat.eq_dec (velocities c) i) * x) (vh c i)).
Proof. exact rotate_count. Qed.
Print Assumptions rotate_collection_general.

(** C74: with eigenvalues from a correct routine, the principal moments are sorted and not
    negative, the squared radius of gyration is the mean squared distance from the centre,
    asphericity and acylindricity are not negative, and the relative shape anisotropy is
    the documented quotient and lies between zero and one. *)
Theorem shape_descriptors : forall eig ops x y z, let c := run_ops ops in let l := pos_values c in
  positions c <> [] ->
  (forall T, (forall m n, (m < 3)%nat -> (n < 3)%nat -> mget T m n = gyr l m n) -> eig T = (x, y, z)) ->
  eigenvalues (gyr_row l 0) (gyr_row l 1) (gyr_row l 2) x y z ->
  exists x' y' z', eigenvalues (gyr_row l 0) (gyr_row l 1) (gyr_row l 2) x' y' z' /\ 0 <= x' <= y' /\ y' <= z' /\
    principal_moments eig c = Ok (x', y', z') /\
    radius2 eig c = Ok (spread l) /\ spread l = x' + y' + z' /\
    asphericity eig c = Ok (z' - (x' + y') / 2) /\ 0 <= z' - (x' + y') / 2 /\
    acylindricity eig c = Ok (y' - x') /\
    exists k, anisotropy eig c = Ok k /\
      (spread l <> 0 -> 0 <= k <= 1 /\
       k * (spread l * spread l) =
       (z' - (x' + y') / 2) * (z' - (x' + y') / 2) + 3 / 4 * ((y' - x') * (y' - x'))).
Proof. exact shape_always. Qed.
Print Assumptions shape_descriptors.
(** Two particles: one eigenvalue is not zero. *)
Example shape_example :
  let l := [Vec 1 0 0; Vec 0 0 0] in
  eigenvalues (gyr_row l 0) (gyr_row l 1) (gyr_row l 2) (1/4) 0 0 /\ spread l = 1/4.
Proof.
  cbv zeta. split.
  - intros t. unfold charpoly, gyr_row, gyr, det3, minus3. cbn. field.
  - unfold spread, mean, dot3, minus3, times3. cbn. field.
Qed.

(** C74: the angle between two lines. *)
Theorem line_angle_correct : forall v w, v <> zero3 -> w <> zero3 ->
  0 <= line_angle v w <= PI / 2 /\
  sqrt (dot3 v v) * sqrt (dot3 w w) * cos (line_angle v w) = Rabs (dot3 v w).
Proof. exact line_angle_ok. Qed.
Print Assumptions line_angle_correct.

(** C75: for particles that turn rigidly about their centre of mass at the origin, the
    angular momentum is the moment of inertia tensor times the angular velocity, and the
    rotation frequency is that angular velocity, provided that the matrix inversion
    inverts. *)
Theorem rotation_frequency_correct : forall inv c m w com, uniformMass c = Some m ->
  center_of_mass c = Ok com -> dot3 com com <= / 10 ^ 20 ->
  turning w (pos_values c) (vel_values c) ->
  exists M, inertia c = Ok M /\
    (forall u, mapply M u = times3 m (vsum (map (fun p => cross3 p (cross3 u p)) (pos_values c)))) /\
    angular_momentum c = Ok (mapply M w) /\
    forall J, inv M = Ok J -> (forall u, mapply J (mapply M u) = u) -> rotation_frequency inv c = Ok w.
Proof. exact rotation_frequency_ok. Qed.
Print Assumptions rotation_frequency_correct.
(** Four particles on two axes, turning about the third. *)
Example rotation_frequency_example :
  let ps := [Vec 1 0 0; Vec (-1) 0 0; Vec 0 1 0; Vec 0 (-1) 0] in
  let vs := [Vec 0 2 0; Vec 0 (-2) 0; Vec (-2) 0 0; Vec 2 0 0] in
  let c := Coll (fresh ps) (seq 0 4) (fresh vs) (seq 0 4) (Some 1) None in
  turning (Vec 0 0 2) (pos_values c) (vel_values c) /\ center_of_mass c = Ok (Vec 0 0 0) /\
  forall u, mapply (Mat (1/2) 0 0 0 (1/2) 0 0 0 (1/4)) (mapply (Mat 2 0 0 0 2 0 0 0 4) u) = u.
Proof.
  cbv zeta. split; [|split].
  - unfold turning, pos_values, vel_values, fresh, cross3. cbn. repeat (apply f_equal2; [apply vec_ext; ring|]). reflexivity.
  - rewrite (com_spec _ 1) by (try reflexivity; try lra; cbn; congruence).
    f_equal. unfold mean, pos_values, fresh. cbn. unfold times3, plus3; cbn. apply vec_ext; field.
  - intros u. destruct u. unfold mapply; cbn. apply vec_ext; field.
Qed.
