(** Collections of particles: [Analysis/MPCDAnalysis/ParticleCollection.py].
    Positions and velocities are lists of references to vector objects, because
    rotating a collection changes the objects in place; an object is known by a number.
    Simplifications: exact real numbers; arguments have the documented types; the
    linear algebra routines of numpy are parameters. *)
From Coq Require Import List Arith Bool Reals.
From Verif Require Export PyBase VecBase VecModel.
Import ListNotations.
Open Scope R_scope.

(** Matrices of 3 times 3 numbers, by rows ([numpy.zeros((3, 3))], ParticleCollection.py:381-397). *)
Record mat := Mat { m00 : R; m01 : R; m02 : R; m10 : R; m11 : R; m12 : R; m20 : R; m21 : R; m22 : R }.
(** Element of a matrix, ParticleCollection.py:381-397. *)
Definition mget (S : mat) (m n : nat) : R :=
  match m, n with
  | 0, 0 => m00 S | 0, 1 => m01 S | 0, _ => m02 S
  | 1, 0 => m10 S | 1, 1 => m11 S | 1, _ => m12 S
  | _, 0 => m20 S | _, 1 => m21 S | _, _ => m22 S
  end%nat.
(** Assignment to an element, ParticleCollection.py:381-397. *)
Definition mset (S : mat) (m n : nat) (x : R) : mat :=
  match S with Mat a b c d e f g h i =>
    match m, n with
    | 0, 0 => Mat x b c d e f g h i | 0, 1 => Mat a x c d e f g h i | 0, _ => Mat a b x d e f g h i
    | 1, 0 => Mat a b c x e f g h i | 1, 1 => Mat a b c d x f g h i | 1, _ => Mat a b c d e x g h i
    | _, 0 => Mat a b c d e f x h i | _, 1 => Mat a b c d e f g x i | _, _ => Mat a b c d e f g h x
    end%nat
  end.
(** [numpy.zeros((3, 3))], ParticleCollection.py:381-397. *)
Definition mzero : mat := Mat 0 0 0 0 0 0 0 0 0.

(* Vector3DReal.py:435-453: __getitem__, for valid indices *)
Definition comp (r : vec) (i : nat) : R := match i with 0 => vx r | 1 => vy r | _ => vz r end%nat.

(** The vector objects that a list refers to. *)
Notation heap := (nat -> vec).
(** Changing a vector object in place, Vector3DReal.py:217-243. *)
Definition hset (H : heap) (i : nat) (v : vec) : heap := fun j => if Nat.eqb j i then v else H j.

(* ParticleCollection.py:12-21: the attributes *)
Record coll := Coll {
  ph : heap; positions : list nat;
  vh : heap; velocities : list nat;
  uniformMass : option R;
  gyrationTensor : option mat }.
(* ParticleCollection.py:12-21: __init__ *)
Definition empty_coll : coll := Coll (fun _ => Vec 0 0 0) [] (fun _ => Vec 0 0 0) [] None None.

(** The values of the positions and of the velocities (ParticleCollection.py:12-21). *)
Definition pos_values (c : coll) : list vec := map (ph c) (positions c).
(** The values of the velocities, ParticleCollection.py:12-21. *)
Definition vel_values (c : coll) : list vec := map (vh c) (velocities c).

(* ParticleCollection.py:24-68: setPositionsAndVelocities.  [copy.deepcopy] of a list
   copies every object once: elements that were the same object before are the same
   object afterwards.  A copy is known by the number of its original. *)
Definition set_pv (c : coll) (H : heap) (ps vs : list nat) : result coll :=
  if negb (Nat.eqb (length vs) 0) && negb (Nat.eqb (length ps) (length vs)) then Err ValueError
  else Ok (Coll H ps H vs (uniformMass c) None).
(* ParticleCollection.py:71-92: setUniformMass *)
Definition set_mass (c : coll) (m : R) : result coll :=
  if Rlt_dec m 0 then Err ValueError
  else Ok (Coll (ph c) (positions c) (vh c) (velocities c) (Some m) (gyrationTensor c)).
(* ParticleCollection.py:181-206: getMass, for a valid index *)
Definition get_mass (c : coll) : result R :=
  match uniformMass c with None => Err RuntimeError | Some m => Ok m end.

(* ParticleCollection.py:245-250 and 291-296: the loops that accumulate masses and
   weighted vectors *)
Fixpoint weigh (c : coll) (cumulative : vec) (mass : R) (l : list vec) : result (vec * R) :=
  match l with
  | [] => Ok (cumulative, mass)
  | v :: l =>
    do m <- get_mass c;
    weigh c (pyadd cumulative (pymul v m)) (mass + m) l
  end.
(* ParticleCollection.py:229-252: getCenterOfMass *)
Definition center_of_mass (c : coll) : result vec :=
  match positions c with
  | [] => Err RuntimeError
  | _ => do r <- weigh c (Vec 0 0 0) 0 (pos_values c); pydiv (fst r) (snd r)
  end.
(* ParticleCollection.py:275-298: getCenterOfMassVelocity *)
Definition center_of_mass_velocity (c : coll) : result vec :=
  match positions c with
  | [] => Err RuntimeError
  | _ => do r <- weigh c (Vec 0 0 0) 0 (vel_values c); pydiv (fst r) (snd r)
  end.
(* ParticleCollection.py:255-272: getCenterOfPositions *)
Definition center_of_positions (c : coll) : result vec :=
  match positions c with
  | [] => Err RuntimeError
  | _ => pydiv (fold_left pyadd (pos_values c) (Vec 0 0 0)) (INR (length (positions c)))
  end.

(* ParticleCollection.py:328-332: the loops; every visited object is changed in place *)
Fixpoint rotate_objects (H : heap) (ids : list nat) (axis : vec) (angle : R) : result heap :=
  match ids with
  | [] => Ok H
  | i :: ids =>
    do v <- pyrotated (H i) axis angle;
    rotate_objects (hset H i v) ids axis angle
  end.
(* ParticleCollection.py:301-334: rotateAroundNormalizedAxis *)
Definition rotate (c : coll) (axis : vec) (angle : R) : result coll :=
  if Req_EM_T (pylen2 axis) 1 then
    do H <- rotate_objects (ph c) (positions c) axis angle;
    do K <- rotate_objects (vh c) (velocities c) axis angle;
    Ok (Coll H (positions c) K (velocities c) (uniformMass c) None)
  else Err ValueError.
(* ParticleCollection.py:122-143 with Vector3DReal.py:246-266: the caller rotates the
   object that [getPosition(i)] returned *)
Definition rotate_position (c : coll) (i : nat) (axis : vec) (angle : R) : result coll :=
  match nth_error (positions c) i with
  | None => Err IndexError
  | Some k =>
    do v <- pyrotated (ph c k) axis angle;
    Ok (Coll (hset (ph c) k v) (positions c) (vh c) (velocities c) (uniformMass c) (gyrationTensor c))
  end.

(* ParticleCollection.py:344-348: [list[index] -= v] stores a new object, because the
   vectors have no [__isub__] *)
Definition fresh (l : list vec) : heap := fun i => nth i l (Vec 0 0 0).
(* ParticleCollection.py:336-350: shiftToCenterOfMassFrame *)
Definition shift (c : coll) : result coll :=
  do com <- center_of_mass c;
  do comv <- center_of_mass_velocity c;
  let ps := map (fun v => pysub v com) (pos_values c) in
  let vs := map (fun v => pysub v comv) (vel_values c) in
  Ok (Coll (fresh ps) (seq 0 (length ps)) (fresh vs) (seq 0 (length vs)) (uniformMass c) None).

(** The pairs [(m, n)] that [for m in range(0, 3): for n in range(m, 3)] visits. *)
Definition upper : list (nat * nat) := [(0, 0); (0, 1); (0, 2); (1, 1); (1, 2); (2, 2)]%nat.
(* ParticleCollection.py:383-387: the innermost loops *)
Definition add_pair (r1 : vec) (S : mat) (r2 : vec) : mat :=
  fold_left (fun S mn => let '(m, n) := mn in
    mset S m n (mget S m n + (comp r1 m - comp r2 m) * (comp r1 n - comp r2 n))) upper S.
(* ParticleCollection.py:381-397 *)
Definition compute_tensor (l : list vec) : mat :=
  let S := fold_left (fun S r1 => fold_left (add_pair r1) l S) l mzero in
  let factor := 1 / (2 * INR (length l) * INR (length l)) in
  let S := fold_left (fun S mn => let '(m, n) := mn in mset S m n (mget S m n * factor)) upper S in
  let S := mset S 1 0 (mget S 0 1) in
  let S := mset S 2 0 (mget S 0 2) in
  mset S 2 1 (mget S 1 2).
(* ParticleCollection.py:353-401: getGyrationTensor *)
Definition gyration (c : coll) : result (mat * coll) :=
  match gyrationTensor c with
  | Some T => Ok (T, c)
  | None =>
    match positions c with
    | [] => Err ValueError
    | _ =>
      let S := compute_tensor (pos_values c) in
      Ok (S, Coll (ph c) (positions c) (vh c) (velocities c) (uniformMass c) (Some S))
    end
  end.

(** What can be done with a collection (methods of ParticleCollection.py:24-401). *)
Inductive op :=
| SetPositionsAndVelocities (H : heap) (ps vs : list nat)
| SetUniformMass (m : R)
| Rotate (axis : vec) (angle : R)
| Shift
| GyrationTensor.
(** The collection after an operation; one that raises an exception leaves it as it
    was (ParticleCollection.py:24-401). *)
Definition after (c : coll) (r : result coll) : coll := match r with Ok c => c | Err _ => c end.
(** One call, ParticleCollection.py:24-401. *)
Definition step (c : coll) (o : op) : coll :=
  match o with
  | SetPositionsAndVelocities H ps vs => after c (set_pv c H ps vs)
  | SetUniformMass m => after c (set_mass c m)
  | Rotate axis angle => after c (rotate c axis angle)
  | Shift => after c (shift c)
  | GyrationTensor => match gyration c with Ok (_, c) => c | Err _ => c end
  end.
(** A sequence of calls, ParticleCollection.py:24-401. *)
Definition run_ops (l : list op) : coll := fold_left step l empty_coll.

(** * Quantities derived from the gyration tensor *)

(** [numpy.sort] of three numbers (ParticleCollection.py:455-474). *)
Definition rleb (x y : R) : bool := if Rle_dec x y then true else false.
(** [numpy.sort], ParticleCollection.py:455-474. *)
Definition sort3 (x y z : R) : R * R * R :=
  let '(x, y) := if rleb x y then (x, y) else (y, x) in
  let '(y, z) := if rleb y z then (y, z) else (z, y) in
  let '(x, y) := if rleb x y then (x, y) else (y, x) in
  (x, y, z).
Section Shape.
(** [numpy.linalg.eig]: the eigenvalues, in any order *)
Variable eig : mat -> R * R * R.
(* ParticleCollection.py:455-474: getGyrationTensorPrincipalMoments; the eigenvalues are
   real numbers here, so the check cannot fail *)
Definition principal_moments (c : coll) : result (R * R * R) :=
  do T <- gyration c;
  let '(x, y, z) := eig (fst T) in Ok (sort3 x y z).
(* ParticleCollection.py:507-515: getRadiusOfGyrationSquared *)
Definition radius2 (c : coll) : result R :=
  do m <- principal_moments c; let '(x, y, z) := m in Ok (x + y + z).
(* ParticleCollection.py:525-538: getAsphericity *)
Definition asphericity (c : coll) : result R :=
  do m <- principal_moments c; let '(x, y, z) := m in Ok (z - 1 / 2 * (x + y)).
(* ParticleCollection.py:540-553: getAcylindricity *)
Definition acylindricity (c : coll) : result R :=
  do m <- principal_moments c; let '(x, y, _) := m in Ok (y - x).
(* ParticleCollection.py:555-569: getRelativeShapeAnisotropy; division by zero is not an
   exception for numpy's numbers and is left to the reals *)
Definition anisotropy (c : coll) : result R :=
  do b <- asphericity c;
  do a <- acylindricity c;
  do r <- radius2 c;
  Ok ((b * b + 3 / 4 * a * a) / (r * r)).
End Shape.
(* ParticleCollection.py:609-622: _getAngleBetweenLines *)
Definition line_angle (v1 v2 : vec) : R :=
  let dot := pydot v1 v2 in
  let dot := if Rlt_dec dot 0 then dot * -1 else dot in
  let len1Squared := pydot v1 v1 in
  let len2Squared := pydot v2 v2 in
  acos (dot / sqrt (len1Squared * len2Squared)).

(** * Rotation *)

(* ParticleCollection.py:412-431: the loop of getMomentOfInertiaTensor *)
Definition inertia_step (mass : R) (I : mat) (p : vec) : mat :=
  let x := vx p in let y := vy p in let z := vz p in
  let Ixx := m00 I + mass * (y * y + z * z) in
  let Ixy := m01 I + - mass * x * y in
  let Ixz := m02 I + - mass * x * z in
  let Iyy := m11 I + mass * (x * x + z * z) in
  let Iyz := m12 I + - mass * y * z in
  let Izz := m22 I + mass * (x * x + y * y) in
  Mat Ixx Ixy Ixz Ixy Iyy Iyz Ixz Iyz Izz.
(* ParticleCollection.py:404-437: getMomentOfInertiaTensor *)
Definition inertia (c : coll) : result mat :=
  do com <- center_of_mass c;
  if Rlt_dec (/ 10 ^ 20) (pylen2 com) then Err ValueError
  else do m <- get_mass c; Ok (fold_left (inertia_step m) (pos_values c) mzero).
(* ParticleCollection.py:209-226, 439-445: getMomentum, getTotalAngularMomentumVector *)
Fixpoint angular_loop (c : coll) (L : vec) (ps vs : list vec) : result vec :=
  match ps, vs with
  | [], _ => Ok L
  | _ :: _, [] => Err IndexError
  | p :: ps, v :: vs =>
    do m <- get_mass c; angular_loop c (pyadd L (pycross p (pymul v m))) ps vs
  end.
(** ParticleCollection.py:209-226. *)
Definition angular_momentum (c : coll) : result vec :=
  angular_loop c (Vec 0 0 0) (pos_values c) (vel_values c).
(** [numpy.ndarray.dot] of a matrix and a vector. *)
Definition mapply (M : mat) (v : vec) : vec :=
  Vec (m00 M * vx v + m01 M * vy v + m02 M * vz v)
      (m10 M * vx v + m11 M * vy v + m12 M * vz v)
      (m20 M * vx v + m21 M * vy v + m22 M * vz v).
(* ParticleCollection.py:447-452: getRotationFrequencyVector, with the matrix inversion as
   a parameter *)
Definition rotation_frequency (inv : mat -> result mat) (c : coll) : result vec :=
  do M <- inertia c;
  do L <- angular_momentum c;
  do J <- inv M;
  Ok (mapply J L).
