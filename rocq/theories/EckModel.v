(** Eckart systems: [Analysis/MPCDAnalysis/EckartSystem.py].
    Simplifications: as in [PartModel]; matrix inversion and matrix square root of scipy
    are parameters; arguments have the documented types. *)
From Coq Require Import List Arith Bool Reals.
From Verif Require Export PartModel.
Import ListNotations.
Open Scope R_scope.

(* EckartSystem.py:14-44: __init__; the reference configuration is copied, so only the
   values of its vectors matter *)
Definition eckart_new (reference : coll) : result coll :=
  match positions reference, uniformMass reference with
  | _ :: _, None => Err ValueError
  | _, _ => shift reference
  end.

(* EckartSystem.py:122-133: the loop of getEckartVectors *)
Fixpoint eckart_loop (inst ref : coll) (F : vec * vec * vec) (rs as_ : list vec) : result (vec * vec * vec) :=
  match rs, as_ with
  | r :: rs, a :: as_ =>
    do mass <- get_mass inst;
    do mass' <- get_mass ref;
    if Req_EM_T mass mass' then
      let '(F0, F1, F2) := F in
      eckart_loop inst ref (pyadd F0 (pymul r (mass * comp a 0)), pyadd F1 (pymul r (mass * comp a 1)),
                            pyadd F2 (pymul r (mass * comp a 2))) rs as_
    else Err ValueError
  | _, _ => Ok F
  end.
(* EckartSystem.py:81-136: getEckartVectors *)
Definition eckart_vectors (ref inst : coll) : result (vec * vec * vec) :=
  if Nat.eqb (length (positions inst)) (length (positions ref)) then
    eckart_loop inst ref (Vec 0 0 0, Vec 0 0 0, Vec 0 0 0) (pos_values inst) (pos_values ref)
  else Err ValueError.
(* EckartSystem.py:139-184: getGramMatrix *)
Definition gram (F : vec * vec * vec) : mat :=
  let '(F0, F1, F2) := F in
  Mat (pydot F0 F0) (pydot F0 F1) (pydot F0 F2)
      (pydot F0 F1) (pydot F1 F1) (pydot F1 F2)
      (pydot F0 F2) (pydot F1 F2) (pydot F2 F2).
(** [numpy.dot] of two matrices (EckartSystem.py:187-237). *)
Definition mmul (A B : mat) : mat :=
  Mat (m00 A * m00 B + m01 A * m10 B + m02 A * m20 B) (m00 A * m01 B + m01 A * m11 B + m02 A * m21 B)
      (m00 A * m02 B + m01 A * m12 B + m02 A * m22 B)
      (m10 A * m00 B + m11 A * m10 B + m12 A * m20 B) (m10 A * m01 B + m11 A * m11 B + m12 A * m21 B)
      (m10 A * m02 B + m11 A * m12 B + m12 A * m22 B)
      (m20 A * m00 B + m21 A * m10 B + m22 A * m20 B) (m20 A * m01 B + m21 A * m11 B + m22 A * m21 B)
      (m20 A * m02 B + m21 A * m12 B + m22 A * m22 B).
Section Eckart.
(** [scipy.linalg.sqrtm] of [scipy.linalg.inv] *)
Variable inv_sqrt : mat -> mat.
(** [scipy.linalg.inv] *)
Variable inv : mat -> mat.
(* EckartSystem.py:187-237: getEckartFrame *)
Definition eckart_frame (ref inst : coll) : result (vec * vec * vec) :=
  do ev <- eckart_vectors ref inst;
  let '(e0, e1, e2) := ev in
  let left := Mat (comp e0 0) (comp e1 0) (comp e2 0) (comp e0 1) (comp e1 1) (comp e2 1)
                  (comp e0 2) (comp e1 2) (comp e2 2) in
  let right := inv_sqrt (gram ev) in
  let res := mmul left right in
  Ok (Vec (m00 res) (m10 res) (m20 res), Vec (m01 res) (m11 res) (m21 res), Vec (m02 res) (m12 res) (m22 res)).
(* EckartSystem.py:240-283: getEckartFrameEquilibriumPositions *)
Definition equilibrium (ref inst : coll) : result (list vec) :=
  do fr <- eckart_frame ref inst;
  let '(f0, f1, f2) := fr in
  Ok (map (fun a => pyadd (pyadd (pyadd (Vec 0 0 0) (pymul f0 (comp a 0))) (pymul f1 (comp a 1))) (pymul f2 (comp a 2)))
       (pos_values ref)).
(** Sums, differences and multiples of matrices (EckartSystem.py:351-441). *)
Definition madd (A B : mat) : mat :=
  Mat (m00 A + m00 B) (m01 A + m01 B) (m02 A + m02 B) (m10 A + m10 B) (m11 A + m11 B) (m12 A + m12 B)
      (m20 A + m20 B) (m21 A + m21 B) (m22 A + m22 B).
(** EckartSystem.py:351-368. *)
Definition msub (A B : mat) : mat :=
  Mat (m00 A - m00 B) (m01 A - m01 B) (m02 A - m02 B) (m10 A - m10 B) (m11 A - m11 B) (m12 A - m12 B)
      (m20 A - m20 B) (m21 A - m21 B) (m22 A - m22 B).
(** EckartSystem.py:351-368. *)
Definition mscale (A : mat) (k : R) : mat :=
  Mat (m00 A * k) (m01 A * k) (m02 A * k) (m10 A * k) (m11 A * k) (m12 A * k) (m20 A * k) (m21 A * k) (m22 A * k).
(** [numpy.identity], EckartSystem.py:351-368. *)
Definition mident : mat := Mat 1 0 0 0 1 0 0 0 1.
Definition outer (a b : vec) : mat :=
  Mat (vx a * vx b) (vx a * vy b) (vx a * vz b) (vy a * vx b) (vy a * vy b) (vy a * vz b)
      (vz a * vx b) (vz a * vy b) (vz a * vz b).
(* EckartSystem.py:351-368: the loop of getEckartMomentOfInertiaTensor *)
Definition eckart_inertia_step (m : R) (com : vec) (J : mat) (rc : vec * vec) : mat :=
  let d := pysub (fst rc) com in
  let c := snd rc in
  madd J (mscale (msub (mscale mident (pydot d c)) (outer d c)) m).
(* EckartSystem.py:286-370: getEckartMomentOfInertiaTensor *)
Definition eckart_inertia (inst : coll) (cs : list vec) : result mat :=
  do com <- center_of_mass inst;
  do m <- get_mass inst;
  Ok (fold_left (eckart_inertia_step m com) (combine (pos_values inst) cs) mzero).
(* EckartSystem.py:424-433: the right-hand side of getEckartAngularVelocityVector *)
Definition eckart_rhs_step (m : R) (comv : vec) (rhs : vec) (vc : vec * vec) : vec :=
  pyadd rhs (pymul (pycross (snd vc) (pysub (fst vc) comv)) m).
(* EckartSystem.py:373-441: getEckartAngularVelocityVector; there are as many velocities
   as positions, or none, in which case [getCenterOfMassVelocity] fails *)
Definition eckart_velocity (ref inst : coll) : result vec :=
  do cs <- equilibrium ref inst;
  do J <- eckart_inertia inst cs;
  do comv <- center_of_mass_velocity inst;
  do m <- get_mass inst;
  let rhs := fold_left (eckart_rhs_step m comv) (combine (vel_values inst) cs) (Vec 0 0 0) in
  Ok (mapply (inv J) rhs).
End Eckart.
