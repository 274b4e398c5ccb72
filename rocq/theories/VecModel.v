(** Three-dimensional vectors: [Vector3D.hpp] (real scalars), [Vector3DReal.py], and
    the versions with complex components ([Vector3D.py] and [Vector3D.hpp] with
    [std::complex] scalars).
    Simplification: the scalars are exact real numbers. *)
From Verif Require Export PyBase VecBase.
Open Scope R_scope.

(** * C++, real scalars *)

(* include/OpenMPCD/Vector3D.hpp:456-582: componentwise operators *)
Definition vadd (a b : vec) : vec := Vec (vx a + vx b) (vy a + vy b) (vz a + vz b).
(** include/OpenMPCD/Vector3D.hpp:456-582. *)
Definition vsub (a b : vec) : vec := Vec (vx a - vx b) (vy a - vy b) (vz a - vz b).
(** include/OpenMPCD/Vector3D.hpp:456-582. *)
Definition vneg (a : vec) : vec := Vec (- vx a) (- vy a) (- vz a).
(** include/OpenMPCD/Vector3D.hpp:456-582. *)
Definition vscale (k : R) (a : vec) : vec := Vec (vx a * k) (vy a * k) (vz a * k).
Definition vdivs (a : vec) (k : R) : vec := Vec (vx a / k) (vy a / k) (vz a / k).
(* include/OpenMPCD/Vector3D.hpp:164-172: cross *)
Definition vcross (a b : vec) : vec :=
  Vec (vy a * vz b - vz a * vy b) (vz a * vx b - vx a * vz b) (vx a * vy b - vy a * vx b).
(* include/OpenMPCD/Vector3D.hpp:181-184 and Vector3D_Implementation2.hpp: dot, with a
   trivial conjugation *)
Definition vdot (a b : vec) : R := vx a * vx b + vy a * vy b + vz a * vz b.
(* include/OpenMPCD/Vector3D.hpp:209-239 *)
Definition vmag2 (a : vec) : R := vdot a a.
Definition vmag (a : vec) : R := sqrt (vmag2 a).
(* include/OpenMPCD/Vector3D.hpp:191-205; over the reals [acos] is only meaningful for
   arguments between -1 and 1 *)
Definition vcos_angle (a b : vec) : R := vdot a b / (vmag a * vmag b).
(** include/OpenMPCD/Vector3D.hpp:191-205. *)
Definition vangle (a b : vec) : R := acos (vcos_angle a b).

(* The two C++ exceptions in use are both written as [ZeroDivisionError] here. *)
(* include/OpenMPCD/Vector3D.hpp:248-271: normalize, getNormalized, in host code *)
Definition vnormalized (a : vec) : result vec :=
  let mag := vmag a in
  if Req_EM_T mag 0 then Err ZeroDivisionError else Ok (vdivs a mag).
(* include/OpenMPCD/Vector3D.hpp:275-279: getProjectedOnto *)
Definition vprojected (a onto : vec) : result vec :=
  do n <- vnormalized onto; Ok (vscale (vdot n a) n).
(* include/OpenMPCD/Vector3D.hpp:285-288: getPerpendicularTo *)
Definition vperpendicular (a rhs : vec) : result vec :=
  do p <- vprojected a rhs; Ok (vsub a p).
(* include/OpenMPCD/Vector3D.hpp:308-314: rotateAroundNormalizedAxis; the cosine and
   the sine of the angle are separate arguments so that other code that already has
   them can be described by the same function *)
Definition vrotate_cs (axis v : vec) (c s : R) : vec :=
  let thisDotAxis := vdot v axis in
  let axisCrossThis := vcross axis v in
  let projectionOntoAxis := vscale thisDotAxis axis in
  vadd (vadd projectionOntoAxis (vscale c (vsub v projectionOntoAxis))) (vscale s axisCrossThis).
Definition vrotate (axis : vec) (angle : R) (v : vec) : vec :=
  vrotate_cs axis v (cos angle) (sin angle).
(* include/OpenMPCD/Vector3D.hpp:408-425: getUnitVectorFromRandom01;
   [sincospi] as in Utility/ImplementationDetails/MathematicalFunctions.hpp:108-170 *)
Definition unit_vector (X1 X2 : R) : vec :=
  let z := 2 * X1 - 1 in
  let phiOverPi := 2 * X2 in
  let root := sqrt (1 - z * z) in
  let y := sin (phiOverPi * PI) in
  let x := cos (phiOverPi * PI) in
  Vec (x * root) (y * root) z.
(* include/OpenMPCD/Vector3D.hpp:589-606: operator< *)
Definition rltb (x y : R) : bool := if Rlt_dec x y then true else false.
(** include/OpenMPCD/Vector3D.hpp:589-606. *)
Definition vltb (a b : vec) : bool :=
  if rltb (vx a) (vx b) then true
  else if rltb (vx b) (vx a) then false
  else if rltb (vy a) (vy b) then true
  else if rltb (vy b) (vy a) then false
  else if rltb (vz a) (vz b) then true
  else false.

(** * Python, [Vector3DReal] *)

(* Vector3DReal.py:98-109 *)
Definition pydot (a b : vec) : R := vx a * vx b + vy a * vy b + vz a * vz b.
(* Vector3DReal.py:112-126 *)
Definition pycross (a b : vec) : vec :=
  Vec (vy a * vz b - vz a * vy b) (vz a * vx b - vx a * vz b) (vx a * vy b - vy a * vx b).
(* Vector3DReal.py:129-142 *)
Definition pylen2 (a : vec) : R := pydot a a.
Definition pylen (a : vec) : R := sqrt (pylen2 a).
(* Vector3DReal.py:345-424; the checks of the types are not modelled *)
Definition pyadd (a b : vec) : vec := Vec (vx a + vx b) (vy a + vy b) (vz a + vz b).
(** Vector3DReal.py:345-424. *)
Definition pysub (a b : vec) : vec := Vec (vx a - vx b) (vy a - vy b) (vz a - vz b).
(** Vector3DReal.py:345-424. *)
Definition pymul (a : vec) (k : R) : vec := Vec (vx a * k) (vy a * k) (vz a * k).
Definition pydiv (a : vec) (k : R) : result vec :=
  if Req_EM_T k 0 then Err ValueError else Ok (Vec (vx a / k) (vy a / k) (vz a / k)).
(* Vector3DReal.py:145-157 (and 159-173, which stores the same in place) *)
Definition pynormalized (a : vec) : result vec :=
  if Req_EM_T (pylen2 a) 0 then Err ValueError
  else let factor := 1 / pylen a in Ok (Vec (vx a * factor) (vy a * factor) (vz a * factor)).
(* Vector3DReal.py:176-194: getProjectionOnto *)
Definition pyprojection (a rhs : vec) : result vec :=
  if Req_EM_T (pylen2 rhs) 0 then Err ValueError
  else do n <- pynormalized rhs; Ok (pymul n (pydot n a)).
(* Vector3DReal.py:197-214: getPerpendicularTo *)
Definition pyperpendicular (a rhs : vec) : result vec :=
  if Req_EM_T (pylen2 rhs) 0 then Err ValueError
  else do p <- pyprojection a rhs; Ok (pysub a p).
(* Vector3DReal.py:217-243 (and 246-266, which stores the same in place) *)
Definition pyrotated (a axis : vec) (angle : R) : result vec :=
  if Req_EM_T (pylen2 axis) 0 then Err ValueError
  else
    let thisDotAxis := pydot a axis in
    let axisCrossThis := pycross axis a in
    let projectionOntoAxis := pymul axis thisDotAxis in
    Ok (pyadd (pyadd projectionOntoAxis (pymul (pysub a projectionOntoAxis) (cos angle)))
              (pymul axisCrossThis (sin angle))).

(** * Complex components *)

(** Sum of Python [complex] numbers, used in Vector3D.py:76-98. *)
Definition cadd a b := Cplx (re a + re b) (im a + im b).
(** Difference of [complex] numbers, used in Vector3D.py:76-98. *)
Definition csub a b := Cplx (re a - re b) (im a - im b).
(** Product of [complex] numbers, used in Vector3D.py:29-36. *)
Definition cmul a b := Cplx (re a * re b - im a * im b) (re a * im b + im a * re b).
(** Complex conjugate, used in Vector3D.py:29-30. *)
Definition cconj a := Cplx (re a) (- im a).
(** A real number as a complex one (Vector3D.py:61-69). *)
Definition cR (x : R) := Cplx x 0.

(* Vector3D.py:29-30, Vector3D.hpp:181-184: dot conjugates the components of self *)
Definition cvdot (a b : cvec) : cplx :=
  cadd (cadd (cmul (cconj (cvx a)) (cvx b)) (cmul (cconj (cvy a)) (cvy b)))
       (cmul (cconj (cvz a)) (cvz b)).
(* Vector3D.py:32-36, Vector3D.hpp:164-172 *)
Definition cvcross (a b : cvec) : cvec :=
  CVec (csub (cmul (cvy a) (cvz b)) (cmul (cvz a) (cvy b)))
       (csub (cmul (cvz a) (cvx b)) (cmul (cvx a) (cvz b)))
       (csub (cmul (cvx a) (cvy b)) (cmul (cvy a) (cvx b))).
(* Vector3D.py:38-39 *)
Definition cvlen2 (a : cvec) : R := re (cvdot a a).
(* Vector3D.py:76-98 *)
Definition cvadd a b := CVec (cadd (cvx a) (cvx b)) (cadd (cvy a) (cvy b)) (cadd (cvz a) (cvz b)).
(** Vector3D.py:76-98. *)
Definition cvsub a b := CVec (csub (cvx a) (cvx b)) (csub (cvy a) (cvy b)) (csub (cvz a) (cvz b)).
Definition cvmul a k := CVec (cmul (cvx a) k) (cmul (cvy a) k) (cmul (cvz a) k).
(* Vector3D.py:61-69, Vector3D.hpp:308-314 with [std::complex] scalars and a real angle *)
Definition cvrotated (a axis : cvec) (angle : R) : cvec :=
  let thisDotAxis := cvdot a axis in
  let axisCrossThis := cvcross axis a in
  let projectionOntoAxis := cvmul axis thisDotAxis in
  cvadd (cvadd projectionOntoAxis (cvmul (cvsub a projectionOntoAxis) (cR (cos angle))))
        (cvmul axisCrossThis (cR (sin angle))).
