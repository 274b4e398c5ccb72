(** Vectors that are stored elsewhere (include/OpenMPCD/RemotelyStoredVector.hpp, cudaDeviceCode/OpenMPCD/RemotelyStoredVector.cu) and two-dimensional vectors
    (include/OpenMPCD/Vector2D.hpp, Vector2D_Implementation2.hpp).
    Simplifications: real numbers instead of floating point numbers; addresses are integers that do not overflow, counted in elements; [atomicAdd] is not interrupted
    (see ConcModel.v for threads). [getZ] and [setY], [setZ] convert to and from [FP], which is taken not to change anything. *)
From Coq Require Import List ZArith Bool Reals.
From Verif Require Import PyBase VecModel.
Import ListNotations.
Open Scope Z_scope.

(** ** Memory *)
Section Memory.
(** The type of elements (RemotelyStoredVector.hpp l.26). *)
Variable V : Type.
(** What [storage] points to (RemotelyStoredVector.hpp l.36-40). *)
Definition memory := Z -> V.
(** [storage[i] = x], where [a] is the address of [storage[i]] (RemotelyStoredVector.hpp l.84). *)
Definition poke (m : memory) (a : Z) (x : V) : memory := fun c => if c =? a then x else m c.
(** RemotelyStoredVector.hpp l.36-40: the constructor, with dimension [D]. *)
Definition located (D storageBase vectorID : Z) : Z := storageBase + D * vectorID.
(** RemotelyStoredVector.hpp l.58-66: get; [checked] is whether [OPENMPCD_DEBUG] is defined and this is host code. *)
Definition get (checked : bool) (D : Z) (m : memory) (storage i : Z) : result V :=
  if checked && (D <=? i) then Err OutOfBoundsException else Ok (m (storage + i)).
(** RemotelyStoredVector.hpp l.71-75, 100-106, 123-129. *)
Definition getX (m : memory) (storage : Z) : V := m (storage + 0).
(** RemotelyStoredVector.hpp l.100-106. *)
Definition getY (m : memory) (storage : Z) : V := m (storage + 1).
(** RemotelyStoredVector.hpp l.123-129. *)
Definition getZ (m : memory) (storage : Z) : V := m (storage + 2).
(** RemotelyStoredVector.hpp l.81-85. *)
Definition setX (m : memory) (storage : Z) (val : V) : memory := poke m (storage + 0) val.
(** RemotelyStoredVector.hpp l.112-118. *)
Definition setY (m : memory) (storage : Z) (val : V) : memory := poke m (storage + 1) val.
(** RemotelyStoredVector.hpp l.135-141. *)
Definition setZ (m : memory) (storage : Z) (val : V) : memory := poke m (storage + 2) val.
(** RemotelyStoredVector.hpp l.206-210: the remaining iterations of the loop, from [i] on. *)
Fixpoint finite_from (isfinite : V -> bool) (m : memory) (storage i : Z) (more : nat) : bool :=
  match more with
  | O => true
  | S more => if negb (isfinite (m (storage + i))) then false else finite_from isfinite m storage (i + 1) more
  end.
(** RemotelyStoredVector.hpp l.199-213: isFinite. *)
Definition isFinite (isfinite : V -> bool) (D : nat) (m : memory) (storage : Z) : bool := finite_from isfinite m storage 0 D.
(** RemotelyStoredVector.hpp l.224-225: the remaining iterations of the loop, from [i] on. *)
Fixpoint assign_from (m : memory) (storage rhs i : Z) (more : nat) : memory :=
  match more with
  | O => m
  | S more => assign_from (poke m (storage + i) (m (rhs + i))) storage rhs (i + 1) more
  end.
(** RemotelyStoredVector.hpp l.221-228: operator=. *)
Definition assign (D : nat) (m : memory) (storage rhs : Z) : memory := assign_from m storage rhs 0 D.
(** RemotelyStoredVector.hpp l.173-174: the remaining iterations of the loop, from [i] on. *)
Fixpoint dot_from (add mul : V -> V -> V) (m : memory) (storage rhs i : Z) (more : nat) (ret : V) : V :=
  match more with
  | O => ret
  | S more => dot_from add mul m storage rhs (i + 1) more (add ret (mul (m (storage + i)) (m (rhs + i))))
  end.
(** RemotelyStoredVector.hpp l.169-176: dot. *)
Definition dot_of (zero : V) (add mul : V -> V -> V) (D : nat) (m : memory) (storage rhs : Z) : V := dot_from add mul m storage rhs 0 D zero.
End Memory.
Arguments poke {V} m a x c /.
Arguments get {V} checked D m storage i.
Arguments getX {V} m storage.
Arguments getY {V} m storage.
Arguments getZ {V} m storage.
Arguments setX {V} m storage val.
Arguments setY {V} m storage val.
Arguments setZ {V} m storage val.
Arguments isFinite {V} isfinite D m storage.
Arguments finite_from {V} isfinite m storage i more.
Arguments assign {V} D m storage rhs.
Arguments assign_from {V} m storage rhs i more.
Arguments dot_of {V} zero add mul D m storage rhs.
Arguments dot_from {V} add mul m storage rhs i more ret.

(** ** Real elements *)
(** RemotelyStoredVector.hpp l.169-176. *)
Definition dot (D : nat) (m : memory R) (storage rhs : Z) : R := dot_of 0%R Rplus Rmult D m storage rhs.
(** RemotelyStoredVector.hpp l.181-185. *)
Definition getMagnitudeSquared (D : nat) (m : memory R) (storage : Z) : R := dot D m storage storage.
(** RemotelyStoredVector.hpp l.190-194. *)
Definition getMagnitude (D : nat) (m : memory R) (storage : Z) : R := sqrt (dot D m storage storage).
(** RemotelyStoredVector.hpp l.91-95. *)
Definition addToX (m : memory R) (storage : Z) (val : R) : memory R := poke m (storage + 0) (m (storage + 0)%Z + val)%R.
(** RemotelyStoredVector.hpp l.235-245: operator= with a Vector3D. *)
Definition assign_vector (m : memory R) (storage : Z) (rhs : vec) : memory R :=
  let m := poke m (storage + 0) (vx rhs) in
  let m := poke m (storage + 1) (vy rhs) in
  poke m (storage + 2) (vz rhs).
(** RemotelyStoredVector.hpp l.252-262: operator+=. *)
Definition add_assign (m : memory R) (storage : Z) (rhs : vec) : memory R :=
  let m := poke m (storage + 0) (m (storage + 0)%Z + vx rhs)%R in
  let m := poke m (storage + 1) (m (storage + 1)%Z + vy rhs)%R in
  poke m (storage + 2) (m (storage + 2)%Z + vz rhs)%R.
(** RemotelyStoredVector.hpp l.268-278: operator+ with a vector that is stored elsewhere, too. *)
Definition plus_remote (m : memory R) (storage rhs : Z) : vec := (Vec (getX m storage + getX m rhs) (getY m storage + getY m rhs) (getZ m storage + getZ m rhs))%R.
(** RemotelyStoredVector.hpp l.284-294. *)
Definition plus_vector (m : memory R) (storage : Z) (rhs : vec) : vec := (Vec (getX m storage + vx rhs) (getY m storage + vy rhs) (getZ m storage + vz rhs))%R.
(** RemotelyStoredVector.hpp l.300-310. *)
Definition minus_remote (m : memory R) (storage rhs : Z) : vec := (Vec (getX m storage - getX m rhs) (getY m storage - getY m rhs) (getZ m storage - getZ m rhs))%R.
(** RemotelyStoredVector.hpp l.316-326. *)
Definition minus_vector (m : memory R) (storage : Z) (rhs : vec) : vec := (Vec (getX m storage - vx rhs) (getY m storage - vy rhs) (getZ m storage - vz rhs))%R.
(** RemotelyStoredVector.hpp l.333-343: operator*=. *)
Definition times_assign (m : memory R) (storage : Z) (rhs : R) : memory R :=
  let m := poke m (storage + 0) (m (storage + 0)%Z * rhs)%R in
  let m := poke m (storage + 1) (m (storage + 1)%Z * rhs)%R in
  poke m (storage + 2) (m (storage + 2)%Z * rhs)%R.
(** RemotelyStoredVector.hpp l.349-358. *)
Definition times (m : memory R) (storage : Z) (rhs : R) : vec := (Vec (getX m storage * rhs) (getY m storage * rhs) (getZ m storage * rhs))%R.
(** RemotelyStoredVector.hpp l.364-373. *)
Definition over (m : memory R) (storage : Z) (rhs : R) : vec := (Vec (getX m storage / rhs) (getY m storage / rhs) (getZ m storage / rhs))%R.
(** RemotelyStoredVector.hpp l.379-389: operator/=. *)
Definition over_assign (m : memory R) (storage : Z) (rhs : R) : memory R :=
  let m := poke m (storage + 0) (m (storage + 0)%Z / rhs)%R in
  let m := poke m (storage + 1) (m (storage + 1)%Z / rhs)%R in
  poke m (storage + 2) (m (storage + 2)%Z / rhs)%R.
(** RemotelyStoredVector.hpp l.394-400: the conversion. *)
Definition converted (m : memory R) (storage : Z) : vec := Vec (getX m storage) (getY m storage) (getZ m storage).
(** Comparison of numbers (RemotelyStoredVector.hpp l.414). *)
Definition reqb (x y : R) : bool := if Req_EM_T x y then true else false.
(** RemotelyStoredVector.hpp l.407-421: operator==. *)
Definition equals (m : memory R) (storage : Z) (rhs : vec) : bool :=
  if negb (reqb (m (storage + 0)) (vx rhs)) then false
  else if negb (reqb (m (storage + 1)) (vy rhs)) then false
  else if negb (reqb (m (storage + 2)) (vz rhs)) then false
  else true.
(** RemotelyStoredVector.cu l.12-13 and 20-21: the remaining iterations of the loops, from [i] on. *)
Fixpoint atomicAdd_from (m : memory R) (storage rhs i : Z) (more : nat) : memory R :=
  match more with
  | O => m
  | S more => atomicAdd_from (poke m (storage + i) (m (storage + i)%Z + m (rhs + i)%Z)%R) storage rhs (i + 1) more
  end.
(** RemotelyStoredVector.cu l.8-22. *)
Definition atomicAdd_remote (D : nat) (m : memory R) (storage rhs : Z) : memory R := atomicAdd_from m storage rhs 0 D.
(** RemotelyStoredVector.cu l.24-33. *)
Definition atomicAdd_vector (m : memory R) (storage : Z) (rhs : vec) : memory R :=
  let m := poke m (storage + 0) (m (storage + 0)%Z + vx rhs)%R in
  let m := poke m (storage + 1) (m (storage + 1)%Z + vy rhs)%R in
  poke m (storage + 2) (m (storage + 2)%Z + vz rhs)%R.

(** ** Complex elements *)
(** RemotelyStoredVector.hpp l.169-176: the same function, where [T] is a type of complex numbers. *)
Definition complex_dot (D : nat) (m : memory cplx) (storage rhs : Z) : cplx := dot_of (cR 0) cadd cmul D m storage rhs.

(** ** Two-dimensional vectors *)
Open Scope R_scope.
(** Vector2D.hpp l.56-59, 186-187. *)
Record vec2 := Vec2 { x2 : R; y2 : R }.
(** Vector2D.hpp l.44-47: the default constructor. *)
Definition default2 : vec2 := Vec2 0 0.
(** Vector2D_Implementation2.hpp l.42-49: dot, by way of Vector2D.hpp l.90-94. *)
Definition dot2 (lhs rhs : vec2) : R := x2 lhs * x2 rhs + y2 lhs * y2 rhs.
(** Vector2D.hpp l.99-103. *)
Definition magnitude2_squared (v : vec2) : R := dot2 v v.
(** Vector2D.hpp l.108-114. *)
Definition magnitude2 (v : vec2) : R := sqrt (magnitude2_squared v).
(** Vector2D.hpp l.123-145; [None] is the result of a division by zero, which fails the assertions if [OPENMPCD_DEBUG] is defined and is not a number otherwise. *)
Definition cosine2 (v rhs : vec2) : option R :=
  let divisor := sqrt (magnitude2_squared v * magnitude2_squared rhs) in
  if Req_EM_T divisor 0 then None else Some (dot2 v rhs / divisor).
(** Vector2D.hpp l.152-160. *)
Definition angle2 (v rhs : vec2) : option R := option_map acos (cosine2 v rhs).
(** Vector2D.hpp l.168-172. *)
Definition equal2 (v rhs : vec2) : bool := reqb (x2 v) (x2 rhs) && reqb (y2 v) (y2 rhs).
(** Vector2D.hpp l.179-183. *)
Definition unequal2 (v rhs : vec2) : bool := negb (equal2 v rhs).
(** Vector2D.hpp l.34, where [T] is a type of complex numbers. *)
Record cvec2 := CVec2 { cx2 : cplx; cy2 : cplx }.
(** Vector2D_Implementation2.hpp l.82-92. *)
Definition cdot2 (lhs rhs : cvec2) : cplx := cadd (cmul (cconj (cx2 lhs)) (cx2 rhs)) (cmul (cconj (cy2 lhs)) (cy2 rhs)).
(** Vector2D.hpp l.99-103. *)
Definition cmagnitude2_squared (v : cvec2) : R := re (cdot2 v v).
(** Vector2D.hpp l.108-114. *)
Definition cmagnitude2 (v : cvec2) : R := sqrt (cmagnitude2_squared v).
