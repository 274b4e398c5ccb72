(** What is asked of an Eckart system, independently of the code. *)
From Coq Require Import List Reals.
From Verif Require Import VecBase VecSpec PartSpec.
Import ListNotations.
Open Scope R_scope.

(** The points do not lie in a plane through the origin. *)
Definition spatial (l : list vec) :=
  forall v, v <> zero3 -> 0 < rsum (map (fun a => dot3 a v * dot3 a v) l).
(** [X], as a map of vectors, is the positive square root of the inverse of [G]. *)
Definition inverse_root (G X : vec -> vec) :=
  (forall u v, dot3 u (X v) = dot3 (X u) v) /\ (forall v, v <> zero3 -> 0 < dot3 v (X v)) /\
  (forall v, X (X (G v)) = v).
(** A rigid body: a rotated and shifted copy of the points [l]. *)
Definition copy_of (f : vec -> vec) (t : vec) (l l' : list vec) := l' = map (fun x => plus3 t (f x)) l.
(** Its points move with velocity [u] and turn with angular velocity [w] about their
    centre. *)
Definition moving (u w : vec) (ps vs : list vec) :=
  vs = map (fun r => plus3 u (cross3 w (minus3 r (mean ps)))) ps.
Definition ex := Vec 1 0 0.
Definition ey := Vec 0 1 0.
Definition ez := Vec 0 0 1.
(** The Eckart condition: positions that are relative to the centre have, on the whole, no
    component that turns the equilibrium positions [cs]. *)
Definition centered (l : list vec) : list vec := map (fun r => minus3 r (mean l)) l.
Definition moment (cs ds : list vec) : vec := vsum (map (fun cd => cross3 (fst cd) (snd cd)) (combine cs ds)).
(** The velocities that remain if the centre of mass is at rest, and the coordinate system
    turns with angular velocity [w]. *)
Definition remaining (w : vec) (rs vs : list vec) : list vec :=
  map (fun rv => minus3 (snd rv) (cross3 w (fst rv))) (combine (centered rs) (centered vs)).
Definition orthonormal (fr : vec * vec * vec) :=
  let '(f0, f1, f2) := fr in
  dot3 f0 f0 = 1 /\ dot3 f1 f1 = 1 /\ dot3 f2 f2 = 1 /\ dot3 f0 f1 = 0 /\ dot3 f0 f2 = 0 /\ dot3 f1 f2 = 0.
