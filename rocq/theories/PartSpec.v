(** What centres, gyration tensors and rigid rotation are, independently of the code. *)
From Coq Require Import List Reals.
From Verif Require Import VecBase VecSpec.
Import ListNotations.
Open Scope R_scope.

Fixpoint rsum (l : list R) : R := match l with [] => 0 | x :: l => x + rsum l end.
Fixpoint vsum (l : list vec) : vec := match l with [] => zero3 | v :: l => plus3 v (vsum l) end.
(** A component of a vector, by its number. *)
Definition coord (i : nat) (r : vec) : R := match i with 0 => vx r | 1 => vy r | _ => vz r end%nat.
(** [x] is the centre of the points [l], all of mass [m]. *)
Definition centre (m : R) (l : list vec) (x : vec) :=
  vsum (map (times3 m) l) = times3 (m * INR (length l)) x.
(** The points in [l'] have the same differences as the points in [l]. *)
Definition same_differences (l l' : list vec) :=
  length l = length l' /\
  forall i j a b a' b', nth_error l i = Some a -> nth_error l j = Some b ->
    nth_error l' i = Some a' -> nth_error l' j = Some b' -> minus3 a b = minus3 a' b'.
(** The documented definition of the gyration tensor. *)
Definition gyr (l : list vec) (m n : nat) : R :=
  / (2 * (INR (length l) * INR (length l))) *
  rsum (map (fun r => rsum (map (fun s =>
    (coord m r - coord m s) * (coord n r - coord n s)) l)) l).
(** The quadratic form of a matrix that is given by its entries. *)
Definition qform (M : nat -> nat -> R) (v : vec) : R :=
  rsum (map (fun m => rsum (map (fun n => M m n * coord m v * coord n v) [0; 1; 2]%nat)) [0; 1; 2]%nat).
(** The mean of points, and the mean squared distance from it. *)
Definition mean (l : list vec) : vec := times3 (/ INR (length l)) (vsum l).
Definition spread (l : list vec) : R :=
  / INR (length l) * rsum (map (fun r => dot3 (minus3 r (mean l)) (minus3 r (mean l))) l).

(** The characteristic polynomial of a matrix that is given by its rows, and what it
    means that three numbers are its eigenvalues, with multiplicity. *)
Definition charpoly (a b c : vec) (t : R) : R :=
  det3 (minus3 a (Vec t 0 0)) (minus3 b (Vec 0 t 0)) (minus3 c (Vec 0 0 t)).
Definition eigenvalues (a b c : vec) (x y z : R) :=
  forall t, charpoly a b c t = (x - t) * (y - t) * (z - t).
(** The vector product by components, and the velocities of points that turn rigidly
    about the origin. *)
Definition cross3 (a b : vec) : vec :=
  Vec (vy a * vz b - vz a * vy b) (vz a * vx b - vx a * vz b) (vx a * vy b - vy a * vx b).
Definition turning (w : vec) (ps vs : list vec) := vs = map (cross3 w) ps.
(** A row of the gyration tensor. *)
Definition gyr_row (l : list vec) (m : nat) : vec := Vec (gyr l m 0) (gyr l m 1) (gyr l m 2).
