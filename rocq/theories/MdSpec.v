(** Momentum, energy, and the equations of motion. *)
From Coq Require Import List ZArith Reals Permutation.
From Verif Require Import PyBase VecBase VecSpec PartSpec CuModel MdModel.
Import ListNotations.
Open Scope R_scope.

(** The number of particles in a molecule, and the particles of the [u]-th molecule. *)
Definition molecule_size (k : kind) : Z :=
  match k with Simple => 1 | Dumbbells _ | Rods _ _ => 2 | Trimers _ _ => 3 | Chains n _ => n end%Z.
Definition members (size u : Z) : list Z := map (fun i => (size * u + i)%Z) (zrange size).
Definition total (a : vecs) (l : list Z) : vec := vsum (map a l).
(** The number of steps that have the length [timestep]. *)
Definition step_number (k : kind) (stepCount : nat) : R := match k with Simple => 1 | _ => INR stepCount end.
(** All velocities reversed. *)
Definition reversed (f : fluid) : fluid := Fluid (pos f) (fun i => times3 (-1) (vel f i)).
(** Bonds of rods, which must not have length zero. *)
Definition may_fail (k : kind) : Prop := match k with Rods _ _ => True | _ => False end.
(** Each of [m] units is worked on once. *)
Definition every_unit (m : Z) (units : list Z) := Permutation units (zrange m).

(** The bonds of a molecule: the positions of the two partners within the molecule, and
    the energy (over mass) as a function of the vector from the first to the second. *)
Definition spring (k : R) (d : vec) : R := k / 2 * dot3 d d.
Definition rigid_spring (k l : R) (d : vec) : R := k / 2 * ((sqrt (dot3 d d) - l) * (sqrt (dot3 d d) - l)).
Definition bonds (k : kind) : list (Z * Z * (vec -> R)) :=
  match k with
  | Simple => []
  | Dumbbells k => [(0, 1, spring k)]
  | Trimers k1 k2 => [(0, 1, spring k1); (1, 2, spring k2)]
  | Rods l k => [(0, 1, rigid_spring k l)]
  | Chains n k => map (fun j => (j, j + 1, spring k)) (zrange (n - 1))
  end%Z.
Definition bond_energy (k : kind) (id : Z) (r : vecs) : R :=
  rsum (map (fun b => let '(i, j, e) := b in e (minus3 (r (id + j)%Z) (r (id + i)%Z))) (bonds k)).
(** [a] is the acceleration of particle [i]: minus the derivative of the energy with
    respect to its position. *)
Definition displaced (r : vecs) (i : Z) (d : vec) : vecs := fun j => if Z.eqb j i then plus3 (r j) d else r j.
Definition spring_acceleration (k : kind) (u : Z) (r : vecs) (i : Z) (a : vec) :=
  forall v, derivable_pt_lim (fun t => bond_energy k (molecule_size k * u) (displaced r i (times3 t v))) 0 (- dot3 a v).

(** * Dumbbells *)
(** The energy per mass of two particles connected by a spring. *)
Definition spring_energy (k : R) (f : fluid) (i : Z) : R :=
  let j := (i + 1)%Z in
  dot3 (vel f i) (vel f i) / 2 + dot3 (vel f j) (vel f j) / 2
  + k * (dot3 (minus3 (pos f j) (pos f i)) (minus3 (pos f j) (pos f i)) / 2).
(** The derivative of a vector that depends on time. *)
Definition vderivative (f : R -> vec) (t : R) (d : vec) :=
  derivable_pt_lim (fun t => vx (f t)) t (vx d) /\ derivable_pt_lim (fun t => vy (f t)) t (vy d) /\
  derivable_pt_lim (fun t => vz (f t)) t (vz d).
(** [f] moves according to Newton's law for particles [i] and [i + 1] connected by a
    spring with constant [k] over mass. *)
Definition spring_motion (k : R) (f : R -> fluid) (i : Z) :=
  let j := (i + 1)%Z in
  forall t,
    vderivative (fun t => pos (f t) i) t (vel (f t) i) /\
    vderivative (fun t => pos (f t) j) t (vel (f t) j) /\
    vderivative (fun t => vel (f t) i) t (times3 k (minus3 (pos (f t) j) (pos (f t) i))) /\
    vderivative (fun t => vel (f t) j) t (times3 k (minus3 (pos (f t) i) (pos (f t) j))).

(** Two particles at rest at distance one. *)
Definition at_rest : fluid := Fluid (fun i => if Z.eqb i 1 then Vec 1 0 0 else Vec 0 0 0) (fun _ => Vec 0 0 0).
