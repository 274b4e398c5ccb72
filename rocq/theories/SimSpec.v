(** What is asked of the boundary conditions and of the collision step. *)
From Coq Require Import List ZArith Reals.
From Verif Require Import VecBase VecModel VecSpec PartSpec SimModel.
Import ListNotations.
Open Scope R_scope.

(** The primary simulation volume. *)
Definition in_box (bx by_ bz : Z) (p : vec) :=
  0 <= vx p < IZR bx /\ 0 <= vy p < IZR by_ /\ 0 <= vz p < IZR bz.
(** The vectors of the sheared lattice: [j] layers up, the box has moved by
    [j * shear rate * box size * time] along x. *)
Definition lattice (shear time : R) (bx by_ bz i j k : Z) : vec :=
  Vec (IZR i * IZR bx + IZR j * (shear * IZR by_ * time)) (IZR j * IZR by_) (IZR k * IZR bz).
(** Two positions are in the same unit cell. *)
Definition unit_cell (p : vec) (i j k : Z) :=
  IZR i <= vx p < IZR i + 1 /\ IZR j <= vy p < IZR j + 1 /\ IZR k <= vz p < IZR k + 1.

(** Particles as pairs of mass and velocity. *)
Definition total_mass (l : list (R * vec)) : R := rsum (map fst l).
Definition total_momentum (l : list (R * vec)) : vec := vsum (map (fun x => times3 (fst x) (snd x)) l).
Definition kinetic (l : list (R * vec)) : R := rsum (map (fun x => fst x * dot3 (snd x) (snd x) / 2) l).
(** Kinetic energy in the centre-of-mass frame. *)
Definition internal (l : list (R * vec)) : R :=
  let V := times3 (/ total_mass l) (total_momentum l) in
  rsum (map (fun x => fst x * dot3 (minus3 (snd x) V) (minus3 (snd x) V) / 2) l).

(** What a collision sees of a particle: its cell, and its velocity in the frame of its
    image. *)
Definition image_of (cf : config) (p : part) : vec * R :=
  le_image (shearRate cf) (mpcTime cf) (boxX cf) (boxY cf) (boxZ cf) (plus3 (p_pos p) (gridShift cf)).
Definition cell (cf : config) (p : part) : Z := cell_index (fst (image_of cf p)) (boxX cf) (boxY cf).
Definition seen (cf : config) (p : part) : vec := plus3 (p_vel p) (Vec (snd (image_of cf p)) 0 0).
(** The particles in a cell, with their masses. *)
Definition content (cf : config) (c : Z) (l : list species) : list (R * part) :=
  filter (fun x => Z.eqb (cell cf (snd x)) c) (flat_map (fun s => map (pair (fst s)) (snd s)) l).
(** Their velocities, and their velocities in the frames of their images. *)
Definition lab (l : list (R * part)) : list (R * vec) := map (fun x => (fst x, p_vel (snd x))) l.
Definition comoving (cf : config) (l : list (R * part)) : list (R * vec) := map (fun x => (fst x, seen cf (snd x))) l.
