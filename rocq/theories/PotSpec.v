(** What it means for a force to belong to a potential, and what the potentials are. *)
From Coq Require Import ZArith Reals.
From Verif Require Import PyBase VecBase VecSpec PotModel.
Open Scope R_scope.

Definition length3 (r : vec) : R := sqrt (dot3 r r).
(** [F] is minus the gradient of [f] at [r]: the derivative of [f] in every direction [v]
    is minus the scalar product of [F] and [v]. *)
Definition minus_gradient (f : vec -> R) (r F : vec) :=
  forall v, derivable_pt_lim (fun t => f (plus3 r (times3 t v))) 0 (- dot3 F v).

(** Where a potential is defined, and where one of them has a discontinuity. *)
Fixpoint defined (p : potential) (r : vec) : Prop :=
  match p with
  | FENE K l0 Rm => r <> zero3 /\ Rm <> 0 /\ Rabs (length3 r - l0) < Rabs Rm
  | GEMn epsilon sigma n => r <> zero3 /\ 0 < sigma
  | LennardJones r_offset r_cut sigma epsilon => r <> zero3 /\ length3 r <> r_offset
  | WCAOffset epsilon sigma d => r <> zero3 /\ length3 r <> d
  | Morse _ _ _ _ | WCA _ _ | MagneticAlongZ _ | Magnetic _ _ => r <> zero3
  | AdditivePair p q => defined p r /\ defined q r
  | Null => True
  end.
Fixpoint at_jump (p : potential) (r : vec) : Prop :=
  match p with
  | LennardJones r_offset r_cut sigma epsilon => length3 r = r_cut
  | AdditivePair p q => at_jump p r \/ at_jump q r
  | _ => False
  end.

(** The documented potentials, for particles at distance [r]; the magnetic ones also
    depend on the cosine [c] of the angle between the dipoles and the distance vector. *)
Definition fene_formula K l0 Rm r := - (1 / 2) * K * Rm ^ 2 * ln (1 - ((r - l0) / Rm) ^ 2).
Definition lj_formula epsilon sigma r := 4 * epsilon * ((sigma / r) ^ 12 - (sigma / r) ^ 6).
Definition magnetic_formula prefactor c r := - (prefactor / r ^ 3) * (3 * c ^ 2 - 1).
(** The sixth root of two: the only positive number with that power. *)
Definition sixth_root_of_two (x : R) := 0 < x /\ x ^ 6 = 2.
(** [u] is the documented potential at [r]. *)
Fixpoint documented (p : potential) (r : vec) (u : R) : Prop :=
  match p with
  | FENE K l0 Rm => u = fene_formula K l0 Rm (length3 r)
  | GEMn epsilon sigma n => u = epsilon * exp (- powerRZ (length3 r / sigma) n)
  | LennardJones r_offset r_cut sigma epsilon =>
    (length3 r <= r_cut -> u = lj_formula epsilon sigma (length3 r - r_offset)) /\ (r_cut < length3 r -> u = 0)
  | Morse epsilon alpha sigma shift =>
    let x := exp (- alpha * (length3 r - sigma)) in u = epsilon * (x ^ 2 - 2 * x) - shift
  | WCA epsilon sigma => 0 <= sigma -> forall c, sixth_root_of_two c ->
    (length3 r < c * sigma -> u = lj_formula epsilon sigma (length3 r) + epsilon) /\ (c * sigma <= length3 r -> u = 0)
  | WCAOffset epsilon sigma d => forall c, sixth_root_of_two c ->
    (length3 r < d + c * sigma -> u = lj_formula epsilon sigma (length3 r - d) + epsilon) /\
    (d + c * sigma <= length3 r -> u = 0)
  | MagneticAlongZ prefactor => u = magnetic_formula prefactor (vz r / length3 r) (length3 r)
  | Magnetic prefactor orientation =>
    u = magnetic_formula prefactor (dot3 orientation r / length3 r) (length3 r)
  | AdditivePair p q => exists v w, documented p r v /\ documented q r w /\ u = v + w
  | Null => u = 0
  end.

(** [f] gets arbitrarily small close to the distance [c]. *)
Definition fades_at (f : vec -> R) (c : R) :=
  forall eps, 0 < eps -> exists delta, 0 < delta /\ forall r, Rabs (length3 r - c) < delta -> Rabs (f r) < eps.

(** The potentials that the analysis has: parameters it accepts, and where they are
    defined. *)
Definition accepted (p : potential) : Prop :=
  match p with
  | FENE K l0 Rm => 0 < Rm
  | WCAOffset epsilon sigma d => 0 <= epsilon /\ 0 <= sigma /\ 0 <= d
  | Magnetic prefactor orientation => 0 <= prefactor /\ unit3 orientation
  | _ => False
  end.
Definition in_analysis (p : potential) : Prop :=
  match p with FENE _ _ _ | WCAOffset _ _ _ | Magnetic _ _ => True | _ => False end.
Definition inside (p : potential) (r : vec) : Prop :=
  match p with
  | FENE K l0 Rm => Rabs (length3 r - l0) < Rm
  | WCAOffset epsilon sigma d => d < length3 r
  | Magnetic prefactor orientation => r <> zero3
  | _ => False
  end.
(** Both kinds of arguments of [getPotential], for particles separated by [r]; only the
    vector will do for dipoles. *)
Definition argument_for (p : potential) (r : vec) (a : pyarg) : Prop :=
  a = Vector r \/ (a = Number (length3 r) /\ match p with Magnetic _ _ => False | _ => True end).
