(** The shape of star polymers, and what follows for forces and energies. *)
From Coq Require Import List ZArith Bool Reals Relations Permutation.
From Verif Require Import PyBase VecBase VecSpec PartSpec PotModel PotSpec CuModel MdModel StarModel.
Import ListNotations.
Open Scope Z_scope.

(** * Structure *)
Definition well_formed (s : structure) := 0 <= starCount s /\ 0 <= armCountPerStar s /\ 0 <= particleCountPerArm s.
(** The places in a star: the core; the particles of an arm, counted from the core; and the
    magnetic particle at its tip. *)
Inductive place := Core (star : Z) | Bead (star arm k : Z) | Tip (star arm : Z).
Definition valid (s : structure) (pl : place) : Prop :=
  match pl with
  | Core star => 0 <= star < starCount s
  | Bead star arm k => 0 <= star < starCount s /\ 0 <= arm < armCountPerStar s /\ 0 <= k < particleCountPerArm s
  | Tip star arm => 0 <= star < starCount s /\ 0 <= arm < armCountPerStar s /\ hasMagneticParticles s = true
  end.
(** All places, in the documented order: star by star, the core first, then arm by arm from
    the core outwards. *)
Definition arm_places (s : structure) (star arm : Z) : list place :=
  map (Bead star arm) (zrange (particleCountPerArm s)) ++ (if hasMagneticParticles s then [Tip star arm] else []).
Definition star_places (s : structure) (star : Z) : list place :=
  Core star :: flat_map (arm_places s star) (zrange (armCountPerStar s)).
Definition places (s : structure) : list place := flat_map (star_places s) (zrange (starCount s)).
Definition star_of (pl : place) : Z := match pl with Core star => star | Bead star _ _ => star | Tip star _ => star end.
Definition type_of (pl : place) : ptype := match pl with Core _ => TCore | Bead _ _ _ => TArm | Tip _ _ => TMagnetic end.
(** The places that are reported. *)
Definition reported (i : indices) : option place :=
  match isCoreParticle i, armID i, isMagneticParticle i, particleIDInArm i with
  | true, _, _, _ => Some (Core (starID i))
  | false, Some arm, true, _ => Some (Tip (starID i) arm)
  | false, Some arm, false, Some k => Some (Bead (starID i) arm k)
  | _, _, _, _ => None
  end.
Definition py_reported (i : Z * option Z * option Z) : place :=
  match i with
  | (star, None, _) => Core star
  | (star, Some arm, None) => Tip star arm
  | (star, Some arm, Some k) => Bead star arm k
  end.
(** The number of the particle at a place. *)
Definition number (s : structure) (pl : place) : Z :=
  match pl with
  | Core star => getCoreParticleID s star
  | Bead star arm k => getArmParticleID s star arm k
  | Tip star arm => getMagneticParticleID s star arm
  end.
(** The next place on the way to the core. *)
Definition inner (s : structure) (pl : place) : option place :=
  match pl with
  | Core _ => None
  | Bead star arm k => Some (if k =? 0 then Core star else Bead star arm (k - 1))
  | Tip star arm => Some (if particleCountPerArm s =? 0 then Core star else Bead star arm (particleCountPerArm s - 1))
  end.
Definition linked (s : structure) (p q : place) := inner s p = Some q \/ inner s q = Some p.
Definition particle (s : structure) (i : Z) := 0 <= i < getParticleCount s.
(** The particles of a star. *)
Definition members_of_star (s : structure) (star : Z) : list Z := map (Z.add (star * getParticleCountPerStar s)) (zrange (getParticleCountPerStar s)).
(** The unordered pairs of elements of a list. *)
Fixpoint pairs {A} (l : list A) : list (A * A) :=
  match l with [] => [] | a :: l => map (pair a) l ++ pairs l end.
Definition bonded (s : structure) (i j : Z) : bool := match particlesAreBonded s i j with Some b => b | None => false end.
(** All elements of [l] are connected by bonds between elements of [l]. *)
Definition connected (bond : Z -> Z -> bool) (l : list Z) :=
  forall i j, In i l -> In j l -> clos_refl_sym_trans Z (fun i j => In i l /\ In j l /\ i <> j /\ bond i j = true) i j.
(** There is a FENE potential for all bonds. *)
Definition bonds_have_potentials (s : structure) := 0 < particleCountPerArm s \/ hasMagneticParticles s = false.

(** * Interactions *)
Open Scope R_scope.
(** The potentials for pairs of types. *)
Definition mixed_wca (p : parameters) (t u : ptype) : potential :=
  WCAOffset (sqrt (epsilon p t * epsilon p u)) ((sigma p t + sigma p u) / 2) ((D p t + D p u) / 2).
Definition mixed_fene (p : parameters) (t u : ptype) : potential :=
  let e := sqrt (epsilon p t * epsilon p u) in
  let s := (sigma p t + sigma p u) / 2 in
  FENE (30 * e / (s * s)) ((D p t + D p u) / 2) (3 / 2 * s).
(** The dipoles point in the given direction, or along the z axis. *)
Definition dipoles (p : parameters) : potential :=
  let d := match dipoleOrientation p with None => Vec 0 0 1 | Some v => v end in
  Magnetic (magneticPrefactor p) (times3 (/ length3 d) d).
Definition place_eq_dec (p q : place) : {p = q} + {p <> q}.
Proof. decide equality; apply Z.eq_dec. Defined.
Definition inner_dec (s : structure) (p q : place) : {inner s p = Some q} + {inner s p <> Some q}.
Proof. decide equality. apply place_eq_dec. Defined.
(** The place of a particle, and the potential for a pair of particles. *)
Definition place_at (s : structure) (i : Z) : place := nth (Z.to_nat i) (places s) (Core 0).
Definition pair_potential (s : structure) (p : parameters) (i j : Z) : potential :=
  let a := place_at s i in
  let b := place_at s j in
  AdditivePair (mixed_wca p (type_of a) (type_of b))
    (AdditivePair
      (if inner_dec s a b then mixed_fene p (type_of a) (type_of b)
       else if inner_dec s b a then mixed_fene p (type_of a) (type_of b) else Null)
      (match type_of a, type_of b with TMagnetic, TMagnetic => dipoles p | _, _ => Null end)).
Definition others (s : structure) (i : Z) : list Z := filter (fun j => negb (Z.eqb j i)) (zrange (getParticleCount s)).
(** The force on a particle, the energy of all of them, and sums over all of them. *)
Definition force_on (s : structure) (p : parameters) (x : vecs) (i : Z) : vec :=
  vsum (map (fun j => force (pair_potential s p i j) (minus3 (x i) (x j))) (others s i)).
Definition potential_energy (s : structure) (p : parameters) (x : vecs) : R :=
  rsum (map (fun ij => energy (pair_potential s p (fst ij) (snd ij)) (minus3 (x (fst ij)) (x (snd ij))))
    (pairs (zrange (getParticleCount s)))).
Definition sum_over (s : structure) (x : vecs) : vec := vsum (map x (zrange (getParticleCount s))).
(** Nonnegative strengths. *)
Definition strengths_nonneg (p : parameters) := forall t, 0 <= epsilon p t.
(** No particles meet, and the potentials are defined where they are. *)
Definition all_defined (s : structure) (p : parameters) (x : vecs) :=
  forall i j, particle s i -> particle s j -> i <> j -> defined (pair_potential s p i j) (minus3 (x i) (x j)).
(** Other particles stay where they are. *)
Definition moved_by (x : vecs) (i : Z) (d : vec) : vecs := fun j => if Z.eqb j i then plus3 (x j) d else x j.
(** Parameters that the analysis can work with. *)
Definition analysable (p : parameters) :=
  (forall t, 0 <= epsilon p t /\ 0 < sigma p t /\ 0 <= D p t) /\ 0 <= magneticPrefactor p /\
  exists o, dipoleOrientation p = Some o /\ unit3 o.
(** All pairs are at distances at which their potentials are finite. *)
Definition in_range (s : structure) (p : parameters) (x : vecs) :=
  forall i j, particle s i -> particle s j -> (i < j)%Z ->
    let a := place_at s i in
    let b := place_at s j in
    (D p (type_of a) + D p (type_of b)) / 2 < length3 (minus3 (x i) (x j)) /\
    (linked s a b -> Rabs (length3 (minus3 (x i) (x j)) - (D p (type_of a) + D p (type_of b)) / 2) < 3 / 2 * ((sigma p (type_of a) + sigma p (type_of b)) / 2)).
(** The positions of the magnetic particles. *)
Definition is_magnetic (s : structure) (i : Z) : bool := match type_of (place_at s i) with TMagnetic => true | _ => false end.
Definition magnets (s : structure) (x : vecs) : list vec := map x (filter (is_magnetic s) (zrange (getParticleCount s))).
(** Chains of magnets that are close to each other. *)
Definition near (cutoff : R) (l : list vec) (a b : vec) := In a l /\ In b l /\ length3 (minus3 a b) <= cutoff.
Definition chained (cutoff : R) (l : list vec) : vec -> vec -> Prop := clos_refl_trans vec (near cutoff l).
(** [cs] are the connected components. *)
Definition components (cutoff : R) (l : list vec) (cs : list (list vec)) :=
  Permutation (concat cs) l /\ (forall c, In c cs -> c <> []) /\
  (forall a b, In a l -> In b l -> ((exists c, In c cs /\ In a c /\ In b c) <-> chained cutoff l a b)).
(** The initial position: arms in the plane, in directions that are spread evenly. *)
Definition initial (s : structure) (pl : place) : vec :=
  let on_arm arm d := times3 d (Vec (cos (2 * PI * (IZR arm / IZR (armCountPerStar s)))) (sin (2 * PI * (IZR arm / IZR (armCountPerStar s)))) 0) in
  match pl with
  | Core _ => zero3
  | Bead _ arm k => on_arm arm (IZR k + 1)
  | Tip _ arm => on_arm arm (IZR (particleCountPerArm s) + 1)
  end.
(** Velocities reversed. *)
Definition turned (a : solute) : solute := Solute (positions a) (fun c => - velocities a c).
(** Examples. *)
Definition plain : parameters := Parameters (fun _ => 1) (fun _ => 1) (fun _ => 0) 1 (Some (Vec 0 0 1)).
Definition pair_of_beads := Structure 1 1 1 false.
Definition apart : vecs := fun i => if Z.eqb i 0 then Vec 0 0 0 else Vec 1 0 0.
Definition trio := Structure 1 3 0 true.
