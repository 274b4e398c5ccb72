(** How the particles of a fluid are placed, and get velocities, when a simulation starts: src/OpenMPCD/CUDA/MPCFluid/Base.cu, Simple.cu, HarmonicTrimers.cu,
    GaussianDumbbells.cu, GaussianRods.cu and GaussianChains.cu (initializeOnHost), and src/OpenMPCD/AnalyticQuantitiesGaussianDumbbell.cpp.
    Simplifications: real numbers instead of floating-point numbers; the numbers drawn from the normal distribution and those from the uniform distribution are two
    sequences that are given; the root of the cubic polynomial that the GNU Scientific Library computes is a parameter, and the check of the number of roots is left out. *)
From Coq Require Import String.
From Verif Require Import PyBase VecModel CuModel.
From Coq Require Import Reals List Bool.
Import ListNotations.
Open Scope Z_scope.

(** Host memory: the elements of an array of numbers (Base.cu l.203-205). *)
Definition memory := Z -> R.
(** RemotelyStoredVector.hpp l.35-39: the vector with some number; indices have 64 bits here. *)
Definition vector_at (m : memory) (vectorID : Z) : vec := Vec (m (3 * vectorID)) (m (3 * vectorID + 1)) (m (3 * vectorID + 2)).
(** Assignments to [mpcParticlePositions[pID * 3 + 0]] and so on, where the indices have 32 bits (Simple.cu l.59-61). *)
Definition store (m : memory) (pID : Z) (v : vec) : memory :=
  fun i => if i =? u32 (pID * 3 + 2) then vz v else if i =? u32 (pID * 3 + 1) then vy v else if i =? u32 (pID * 3) then vx v else m i.

(** Base.cu l.241-255: getTotalMomentum; the mass of a particle is 1 (Base.hpp l.351). *)
Definition getTotalMomentum (velocities : memory) (particleCount : Z) : vec :=
  vscale 1 (fold_left (fun ret i => vadd ret (vector_at velocities i)) (zrange particleCount) (Vec 0 0 0)).
(** Base.cu l.257-262. *)
Definition getMeanMomentum (velocities : memory) (particleCount : Z) : vec := vdivs (getTotalMomentum velocities particleCount) (IZR particleCount).
(** Base.cu l.264-276. *)
Definition getKineticEnergy (velocities : memory) (particleCount : Z) : R :=
  (1 * fold_left (fun ret i => fold_left (fun ret c => ret + velocities (u32 (3 * i + c)) * velocities (u32 (3 * i + c))) (zrange 3) ret) (zrange particleCount) 0 / 2)%R.
(** Base.hpp l.335-339. *)
Definition getkTViaKineticEnergy (velocities : memory) (particleCount : Z) : R := (2 / 3 * getKineticEnergy velocities particleCount / IZR particleCount)%R.
(** Base.cu l.229-239. *)
Definition globalUnbiasedThermostat (kT : R) (velocities : memory) (particleCount : Z) : memory :=
  let scaling := sqrt (kT / getkTViaKineticEnergy velocities particleCount) in
  fold_left (fun m i => fold_left (fun m c => fun j => if j =? u32 (3 * i + c) then (m j * scaling)%R else m j) (zrange 3) m) (zrange particleCount) velocities.
(** Base.cu l.193-227; [drawn] are the numbers from the normal distribution, [kT] is the setting, if there is one. *)
Definition initializeVelocitiesOnHost (drawn : Z -> R) (kT : option R) (particleCount : Z) (velocities : memory) : memory :=
  let m1 := fold_left (fun m pID => store m pID (Vec (drawn (3 * pID)) (drawn (3 * pID + 1)) (drawn (3 * pID + 2)))) (zrange particleCount) velocities in
  let meanVelocity := vdivs (getMeanMomentum m1 particleCount) 1 in
  let m2 := fold_left (fun m pID => store m pID (vsub (Vec (m (u32 (pID * 3))) (m (u32 (pID * 3 + 1))) (m (u32 (pID * 3 + 2)))) meanVelocity)) (zrange particleCount) m1 in
  match kT with Some kT => globalUnbiasedThermostat kT m2 particleCount | None => m2 end.

Section Positions.
(** The numbers drawn from the uniform distribution, and the size of the box (Simple.cu l.55-62). *)
Variable uniform : nat -> R.
Variables boxX boxY boxZ : Z.
(** Simple.cu l.59-61: a position in the box, from the numbers from the [n]-th on. *)
Definition random_position (n : nat) : vec := Vec (uniform n * IZR boxX) (uniform (n + 1)%nat * IZR boxY) (uniform (n + 2)%nat * IZR boxZ).
(** Simple.cu l.51-63 and HarmonicTrimers.cu l.79-91: the loop; [None] if it does not end within [fuel] iterations. *)
Fixpoint initialize_each (fuel : nat) (particleCount pID : Z) (n : nat) (m : memory) : option (memory * nat) :=
  match fuel with
  | O => None
  | S fuel => if pID <? particleCount
              then initialize_each fuel particleCount (u32 (pID + 1)) (n + 3)%nat (store m pID (random_position n))
              else Some (m, n)
  end.
(** GaussianRods.cu l.87-90, GaussianDumbbells.cu l.136-139, GaussianChains.cu l.105-108: a position outside of the box. *)
Definition outside (p : vec) : bool :=
  negb (rltb (vx p) (IZR boxX)) || negb (rltb (vy p) (IZR boxY)) || negb (rltb (vz p) (IZR boxZ)) || rltb (vx p) 0 || rltb (vy p) 0 || rltb (vz p) 0.
(** Vector3D.hpp l.367-377: getRandomUnitVector. *)
Definition random_unit (n : nat) : vec := unit_vector (uniform n) (uniform (n + 1)%nat).
(** GaussianRods.cu l.77-103 and GaussianDumbbells.cu l.126-152: the loop; [partner] gives a position and how many numbers have been drawn for it. *)
Fixpoint initialize_pairs (partner : vec -> nat -> vec * nat) (fuel : nat) (particleCount pID : Z) (n : nat) (m : memory) : option (memory * nat) :=
  match fuel with
  | O => None
  | S fuel =>
    if pID <? particleCount then
      let m1 := store m pID (random_position n) in
      let position1 := vector_at m1 pID in
      let (position2, used) := partner position1 (n + 3)%nat in
      if outside position2
      then initialize_pairs partner fuel particleCount (u32 (u32 (pID - 2) + 2)) (n + 3 + used)%nat m1
      else initialize_pairs partner fuel particleCount (u32 (pID + 2)) (n + 3 + used)%nat (store m1 (u32 (pID + 1)) position2)
    else Some (m, n)
  end.
(** GaussianRods.cu l.106-114: getInitialPartnerPosition. *)
Definition rod_partner (meanBondLength : R) (position1 : vec) (n : nat) : vec * nat := (vadd position1 (vscale meanBondLength (random_unit n)), 2%nat).
(** GaussianRods.cu l.71-104. *)
Definition initialize_rods (meanBondLength : R) (fuel : nat) (particleCount : Z) (n : nat) (m : memory) : option (memory * nat) :=
  initialize_pairs (rod_partner meanBondLength) fuel particleCount 0 n m.

(** GaussianChains.cu l.84-123: both loops; [partnerOffset] is that of the inner loop, [None] in the outer one. *)
Fixpoint initialize_chains (particlesPerChain : Z) (fuel : nat) (particleCount pID : Z) (partnerOffset : option Z) (n : nat) (m : memory) : option (memory * nat) :=
  match fuel with
  | O => None
  | S fuel =>
    match partnerOffset with
    | None =>
      if pID <? particleCount
      then initialize_chains particlesPerChain fuel particleCount pID (Some 1) (n + 3)%nat (store m pID (random_position n))
      else Some (m, n)
    | Some offset =>
      if offset <? particlesPerChain then
        let lastPosition := vector_at m pID in
        let partnerPosition := vadd lastPosition (random_unit n) in
        if outside partnerPosition
        then initialize_chains particlesPerChain fuel particleCount pID (Some (u32 (u32 (offset - 1) + 1))) (n + 2)%nat m
        else initialize_chains particlesPerChain fuel particleCount pID (Some (u32 (offset + 1))) (n + 2)%nat (store m (u32 (pID + offset)) partnerPosition)
      else initialize_chains particlesPerChain fuel particleCount (u32 (pID + particlesPerChain)) None n m
    end
  end.

(** The variables of static storage duration in getInitialDumbbellPartnerPosition, which keep their values once they are initialised (GaussianDumbbells.cu l.162-163, 174-181). *)
Record statics := Statics { positioning : option string; displacement : option vec }.
(** AnalyticQuantitiesGaussianDumbbell.hpp l.60-63. *)
Definition weissenbergNumber (shearRate zeroShearRelaxationTime : R) : R := (shearRate * zeroShearRelaxationTime)%R.
(** The root of the polynomial with the given coefficients (AnalyticQuantitiesGaussianDumbbell.cpp l.43). *)
Variable cubic_root : R -> R -> R -> R.
(** AnalyticQuantitiesGaussianDumbbell.cpp l.34-49. *)
Definition lagrangianMultiplierRatio (Wi : R) : R :=
  if Req_EM_T Wi 0 then 1%R else let c := (- Wi * Wi / 6)%R in cubic_root (-1)%R 0%R c.
(** GaussianDumbbells.cu l.172-184: the displacement for "perfect". *)
Definition perfect_displacement (rootMeanSquareLength Wi : R) : vec :=
  let mu := lagrangianMultiplierRatio Wi in
  let prefactor := (rootMeanSquareLength * rootMeanSquareLength / (3 * mu))%R in
  Vec (sqrt (prefactor * (1 + Wi * Wi / (2 * mu * mu)))) (sqrt prefactor) (sqrt prefactor).
(** The first call of getInitialDumbbellPartnerPosition in an instance, as far as it is about the static variables (GaussianDumbbells.cu l.162-163, 172-181); [configured]
    is the setting. *)
Definition initialise_statics (configured : string) (rootMeanSquareLength Wi : R) (s : statics) : statics :=
  let p := match positioning s with Some p => p | None => configured end in
  Statics (Some p)
    (match displacement s with
     | Some d => Some d
     | None => if negb (String.eqb p "relaxed") && String.eqb p "perfect" then Some (perfect_displacement rootMeanSquareLength Wi) else None
     end).
(** GaussianDumbbells.cu l.155-187, when the static variables are initialised; [None] is the exception. *)
Definition dumbbell_partner (rootMeanSquareLength : R) (s : statics) : option (vec -> nat -> vec * nat) :=
  match positioning s with
  | Some p =>
    if String.eqb p "relaxed" then Some (fun position1 n => (vadd position1 (vscale rootMeanSquareLength (random_unit n)), 2%nat))
    else if String.eqb p "perfect" then
      match displacement s with Some d => Some (fun position1 _ => (vadd position1 d, 0%nat)) | None => None end
    else None
  | None => None
  end.
(** What comes of initialising: the exception, an endless loop, or the particles and the number of numbers drawn (GaussianDumbbells.cu l.116-153). *)
Inductive initialised := Throws | Endless | Placed (m : memory) (n : nat).
(** GaussianDumbbells.cu l.116-153, and the static variables afterwards; the setting is only read if there are particles. *)
Definition initialize_dumbbells (configured : string) (rootMeanSquareLength shearRate zeroShearRelaxationTime : R) (s : statics) (fuel : nat) (particleCount : Z) (n : nat) (m : memory)
  : initialised * statics :=
  let Wi := weissenbergNumber shearRate zeroShearRelaxationTime in
  if 0 <? particleCount then
    let s := initialise_statics configured rootMeanSquareLength Wi s in
    match dumbbell_partner rootMeanSquareLength s with
    | None => (Throws, s)
    | Some partner => (match initialize_pairs partner fuel particleCount 0 n m with Some (m, n) => Placed m n | None => Endless end, s)
    end
  else (Placed m n, s).
End Positions.
