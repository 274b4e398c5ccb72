(** Star polymers: the numbering of their particles, bonds, pair forces, and molecular
    dynamics, in the simulation; and the same in the analysis, with potential energies and
    clusters of magnetic particles.
    Simplifications: numbers of particles do not overflow; exact real arithmetic; results
    that the analysis caches are computed again, as they depend on the configuration only;
    debug assertions are omitted; kernels that are launched one after the other run one
    after the other. *)
From Coq Require Import List ZArith Bool Reals Permutation.
From Verif Require Import PyBase VecBase VecModel PotModel CuModel MdModel SimModel ConcModel.
Import ListNotations.
Open Scope Z_scope.

(** The structure, as configured (StarPolymers.hpp:368-371). *)
Record structure := Structure {
  starCount : Z; armCountPerStar : Z; particleCountPerArm : Z; hasMagneticParticles : bool }.
(* include/OpenMPCD/CUDA/MPCSolute/ImplementationDetails/StarPolymers.hpp: ParticleType::Enum (StarPolymers_ParticleType.hpp:30-35) *)
Inductive ptype := TCore | TArm | TMagnetic.
(** StarPolymers_Implementation.hpp:249-346: the values of the enumeration. *)
Definition ptype_code (t : ptype) : Z := match t with TCore => 0 | TArm => 1 | TMagnetic => 2 end.
(** Comparison of types, StarPolymers_Implementation.hpp:249-346. *)
Definition ptype_eqb (t u : ptype) : bool := ptype_code t =? ptype_code u.

(** * The simulation *)
(* StarPolymers_Implementation.hpp:29-38 *)
Definition getParticleCountPerStar (s : structure) : Z :=
  1 + armCountPerStar s * (particleCountPerArm s + Z.b2z (hasMagneticParticles s)).
(* StarPolymers_Implementation.hpp:42-52 *)
Definition getParticleCount (s : structure) : Z :=
  let particleCountPerStar := getParticleCountPerStar s in starCount s * particleCountPerStar.
(** The output of [getParticleStructureIndices]; [None] is a variable that is not set. *)
Record indices := Indices {
  starID : Z; isCoreParticle : bool; armID : option Z; isMagneticParticle : bool; particleIDInArm : option Z }.
(* StarPolymers_Implementation.hpp:56-108 *)
Definition getParticleStructureIndices (s : structure) (particleID : Z) : indices :=
  let particleCountPerStar := getParticleCountPerStar s in
  let starID := particleID / particleCountPerStar in
  let particleIDWithinStar := particleID mod particleCountPerStar in
  if particleIDWithinStar =? 0 then Indices starID true None false None
  else
    let particleCountPerExtendedArm := particleCountPerArm s + Z.b2z (hasMagneticParticles s) in
    let armID := (particleIDWithinStar - 1) / particleCountPerExtendedArm in
    let particleIDInArm := (particleIDWithinStar - 1) mod particleCountPerExtendedArm in
    Indices starID false (Some armID) (particleIDInArm =? particleCountPerArm s) (Some particleIDInArm).
(* StarPolymers_Implementation.hpp:112-135 *)
Definition getParticleType (s : structure) (particleID : Z) : ptype :=
  let i := getParticleStructureIndices s particleID in
  if isCoreParticle i then TCore
  else if isMagneticParticle i then TMagnetic
  else TArm.
(** Comparisons with variables that may not be set: [None] is undefined behaviour. *)
Definition compare2 (f : Z -> Z -> bool) (x y : option Z) : option bool :=
  match x, y with Some x, Some y => Some (f x y) | _, _ => None end.
(* StarPolymers_Implementation.hpp:139-193 *)
Definition particlesAreBonded (s : structure) (particleID1 particleID2 : Z) : option bool :=
  let i1 := getParticleStructureIndices s particleID1 in
  let i2 := getParticleStructureIndices s particleID2 in
  if negb (starID i1 =? starID i2) then Some false
  else if isCoreParticle i1 then compare2 Z.eqb (particleIDInArm i2) (Some 0)
  else if isCoreParticle i2 then compare2 Z.eqb (particleIDInArm i1) (Some 0)
  else
    match compare2 (fun a b => negb (a =? b)) (armID i1) (armID i2) with
    | None => None
    | Some true => Some false
    | Some false =>
      match compare2 (fun a b => a + 1 =? b) (particleIDInArm i1) (particleIDInArm i2) with
      | None => None
      | Some true => Some true
      | Some false =>
        match compare2 (fun a b => a + 1 =? b) (particleIDInArm i2) (particleIDInArm i1) with
        | None => None
        | Some true => Some true
        | Some false => Some false
        end
      end
    end.
(* StarPolymers_Implementation.hpp:197-215 *)
Definition getParticleTypeCombinationIndex (type1 type2 : ptype) : Z :=
  let lower := Z.min (ptype_code type1) (ptype_code type2) in
  let upper := Z.max (ptype_code type1) (ptype_code type2) in
  let tmp := Z.shiftl upper 1 + lower in
  if tmp =? 0 then 0 else tmp - 1.
(* src/OpenMPCD/CUDA/MPCSolute/StarPolymers.cu:685-702: getParticleID of an arm particle *)
Definition getArmParticleID (s : structure) (star arm particleInArm : Z) : Z :=
  star * getParticleCountPerStar s + 1
  + arm * (particleCountPerArm s + Z.b2z (hasMagneticParticles s)) + particleInArm.
(* StarPolymers.cu:704-722: getParticleID of a magnetic particle *)
Definition getMagneticParticleID (s : structure) (star arm : Z) : Z :=
  star * getParticleCountPerStar s + 1
  + arm * (particleCountPerArm s + Z.b2z (hasMagneticParticles s)) + particleCountPerArm s.
(* StarPolymers.cu:724-737: getParticleID of a core particle *)
Definition getCoreParticleID (s : structure) (star : Z) : Z := star * getParticleCountPerStar s.

Open Scope R_scope.
(** The interaction parameters, as configured (StarPolymers_Implementation.hpp:249-346). *)
Record parameters := Parameters {
  epsilon : ptype -> R; sigma : ptype -> R; D : ptype -> R;
  magneticPrefactor : R; dipoleOrientation : option vec }.
(** Arrays of pointers to potentials; [None] is a pointer that is NULL or not set (StarPolymers.hpp:378-386). *)
Definition potentials := Z -> option potential.
(** Assignment to an element of the array, StarPolymers_Implementation.hpp:249-346. *)
Definition put (a : potentials) (i : Z) (p : potential) : potentials :=
  fun j => if Z.eqb j i then Some p else a j.
Record interactions := Interactions {
  WCAPotentials : potentials; FENEPotentials : potentials; magneticPotential : potential }.
(* StarPolymers.cu:254-267 *)
Definition orientation_of (p : parameters) : vec :=
  vhat (match dipoleOrientation p with None => Vec 0 0 1 | Some v => v end).
(* StarPolymers_Implementation.hpp:249-346: createInteractionsOnDevice_kernel *)
Definition createInteractions (p : parameters) : interactions :=
  let indexCC := getParticleTypeCombinationIndex TCore TCore in
  let indexCA := getParticleTypeCombinationIndex TCore TArm in
  let indexCM := getParticleTypeCombinationIndex TCore TMagnetic in
  let indexAA := getParticleTypeCombinationIndex TArm TArm in
  let indexAM := getParticleTypeCombinationIndex TArm TMagnetic in
  let indexMM := getParticleTypeCombinationIndex TMagnetic TMagnetic in
  let epsilon_CC := epsilon p TCore in
  let epsilon_CA := sqrt (epsilon p TCore * epsilon p TArm) in
  let epsilon_CM := sqrt (epsilon p TCore * epsilon p TMagnetic) in
  let epsilon_AA := epsilon p TArm in
  let epsilon_AM := sqrt (epsilon p TArm * epsilon p TMagnetic) in
  let epsilon_MM := epsilon p TMagnetic in
  let sigma_CC := sigma p TCore in
  let sigma_CA := 1 / 2 * (sigma p TCore + sigma p TArm) in
  let sigma_CM := 1 / 2 * (sigma p TCore + sigma p TMagnetic) in
  let sigma_AA := sigma p TArm in
  let sigma_AM := 1 / 2 * (sigma p TArm + sigma p TMagnetic) in
  let sigma_MM := sigma p TMagnetic in
  let D_CC := D p TCore in
  let D_CA := 1 / 2 * (D p TCore + D p TArm) in
  let D_CM := 1 / 2 * (D p TCore + D p TMagnetic) in
  let D_AA := D p TArm in
  let D_AM := 1 / 2 * (D p TArm + D p TMagnetic) in
  let D_MM := D p TMagnetic in
  let w := fun _ => None in
  let w := put w indexCC (WCAOffset epsilon_CC sigma_CC D_CC) in
  let w := put w indexCA (WCAOffset epsilon_CA sigma_CA D_CA) in
  let w := put w indexCM (WCAOffset epsilon_CM sigma_CM D_CM) in
  let w := put w indexAA (WCAOffset epsilon_AA sigma_AA D_AA) in
  let w := put w indexAM (WCAOffset epsilon_AM sigma_AM D_AM) in
  let w := put w indexMM (WCAOffset epsilon_MM sigma_MM D_MM) in
  let l_0_CA := D_CA in
  let l_0_AA := D_AA in
  let l_0_AM := D_AM in
  let R_CA := 3 / 2 * sigma_CA in
  let R_AA := 3 / 2 * sigma_AA in
  let R_AM := 3 / 2 * sigma_AM in
  let K_CA := 30 * epsilon_CA / (sigma_CA * sigma_CA) in
  let K_AA := 30 * epsilon_AA / (sigma_AA * sigma_AA) in
  let K_AM := 30 * epsilon_AM / (sigma_AM * sigma_AM) in
  let f := fun _ => None in
  let f := put f indexCA (FENE K_CA l_0_CA R_CA) in
  let f := put f indexAA (FENE K_AA l_0_AA R_AA) in
  let f := put f indexAM (FENE K_AM l_0_AM R_AM) in
  Interactions w f (Magnetic (magneticPrefactor p) (orientation_of p)).
(* StarPolymers_Implementation.hpp:468-533: computeForceOnParticle1DueToParticle2; [None] is
   undefined behaviour *)
Definition computeForce (s : structure) (I : interactions) (particleID1 particleID2 : Z) (position1 position2 : vec) : option vec :=
  let particleType1 := getParticleType s particleID1 in
  let particleType2 := getParticleType s particleID2 in
  let particleTypeCombinationIndex := getParticleTypeCombinationIndex particleType1 particleType2 in
  match WCAPotentials I particleTypeCombinationIndex with
  | None => None
  | Some wca =>
    let forceOnParticle1 := forceOnR1DueToR2 wca position1 position2 in
    if ptype_eqb particleType1 TMagnetic && ptype_eqb particleType2 TMagnetic then
      Some (vadd forceOnParticle1 (forceOnR1DueToR2 (magneticPotential I) position1 position2))
    else
      match particlesAreBonded s particleID1 particleID2 with
      | None => None
      | Some false => Some forceOnParticle1
      | Some true =>
        match FENEPotentials I particleTypeCombinationIndex with
        | None => None
        | Some fene => Some (vadd forceOnParticle1 (forceOnR1DueToR2 fene position1 position2))
        end
      end
  end.

(** Arrays of coordinates (StarPolymers.cu:73-131). *)
Definition coordinates := Z -> R.
(* include/OpenMPCD/RemotelyStoredVector.hpp: the vector with the given index *)
Definition stored (a : coordinates) (i : Z) : vec := Vec (a (3 * i)%Z) (a (3 * i + 1)%Z) (a (3 * i + 2)%Z).
(* StarPolymers.cu:73-131: updateForceBuffer, the thread for work unit [unit]; [double] is
   the type of the forces *)
Definition force_thread (double : bool) (s : structure) (I : interactions) (positions : coordinates) (particleID1 unit : Z)
  : option (list addition) :=
  let particleID2 := (particleID1 + 1 + unit)%Z in
  let totalParticleCount := getParticleCount s in
  if Z.leb totalParticleCount particleID2 then Some []
  else
    match computeForce s I particleID1 particleID2 (stored positions particleID1) (stored positions particleID2) with
    | None => None
    | Some f => Some [
        atomicAdd double (Forces, particleID1 * 3)%Z (vx f);
        atomicAdd double (Forces, particleID1 * 3 + 1)%Z (vy f);
        atomicAdd double (Forces, particleID1 * 3 + 2)%Z (vz f);
        atomicAdd double (Forces, particleID2 * 3)%Z (- vx f);
        atomicAdd double (Forces, particleID2 * 3 + 1)%Z (- vy f);
        atomicAdd double (Forces, particleID2 * 3 + 2)%Z (- vz f)]
    end.
(** The work units of the threads of a launch that is made for [n] units: each of them once,
    and others beyond. *)
Definition launched (n : Z) (units : list Z) :=
  Forall (fun u => (0 <= u)%Z) units /\ Permutation (filter (fun u => Z.ltb u n) units) (zrange n).
(* StarPolymers.cu:330-352, 371-393: the loops over [particleID1] *)
Inductive force_kernels (double : bool) (s : structure) (I : interactions) (positions : coordinates)
  : list Z -> memory -> memory -> Prop :=
| kernels_done m : force_kernels double s I positions [] m m
| kernels_next particleID1 ids units additions n m m' ts m'' :
  launched (getParticleCount s - particleID1 - 1) units ->
  map (force_thread double s I positions particleID1) units = map Some additions ->
  steps n (m, map start additions) (m', ts) -> (forall t, In t ts -> todo t = []) ->
  force_kernels double s I positions ids m' m'' ->
  force_kernels double s I positions (particleID1 :: ids) m m''.
(* StarPolymers.cu:134-160: velocityVerletKernel1, a thread *)
Definition verlet_thread1 (velocities forces : coordinates) (timestep : R) (particleCount : Z) (mass : R)
  (positions : coordinates) (coordinateID : Z) : coordinates :=
  if Z.leb (3 * particleCount) coordinateID then positions
  else fun c => if Z.eqb c coordinateID then
    verlet1 (positions coordinateID) (velocities coordinateID) (forces coordinateID / mass) timestep
  else positions c.
(* StarPolymers.cu:162-187: velocityVerletKernel2, a thread *)
Definition verlet_thread2 (oldForces newForces : coordinates) (timestep : R) (particleCount : Z) (mass : R)
  (velocities : coordinates) (coordinateID : Z) : coordinates :=
  if Z.leb (3 * particleCount) coordinateID then velocities
  else fun c => if Z.eqb c coordinateID then
    verlet2 (velocities coordinateID) (oldForces coordinateID / mass) (newForces coordinateID / mass) timestep
  else velocities c.
(** The buffer for forces after it has been set to zero (StarPolymers.cu:327-328), and a
    buffer as an array. *)
Definition zeroed (s : structure) (m : memory) := forall c, (0 <= c < 3 * getParticleCount s)%Z -> m (Forces, c) = 0.
(** StarPolymers.hpp:375-376: the buffers of forces. *)
Definition buffer (m : memory) : coordinates := fun c => m (Forces, c).
(** The state of the solute. *)
Record solute := Solute { positions : coordinates; velocities : coordinates }.
(* StarPolymers.cu:316-409: performMDTimestep *)
Inductive md_timestep (double : bool) (s : structure) (I : interactions) (timestep mass : R) : solute -> solute -> Prop :=
| md_timestep_intro x v m1 m1' m2 m2' units1 units2 :
  zeroed s m1 -> zeroed s m2 ->
  force_kernels double s I x (zrange (getParticleCount s - 1)) m1 m1' ->
  launched (3 * getParticleCount s) units1 ->
  let x' := fold_left (verlet_thread1 v (buffer m1') timestep (getParticleCount s) mass) units1 x in
  force_kernels double s I x' (zrange (getParticleCount s - 1)) m2 m2' ->
  launched (3 * getParticleCount s) units2 ->
  let v' := fold_left (verlet_thread2 (buffer m1') (buffer m2') timestep (getParticleCount s) mass) units2 v in
  md_timestep double s I timestep mass (Solute x v) (Solute x' v').
(** Several time steps, StarPolymers.cu:316-409. *)
Inductive md_timesteps (double : bool) (s : structure) (I : interactions) (timestep mass : R) : nat -> solute -> solute -> Prop :=
| md_none a : md_timesteps double s I timestep mass 0 a a
| md_more n a b c : md_timestep double s I timestep mass a b -> md_timesteps double s I timestep mass n b c ->
  md_timesteps double s I timestep mass (S n) a c.

(* StarPolymers.cu:741-793: initializePositionsOnHost; [None] is a coordinate that is not
   set *)
Definition bead (a : Z -> option vec) (particleID : Z) (v : vec) : Z -> option vec :=
  fun i => if Z.eqb i particleID then Some v else a i.
(** StarPolymers.cu:741-793. *)
Definition beadToBeadDistance : R := 1.
(** StarPolymers.cu:741-793. *)
Definition bead_angle (s : structure) (arm : Z) : R := 2 * PI * IZR arm / IZR (armCountPerStar s).
(** StarPolymers.cu:741-793. *)
Definition bead_position (angle distance : R) : vec := Vec (cos angle * distance) (sin angle * distance) 0.
Definition initializePositions (s : structure) (h : Z -> option vec) : Z -> option vec :=
  let star := 0%Z in
  fold_left (fun h arm =>
    let coreID := getCoreParticleID s star in
    let h := bead h coreID (Vec 0 0 0) in
    let h := fold_left (fun h pIA =>
      let particleID := getArmParticleID s star arm pIA in
      let angle := bead_angle s arm in
      let distance := IZR (pIA + 1) * beadToBeadDistance in
      bead h particleID (bead_position angle distance)) (zrange (particleCountPerArm s)) h in
    if hasMagneticParticles s then
      let particleID := getMagneticParticleID s star arm in
      let angle := bead_angle s arm in
      let distance := IZR (particleCountPerArm s + 1) * beadToBeadDistance in
      bead h particleID (bead_position angle distance)
    else h) (zrange (armCountPerStar s)) h.
(* StarPolymers.cu:795-832: initializeVelocitiesOnHost *)
Definition initializeVelocities (s : structure) (h : Z -> option vec) : Z -> option vec :=
  fold_left (fun h star =>
    let h := bead h (getCoreParticleID s star) (Vec 0 0 0) in
    fold_left (fun h arm =>
      let h := fold_left (fun h pIA => bead h (getArmParticleID s star arm pIA) (Vec 0 0 0)) (zrange (particleCountPerArm s)) h in
      if hasMagneticParticles s then bead h (getMagneticParticleID s star arm) (Vec 0 0 0) else h)
    (zrange (armCountPerStar s)) h) (zrange (starCount s)) h.

(** * The analysis *)
Open Scope Z_scope.
(* Analysis/MPCDAnalysis/StarPolymers.py:9-42: __init__; the configuration is complete *)
Definition py_init (s : structure) : result structure :=
  if negb (starCount s =? 1) then Err RuntimeError (* NotImplementedError *) else Ok s.
(* StarPolymers.py:80-93: getTotalParticleCountPerArm *)
Definition py_countPerArm (s : structure) : Z :=
  let ret := particleCountPerArm s in if hasMagneticParticles s then ret + 1 else ret.
(* StarPolymers.py:120-126: getTotalParticleCountPerStar *)
Definition py_countPerStar (s : structure) : Z := 1 + armCountPerStar s * py_countPerArm s.
(* StarPolymers.py:129-139: getTotalParticleCount *)
Definition py_count (s : structure) : Z := starCount s * py_countPerStar s.
(* StarPolymers.py:142-186: getParticleType *)
Definition py_getParticleType (s : structure) (index : Z) : result ptype :=
  if (index <? 0) || (py_count s <=? index) then Err IndexError
  else
    let index := index mod py_countPerStar s in
    if index =? 0 then Ok TCore
    else
      let index := index - 1 in
      let index := index mod py_countPerArm s in
      if index =? particleCountPerArm s then Ok TMagnetic
      else Ok TArm.
(* StarPolymers.py:189-248: getParticleStructureIndices; [None] is None *)
Definition py_getParticleStructureIndices (s : structure) (particleID : Z) : result (Z * option Z * option Z) :=
  if (particleID <? 0) || (py_count s <=? particleID) then Err IndexError
  else
    let star := particleID / py_countPerStar s in
    let particleID := particleID mod py_countPerStar s in
    if particleID =? 0 then Ok (star, None, None)
    else
      let particleID := particleID - 1 in
      let arm := particleID / py_countPerArm s in
      let particleID := particleID mod py_countPerArm s in
      if hasMagneticParticles s && (particleID =? particleCountPerArm s) then Ok (star, Some arm, None)
      else Ok (star, Some arm, Some particleID).
(** Comparison of objects that are integers or None. *)
Definition py_eq (a b : option Z) : bool :=
  match a, b with Some a, Some b => a =? b | None, None => true | _, _ => false end.
(* StarPolymers.py:251-332: particlesAreBonded *)
Definition py_particlesAreBonded (s : structure) (pID1 pID2 : Z) : result bool :=
  if (pID1 <? 0) || (py_count s <=? pID1) then Err IndexError
  else if (pID2 <? 0) || (py_count s <=? pID2) then Err IndexError
  else if pID1 =? pID2 then Ok false
  else
    do indices1 <- py_getParticleStructureIndices s pID1;
    do indices2 <- py_getParticleStructureIndices s pID2;
    let '(star1, arm1, in1) := indices1 in
    let '(star2, arm2, in2) := indices2 in
    if negb (star1 =? star2) then Ok false
    else if py_eq arm1 None || py_eq arm2 None then
      let nonCore := if py_eq arm1 None then in2 else in1 in
      if (particleCountPerArm s =? 0) && hasMagneticParticles s then Ok true
      else Ok (py_eq nonCore (Some 0))
    else if negb (py_eq arm1 arm2) then Ok false
    else
      match in1, in2 with
      | None, None => Ok false
      | None, Some nonMagnetic => Ok (nonMagnetic =? particleCountPerArm s - 1)
      | Some nonMagnetic, None => Ok (nonMagnetic =? particleCountPerArm s - 1)
      | Some a, Some b => Ok (Z.abs (a - b) =? 1)
      end.
Open Scope R_scope.
(* StarPolymers.py:451-456 and the like: the check of the types *)
Definition py_check_types (s : structure) (type1 type2 : ptype) : result unit :=
  if hasMagneticParticles s then Ok tt
  else if ptype_eqb type1 TMagnetic || ptype_eqb type2 TMagnetic then Err ValueError else Ok tt.
(* StarPolymers.py:430-464: getWCAPotentialParameterEpsilon; math.sqrt raises for negative
   numbers *)
Definition py_epsilon (s : structure) (p : parameters) (type1 type2 : ptype) : result R :=
  do _ <- py_check_types s type1 type2;
  let e := epsilon p type1 * epsilon p type2 in
  if rltb e 0 then Err ValueError else Ok (sqrt e).
(* StarPolymers.py:467-498: getWCAPotentialParameterSigma *)
Definition py_sigma (s : structure) (p : parameters) (type1 type2 : ptype) : result R :=
  do _ <- py_check_types s type1 type2; Ok ((sigma p type1 + sigma p type2) / 2).
(* StarPolymers.py:501-532: getWCAPotentialParameterD *)
Definition py_D (s : structure) (p : parameters) (type1 type2 : ptype) : result R :=
  do _ <- py_check_types s type1 type2; Ok ((D p type1 + D p type2) / 2).
(* StarPolymers.py:535-569: getWCAPotential *)
Definition py_getWCAPotential (s : structure) (p : parameters) (type1 type2 : ptype) : result potential :=
  do e <- py_epsilon s p type1 type2;
  do sg <- py_sigma s p type1 type2;
  do d <- py_D s p type1 type2;
  do _ <- py_wcad_init e sg d;
  Ok (WCAOffset e sg d).
(* StarPolymers.py:572-609: getFENEPotential *)
Definition py_getFENEPotential (s : structure) (p : parameters) (type1 type2 : ptype) : result potential :=
  do e <- py_epsilon s p type1 type2;
  do sg <- py_sigma s p type1 type2;
  do d <- py_D s p type1 type2;
  if Req_EM_T (sg * sg) 0 then Err ZeroDivisionError
  else
    let K := 30 * e / (sg * sg) in
    let l_0 := d in
    let Rm := 3 / 2 * sg in
    do _ <- py_fene_init K l_0 Rm;
    Ok (FENE K l_0 Rm).
(* StarPolymers.py:612-642: getMagneticPotential *)
Definition py_getMagneticPotential (s : structure) (p : parameters) : result potential :=
  if negb (hasMagneticParticles s) then Err RuntimeError
  else
    match dipoleOrientation p with
    | None => Err KeyError
    | Some orientation =>
      do _ <- py_mag_init (magneticPrefactor p) orientation;
      Ok (Magnetic (magneticPrefactor p) orientation)
    end.
(** Sums of results, from the left. *)
Fixpoint py_sum {A} (f : A -> R -> result R) (l : list A) (ret : R) : result R :=
  match l with [] => Ok ret | a :: l => do ret <- f a ret; py_sum f l ret end.
(* StarPolymers.py:668-682: the body of the loops *)
Definition py_pair_energy (s : structure) (p : parameters) (magnetic : potential) (pos : Z -> vec) (pID1 pID2 : Z) (ret : R) : result R :=
  do type1 <- py_getParticleType s pID1;
  do type2 <- py_getParticleType s pID2;
  let r := vsub (pos pID1) (pos pID2) in
  do wca <- py_getWCAPotential s p type1 type2;
  do e <- py_potential wca (Vector r);
  let ret := ret + e in
  do bonded <- py_particlesAreBonded s pID1 pID2;
  do ret <- (if bonded : bool then
      do fene <- py_getFENEPotential s p type1 type2;
      do e <- py_potential fene (Vector r);
      Ok (ret + e)
    else Ok ret);
  if ptype_eqb type1 TMagnetic && ptype_eqb type2 TMagnetic then
    do e <- py_potential magnetic (Vector r);
    Ok (ret + e)
  else Ok ret.
(** [range(a, b)]. *)
Definition py_range (a b : Z) : list Z := map (Z.add a) (zrange (b - a)).
(* StarPolymers.py:645-682: getPotentialEnergy; [pos] is None if there are no particles *)
Definition py_getPotentialEnergy (s : structure) (p : parameters) (particles : option (Z -> vec)) : result R :=
  match particles with
  | None => Err ValueError
  | Some pos =>
    if negb (Z.eqb (starCount s) 1) then Err RuntimeError (* NotImplementedError *)
    else
      do magnetic <- py_getMagneticPotential s p;
      py_sum (fun pID1 =>
        py_sum (fun pID2 => py_pair_energy s p magnetic pos pID1 pID2) (py_range (pID1 + 1) (py_count s)))
      (py_range 0 (py_count s)) 0
  end.

(** Positions are compared by value (Vector3DReal.py: __eq__) (Vector3DReal.py:312-331). *)
Fixpoint py_positions_eq (a b : list vec) : bool :=
  match a, b with
  | [], [] => true
  | x :: a, y :: b => (if vec_eq_dec x y then true else false) && py_positions_eq a b
  | _, _ => false
  end.
Definition py_close (cutoff : R) (cluster other : list vec) : bool :=
  existsb (fun x => existsb (fun y => rleb (pylen (vsub x y)) cutoff) other) cluster.
(* StarPolymers.py:685-709: _mergeClusters: the pair of clusters that is merged first *)
Definition py_find (cutoff : R) (clusters : list (list vec)) : option (list vec * list vec) :=
  find (fun cc => negb (py_positions_eq (snd cc) (fst cc)) && py_close cutoff (fst cc) (snd cc))
    (flat_map (fun cluster => map (fun otherCluster => (cluster, otherCluster)) clusters) clusters).
(** [fuel] bounds the depth of the recursion (StarPolymers.py:685-709). *)
Fixpoint py_mergeClusters (fuel : nat) (cutoff : R) (clusters : list (list vec)) : result (list (list vec)) :=
  match py_find cutoff clusters with
  | None => Ok clusters
  | Some (cluster, otherCluster) =>
    match fuel with
    | O => Err RecursionError
    | S fuel =>
      py_mergeClusters fuel cutoff
        (filter (fun newCluster => negb (py_positions_eq newCluster cluster) && negb (py_positions_eq newCluster otherCluster)) clusters
         ++ [cluster ++ otherCluster])
    end
  end.
(** A list of results, or the first exception. *)
Fixpoint py_magnets (s : structure) (pos : Z -> vec) (l : list Z) : result (list vec) :=
  match l with
  | [] => Ok []
  | index :: l =>
    do type <- py_getParticleType s index;
    do rest <- py_magnets s pos l;
    Ok (if ptype_eqb type TMagnetic then pos index :: rest else rest)
  end.
(* StarPolymers.py:360-407: getMagneticClusters *)
Definition py_getMagneticClusters (fuel : nat) (s : structure) (particles : option (Z -> vec)) (cutoff : R) : result (list (list vec)) :=
  if rltb cutoff 0 then Err ValueError
  else if negb (hasMagneticParticles s) then Err ValueError
  else
    match particles with
    | None => Err ValueError
    | Some pos =>
      do magnetPositions <- py_magnets s pos (py_range 0 (py_count s));
      let clusters := map (fun pos => [pos]) magnetPositions in
      py_mergeClusters fuel cutoff clusters
    end.
