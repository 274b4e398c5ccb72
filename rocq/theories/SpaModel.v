(** Time series of star polymers: Analysis/MPCDAnalysis/StarPolymersAnalysis/*.py, and when the snapshots that they read are written
    (src/OpenMPCD/CUDA/Simulation.cu, OpenMPCD/main.cpp).
    Simplifications: real numbers; the configuration has the settings that are read; the metadata and the cache are those of RunsModel.v; plotting is left out. *)
From Verif Require Import StrBase PyBase VtfPyModel VecModel PartModel EckModel StarModel RunsModel.
From Coq Require Import Reals List Arith Bool.
Import ListNotations.
Open Scope R_scope.

(** The dictionary [ret] of values by time (Asphericity.py l.61, 77): a time that is already a key keeps its place. *)
Fixpoint at_time {V} (ret : list (R * V)) (time : R) (v : V) : list (R * V) :=
  match ret with
  | [] => [(time, v)]
  | (t, w) :: r => if Req_EM_T t time then (t, v) :: r else (t, w) :: at_time r time v
  end.
(** The vector that three numbers of a file stand for (VTFSnapshotFile.py l.83-91). *)
Definition vec_of (t : R * R * R) : vec := let '(x, y, z) := t in Vec x y z.
(** The [ParticleCollection] that [readTimestep] returns (VTFSnapshotFile.py l.94-97); its vectors are distinct objects. *)
Definition collection_of (c : list (R * R * R) * list (R * R * R)) : coll :=
  Coll (fresh (map vec_of (fst c))) (seq 0 (length (fst c))) (fresh (map vec_of (snd c))) (seq 0 (length (snd c))) None None.
(** StarPolymers.py l.335-357: setParticles, for a collection. *)
Definition setParticles (s : structure) (particles : coll) : result coll :=
  if negb (Z.eqb (Z.of_nat (length (PartModel.positions particles))) (py_count s)) then Err ValueError else Ok particles.

Section Series.
(** [float] of a string; [None] is a [ValueError] (VTFSnapshotFile.py l.83-91). *)
Variable float : string -> option R.
Variable V : Type.

(** The loops that analyse every snapshot (Asphericity.py l.65-77 and Acylindricity.py, GyrationTensor.py, OrientationAngles.py, RadiusOfGyration.py,
    RelativeShapeAnisotropy.py, RotationFrequencyVector.py, EckartAngularVelocityVector.py likewise): [mass] is that of a particle; [measure] is what is done with the
    particles, which may change the variables [s]. [None] if the loop has not ended after [fuel] iterations. *)
Fixpoint every_snapshot {S_} (measure : S_ -> coll -> result (S_ * V)) (mass timestep : R) (fuel : nat) (time : R) (ls : list string) (s : S_) (ret : list (R * V)) : result (option (list (R * V))) :=
  match fuel with
  | O => Ok None
  | S fuel =>
    let time := time + timestep in
    do p <- py_readTimestep float ls;
    let (c, rest) := p in
    do particles <- set_mass (collection_of c) mass;
    match PartModel.positions particles with
    | [] => Ok (Some ret)
    | _ => do m <- measure s particles; let (s, v) := m in every_snapshot measure mass timestep fuel time rest s (at_time ret time v)
    end
  end.
(** The time between two analyses (MagneticClusterCount.py l.121-126, PotentialEnergy.py l.110-115). *)
Definition analysisTimestep : R := 100.
(** The initial value of [lastTimestepAnalyzed] (MagneticClusterCount.py l.64, PotentialEnergy.py l.66). *)
Definition never : R := - (9 * 10 ^ 9).
(** The loops that analyse some of the snapshots (MagneticClusterCount.py l.65-82, PotentialEnergy.py l.67-82). *)
Fixpoint some_snapshots (measure : coll -> result V) (timestep : R) (fuel : nat) (time lastTimestepAnalyzed : R) (ls : list string) (ret : list (R * V)) : result (option (list (R * V))) :=
  match fuel with
  | O => Ok None
  | S fuel =>
    let time := time + timestep in
    do p <- py_readTimestep float ls;
    let (c, rest) := p in
    let particles := collection_of c in
    if Rlt_dec (time - lastTimestepAnalyzed) analysisTimestep then some_snapshots measure timestep fuel time lastTimestepAnalyzed rest ret
    else
      match PartModel.positions particles with
      | [] => Ok (Some ret)
      | _ => do v <- measure particles; some_snapshots measure timestep fuel time time rest (at_time ret time v)
      end
  end.
(** Asphericity.py l.57-79: [contents] is the snapshot file, [warmupSteps] and [timestep] are settings. *)
Definition compute_every {S_} (measure : S_ -> coll -> result (S_ * V)) (s : S_) (mass timestep : R) (warmupSteps : Z) (fuel : nat) (contents : string) : result (option (list (R * V))) :=
  every_snapshot measure mass timestep fuel (timestep * IZR warmupSteps) (snd (py_open contents)) s [].
(** PotentialEnergy.py l.57-84, MagneticClusterCount.py l.56-84. *)
Definition compute_some (measure : coll -> result V) (timestep : R) (warmupSteps : Z) (fuel : nat) (contents : string) : result (option (list (R * V))) :=
  some_snapshots measure timestep fuel (timestep * IZR warmupSteps) never (snd (py_open contents)) [].
(** What is done with the particles, where they are taken to the frame of their centre of mass (Asphericity.py l.74-77). *)
Definition framed (s : structure) (value : coll -> result V) (_ : unit) (particles : coll) : result (unit * V) :=
  do particles <- PartModel.shift particles;
  do particles <- setParticles s particles;
  do v <- value particles;
  Ok (tt, v).
(** PotentialEnergy.py l.80-82, MagneticClusterCount.py l.78-82. *)
Definition unframed (s : structure) (value : coll -> result V) (particles : coll) : result V :=
  do particles <- setParticles s particles; value particles.
End Series.
Arguments every_snapshot float {V S_} _ _ _ _ _ _ _ _.
Arguments compute_every float {V S_} _ _ _ _ _ _ _.
Arguments some_snapshots float {V} _ _ _ _ _ _ _.
Arguments compute_some float {V} _ _ _ _ _.
Arguments framed {V} _ _ _ _.
Arguments unframed {V} _ _ _.

(** ParticleCollection.py l.517-523: getRadiusOfGyration. *)
Definition radius (eig : mat -> R * R * R) (c : coll) : result R := do r <- radius2 eig c; Ok (sqrt r).
(** EckartAngularVelocityVector.py l.90-94: the first particles are the reference; [velocity] is getEckartAngularVelocityVector. *)
Definition measure_eckart (velocity : coll -> coll -> result vec) (eckartSystem : option coll) (particles : coll) : result (option coll * vec) :=
  do ref <- match eckartSystem with Some ref => Ok ref | None => eckart_new particles end;
  do w <- velocity ref particles;
  Ok (Some ref, w).
(** Positions by number (StarPolymers.py l.403, 665). *)
Definition by_number (particles : coll) (i : Z) : vec := nth (Z.to_nat i) (pos_values particles) (Vec 0 0 0).
(** PotentialEnergy.py l.82: getPotentialEnergy. *)
Definition measure_energy (s : structure) (p : parameters) (particles : coll) : result R := py_getPotentialEnergy s p (Some (by_number particles)).
(** MagneticClusterCount.py l.80-82 and l.112-118: getMagneticClusterCount with a maximum distance of 2.5; [fuel] bounds the depth of the recursion (StarPolymers.py l.410-427). *)
Definition measure_clusters (fuel : nat) (s : structure) (particles : coll) : result nat :=
  do l <- py_getMagneticClusters fuel s (Some (by_number particles)) (5 / 2); Ok (length l).

(** Simulation.cu l.241-271: the simulation time after [stepCount] more steps. *)
Fixpoint run_clock (timestep : R) (stepCount : nat) (mpcTime : R) : R :=
  match stepCount with O => mpcTime | S n => run_clock timestep n (mpcTime + timestep) end.
(** OpenMPCD/main.cpp l.163-218, Simulation.cu l.77-85: after the warmup, a snapshot is written after each sweep, which has [sweepSize] steps; the simulation times at which they are written. *)
Fixpoint sweep_times (timestep : R) (sweepSize n : nat) (mpcTime : R) : list R :=
  match n with O => [] | S n => let mpcTime := run_clock timestep sweepSize mpcTime in mpcTime :: sweep_times timestep sweepSize n mpcTime end.
(** OpenMPCD/main.cpp l.163-218, Simulation.cu l.77-85. *)
Definition snapshot_times (timestep : R) (warmupSteps sweepSize n : nat) : list R := sweep_times timestep sweepSize n (run_clock timestep warmupSteps 0).

(** * The base class (StarPolymersAnalysis/Base.py) *)
Section Base.
Variable cwd : path.
(** As in RunsModel.v. *)
Variables (M : Type) (dump : M -> string) (load : string -> option M) (meta_eqb : M -> M -> bool).
Variables (K V : Type) (key_eqb : K -> K -> bool).
Variables (str_k : K -> string) (str_v : V -> string).
Variables (keyInterpreter : string -> result K) (valueInterpreter : string -> result V).
(** An analysis: the name of its file, its metadata, and what it computes from the files (Base.py l.46-61). *)
Record analysis := Analysis { cacheFilename : string; cacheMetadata : M; computeValue : fs -> result (list (K * V)) }.
(** Base.py l.133-139, with l.80-87 for the cache. *)
Definition hasDataInCache (c : cache) (F : fs) (a : analysis) : result bool := hasData cwd M load meta_eqb c F (cacheFilename a) (cacheMetadata a).
(** Base.py l.142-148. *)
Definition storeDataInCache (c : cache) (F : fs) (a : analysis) (data : list (K * V)) : result fs := storeData cwd M dump K V str_k str_v c F (cacheFilename a) data (cacheMetadata a).
(** Base.py l.169-187. *)
Definition getDataInCache (c : cache) (F : fs) (a : analysis) : result (list (K * V)) :=
  do h <- hasDataInCache c F a;
  if negb h then Err RuntimeError else getDataOrderedDict cwd M load meta_eqb K V key_eqb keyInterpreter valueInterpreter c F (cacheFilename a) (cacheMetadata a).
(** Base.py l.46-61: the value, and the files afterwards. *)
Definition getValueAsFunctionOfTime (c : cache) (F : fs) (a : analysis) : result (list (K * V) * fs) :=
  do h <- hasDataInCache c F a;
  if h : bool then do d <- getDataInCache c F a; Ok (d, F)
  else do d <- computeValue a F; do F' <- storeDataInCache c F a d; Ok (d, F').
(** Base.py l.64-77. *)
Definition updateCache (forced : bool) (c : cache) (F : fs) (a : analysis) : result fs :=
  do skip <- (if negb forced then hasDataInCache c F a else Ok false);
  if skip : bool then Ok F else do d <- computeValue a F; storeDataInCache c F a d.
End Base.

(** Values of the analyses of vectors (RotationFrequencyVector.py l.90, 109-111): a computed one is a [Vector3DReal], while [ast.literal_eval] of its text gives a [tuple]; numbers are given
    by their texts. *)
Inductive py_value := Vector3DReal (x y z : string) | Tuple (x y z : string).
(** [str] of either (Vector3DReal.py l.456-461). *)
Definition str_value (v : py_value) : string :=
  match v with Vector3DReal x y z | Tuple x y z => ("(" ++ x ++ ", " ++ y ++ ", " ++ z ++ ")")%string end.
