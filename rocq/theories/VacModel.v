(** Measurements of the velocity autocorrelation: src/OpenMPCD/CUDA/MPCFluid/Instrumentation/VelocityAutocorrelation/{Base,Simple,Doublets,Triplets,Chains}.cu,
    the kernels in cudaDeviceCode/OpenMPCD/CUDA/MPCFluid/DeviceCode/{Doublets,Triplets,Chains}.cu, and the script Analysis/velocityAutocorrelation.py.
    Simplifications: numbers are exact; how they are printed and read is given by functions; the threads of a launch may run in any order; errors of the CUDA
    runtime, the debugging code in Base.cu l.194-210, 213-276 and the number of blocks that the hardware allows are left out; pointers have 64 bits. *)
From Coq Require Import Permutation.
From Verif Require Import QcBase StrBase PyBase DictBase SortBase CuModel CfgModel CfgSimModel VtfModel VtfPyModel DddaModel MeasModel.
Open Scope string_scope.
Open Scope list_scope.
Open Scope Qc_scope.

(** Device memory: the elements of an array of numbers (VelocityAutocorrelation/Base.hpp l.166-168). *)
Definition array := Z -> Qc.
(** RemotelyStoredVector.hpp l.35-39, 71-131: the coordinates of the vector with number [vectorID] in an array. *)
Definition stored (a : array) (vectorID : Z) : Z -> Qc := fun c => a (3 * vectorID + c)%Z.
(** RemotelyStoredVector.hpp l.71-131: a vector is stored. *)
Definition store (vectorID : Z) (v : Z -> Qc) : list (Z * Qc) :=
  [(3 * vectorID, v 0%Z); (3 * vectorID + 1, v 1%Z); (3 * vectorID + 2, v 2%Z)]%Z.
(** RemotelyStoredVector.hpp l.71-131: an element is written. *)
Definition write_to (a : array) (w : Z * Qc) : array := fun i => if Z.eqb i (fst w) then snd w else a i.

(** The four classes, with the length of chains (VelocityAutocorrelation/Chains.cu l.9-22). *)
Inductive fluid := Simple | Doublets | Triplets | Chains (chainLength : Z).
(** VelocityAutocorrelation/Simple.cu l.11, Doublets.cu l.12, Triplets.cu l.12, Chains.cu l.13-19. *)
Definition constituents (f : fluid) (particleCount : Z) : Z :=
  match f with
  | Simple => particleCount
  | Doublets => particleCount / 2
  | Triplets => particleCount / 3
  | Chains chainLength => particleCount / chainLength
  end.

(** DeviceCode/Doublets.cu l.36-45. *)
Definition doublet_velocity (doubletID : Z) (velocities : array) : Z -> Qc := fun c =>
  (stored velocities (u32 (u32 (doubletID * 2) + 0)) c + stored velocities (u32 (u32 (doubletID * 2) + 1)) c) / (1 + 1).
(** DeviceCode/Chains.cu l.51-56: the loop; [n] bounds the number of iterations. *)
Fixpoint chain_sum (n : nat) (particleOffset chainLength firstParticleID : Z) (velocities : array) (v : Z -> Qc) : Z -> Qc :=
  match n with
  | O => v
  | Datatypes.S n =>
    if Z.ltb particleOffset chainLength
    then chain_sum n (u32 (particleOffset + 1)) chainLength firstParticleID velocities
           (fun c => v c + stored velocities (u32 (firstParticleID + particleOffset)) c)
    else v
  end.
(** DeviceCode/Chains.cu l.41-59. *)
Definition chain_velocity (chainID chainLength : Z) (velocities : array) : Z -> Qc := fun c =>
  chain_sum (Datatypes.S (Z.to_nat chainLength)) 0 chainLength (u32 (chainID * chainLength)) velocities (fun _ => 0) c / qz chainLength.
(** The kernels: DeviceCode/Doublets.cu l.21-34, Triplets.cu l.21-34, Chains.cu l.23-39.  The kernel for triplets calls the function for doublets. *)
Definition kernel (f : fluid) (mpcParticleCount : Z) (velocities : array) (id : Z) : list (Z * Qc) :=
  match f with
  | Simple => []
  | Doublets => if Z.leb mpcParticleCount (u32 (u32 (id * 2) + 1)) then [] else store id (doublet_velocity id velocities)
  | Triplets => if Z.leb mpcParticleCount (u32 (u32 (id * 3) + 2)) then [] else store id (doublet_velocity id velocities)
  | Chains chainLength =>
    if Z.leb (mpcParticleCount / chainLength) id then [] else store id (chain_velocity id chainLength velocities)
  end.
(** Macros.hpp l.53-64: the threads of a launch. *)
Definition launched (blockSize : Z) (launch : Z * Z) : list Z :=
  flat_map (fun b => map (fun t => thread_unit b blockSize t (snd launch)) (zrange blockSize)) (zrange (fst launch)).
(** Macros.hpp l.53-91: the threads of all launches, with the sizes of grids and blocks; [None] if [fuel] launches are not enough. *)
Definition threads (fuel : nat) (workUnits : Z) : option (list Z) :=
  option_map (flat_map (launched 512)) (launches fuel workUnits 1024 512 0).
(** populateCurrentVelocities: VelocityAutocorrelation/Simple.cu l.15-25, Doublets.cu l.16-22, Triplets.cu l.16-22, Chains.cu l.24-31, with
    DeviceCode/Doublets.cu l.5-19, Triplets.cu l.5-19, Chains.cu l.5-21.  The writes may be performed in any order. *)
Definition populates (f : fluid) (particleCount : Z) (velocities before after : array) : Prop :=
  match f with
  | Simple => after = fun i => if Z.leb 0 i && Z.ltb i (3 * particleCount) then velocities i else before i
  | _ => exists fuel l order, threads fuel (constituents f particleCount) = Some l /\
           Permutation (flat_map (kernel f particleCount velocities) l) order /\ after = fold_left write_to order before
  end.

(** VelocityAutocorrelation/Base.hpp l.166-167. *)
Record snapshot := Snapshot { snapshotTime : Qc; buffer : array }.
(** VelocityAutocorrelation/Base.hpp l.312-320: currentVelocities, the snapshots and the autocorrelations. *)
Record state := State { currentVelocities : array; snapshots : list snapshot; autocorrelations : list (Qc * Qc * Qc) }.

(** The [1e-6] in VelocityAutocorrelation/Base.cu l.101, 124, 166. *)
Definition tolerance : Qc := Q2Qc (1 # 1000000).

Section Measure.
(** The number of constituents, and the setting [measurementTime] (VelocityAutocorrelation/Base.hpp l.312-315). *)
Variables (numberOfConstituents : Z) (measurementTime : Qc).

Section Update.
(** The time, the current velocities and the number of snapshots (VelocityAutocorrelation/Base.cu l.113-173). *)
Variables (mpcTime : Qc) (current : array) (snapshotCount : nat).
(** VelocityAutocorrelation/Base.cu l.129-141: updateSnapshot, for all elements of the buffer. *)
Definition taken : snapshot := Snapshot mpcTime current.
(** VelocityAutocorrelation/Base.cu l.143-173: initializeSnapshotIfAppropriate, given the time of the previous snapshot; [None] stands for [false]. *)
Definition initializeIfAppropriate (previous : option Qc) (s : snapshot) : option snapshot :=
  if qleb 0 (snapshotTime s) then Some s else
  match previous with
  | None => Some taken
  | Some previousSnapshotTime =>
    if qltb previousSnapshotTime 0 then None else
    let snapshotSeparation := measurementTime / qn snapshotCount in
    let deltaT := mpcTime - previousSnapshotTime in
    if qltb snapshotSeparation (deltaT + tolerance) then Some taken else None
  end.
(** VelocityAutocorrelation/Base.cu l.113-127: updateSnapshots. *)
Fixpoint updateSnapshots (previous : option Qc) (l : list snapshot) : list snapshot :=
  match l with
  | [] => []
  | s :: r =>
    match initializeIfAppropriate previous s with
    | None => s :: r
    | Some s =>
      let s := if qltb measurementTime (mpcTime - snapshotTime s - tolerance) then taken else s in
      s :: updateSnapshots (Some (snapshotTime s)) r
    end
  end.
(** VelocityAutocorrelation/Base.cu l.175-192: measureWithSnapshot. *)
Definition measureWithSnapshot (s : snapshot) : Qc * Qc * Qc :=
  let autocorrelationSum := fold_left (fun sum i => sum + buffer s i * current i) (zrange (u32 (3 * numberOfConstituents))) 0 in
  (snapshotTime s, mpcTime, autocorrelationSum / qz numberOfConstituents).
End Update.
(** VelocityAutocorrelation/Base.cu l.60-71: measure, after populateCurrentVelocities has stored [current]. *)
Definition measured (mpcTime : Qc) (current : array) (s : state) : state :=
  let snaps := updateSnapshots mpcTime current (length (snapshots s)) None (snapshots s) in
  State current snaps
    (autocorrelations s ++ map (measureWithSnapshot mpcTime current) (filter (fun s => qleb 0 (snapshotTime s)) snaps)).
End Measure.
(** VelocityAutocorrelation/Base.cu l.60-71: calls of measure, given time and velocities of the particles for each. *)
Inductive measures (f : fluid) (particleCount : Z) (measurementTime : Qc) : list (Qc * array) -> state -> state -> Prop :=
| measures_none s : measures f particleCount measurementTime [] s s
| measures_once mpcTime velocities calls current s s' :
    populates f particleCount velocities (currentVelocities s) current ->
    measures f particleCount measurementTime calls (measured (constituents f particleCount) measurementTime mpcTime current s) s' ->
    measures f particleCount measurementTime ((mpcTime, velocities) :: calls) s s'.

Section Config.
(** See CfgModel.v. *)
Variable negative_as_unsigned : Z -> option Z.
(** VelocityAutocorrelation/Base.cu l.78-84: isConfigured. *)
Definition isConfigured (config : setting Qc) : bool := has Qc config "instrumentation.velocityAutocorrelation".
(** VelocityAutocorrelation/Base.cu l.86-111: readConfig, giving the measurement time and the number of snapshots. *)
Definition readConfig (config : setting Qc) (timestep : Qc) : outcome (Qc * Z) :=
  next (read_float Qc negative_as_unsigned config "instrumentation.velocityAutocorrelation.measurementTime") (fun measurementTime =>
  next (read_unsigned Qc negative_as_unsigned config "instrumentation.velocityAutocorrelation.snapshotCount") (fun snapshotCount =>
  if Z.eqb snapshotCount 0 then Fails InvalidConfiguration else
  if qltb (measurementTime - tolerance) (qz snapshotCount * timestep) then Fails InvalidConfiguration else
  Done (measurementTime, snapshotCount))).
(** VelocityAutocorrelation/Base.cu l.21-50, 107-110: the snapshots of a new object; memory is not initialised. *)
Definition fresh (contents : nat -> array) (current : array) (snapshotCount : nat) : state :=
  State current (map (fun i => Snapshot (- (1)) (contents i)) (seq 0 snapshotCount)) [].
End Config.

Section Text.
(** The number with 17 digits (VelocityAutocorrelation/Base.cu l.283). *)
Variable show : Qc -> string.
(** VelocityAutocorrelation/Base.cu l.287-290: a line. *)
Definition autocorrelation_row (e : Qc * Qc * Qc) : string :=
  let '(t1, t2, v) := e in (show t1 ++ String "009" (show t2) ++ String "009" (show v) ++ eol)%string.
(** VelocityAutocorrelation/Base.cu l.73-76, 278-292: the name of the file and what is written to it. *)
Definition saved (rundir : string) (s : state) : string * string :=
  ((rundir ++ "/velocityAutocorrelations.data")%string, String.concat "" (map autocorrelation_row (autocorrelations s))).
End Text.

Section Script.
(** [float] and [round] (VelocityAutocorrelation.py l.164, 181). *)
Variable float : string -> option Qc.
Variable round : Qc -> Z.
(** [str] of a number, and of the square root of a number (velocityAutocorrelation.py l.57-61). *)
Variables str str_root : Qc -> string.

(** VelocityAutocorrelation.py l.181: the numbers in a line. *)
Fixpoint floats (l : list string) : result (list Qc) :=
  match l with
  | [] => Ok []
  | w :: l => match float w with Some x => do r <- floats l; Ok (x :: r) | None => Err ValueError end
  end.
(** VelocityAutocorrelation.py l.180-181: the numbers in the lines of a file. *)
Fixpoint parsed (lines : list string) : result (list (list Qc)) :=
  match lines with [] => Ok [] | l :: r => do x <- floats (words is_ws l); do y <- parsed r; Ok (x :: y) end.
(** VelocityAutocorrelation.py l.70-105, 180-181: the numbers in the files of the run directories.  Simplified: whether a line can be read is found out for all lines
    before any is used; both failures are the same exception. *)
Fixpoint parsed_files (contents : list string) : result (list (list (list Qc))) :=
  match contents with [] => Ok [] | c :: r => do x <- parsed (keep_lines c); do y <- parsed_files r; Ok (x :: y) end.
(** VelocityAutocorrelation.py l.20-105: the constructor, given the contents of the files. *)
Definition vac_read (minimumTime timestep : Qc) (contents : list string) : result vac :=
  do files <- parsed_files contents; vac_new round minimumTime timestep files.
(** VelocityAutocorrelation.py l.132-137, 197: the sorted times. *)
Definition getCorrelationTimes (v : vac) : list Qc := isort qleb (map fst (v_stats v)).

(** velocityAutocorrelation.py l.55-63: the lines for the given times. *)
Fixpoint table_rows (v : vac) (times : list Qc) : result string :=
  match times with
  | [] => Ok ""
  | t :: r =>
    do current <- vac_get v t;
    do m <- ddda_mean current;
    do e <- optimalStandardError_squared current;
    do rest <- table_rows v r;
    Ok (str t ++ String "009" (str m ++ String "009" (str_root e ++ String "009" (str_of_Z (Z.of_nat (ddda_size current)) ++ String "009" (eol ++ rest)))))%string
  end.
(** velocityAutocorrelation.py l.50-54. *)
Definition table_header : string :=
  ("#" ++ "correlation-time" ++ String "009" ("mean-autocorrelation" ++ String "009" ("DDDA-optimal-standard-error-of-the-mean" ++ String "009" ("sample-size" ++ eol))))%string.
(** velocityAutocorrelation.py l.70-77: the names in quotation marks. *)
Fixpoint quoted (first : bool) (rundirs : list string) : string :=
  match rundirs with
  | [] => ""
  | r :: rest => ((if first then "" else ",") ++ """" ++ r ++ """" ++ quoted false rest)%string
  end.
(** velocityAutocorrelation.py l.68-79. *)
Definition metadata (rundirs : list string) : string :=
  ("{" ++ """runDirectories"": [" ++ eol ++ quoted true rundirs ++ "]" ++ eol ++ "}")%string.
(** velocityAutocorrelation.py l.38-79: the script, given names and contents of the run directories: the exit status and the files that are written. *)
Definition script (rundirs : list (string * string)) (timestep minimumTime : Qc) (saveFilename metadataFilename : option string)
  : result (Z * list (string * string)) :=
  if Nat.eqb (length rundirs) 0 then Ok (1%Z, []) else
  do v <- vac_read minimumTime timestep (map snd rundirs);
  do table <- match saveFilename with
              | None => Ok []
              | Some name => do rows <- table_rows v (getCorrelationTimes v); Ok [(name, (table_header ++ rows)%string)]
              end;
  Ok (0%Z, table ++ match metadataFilename with None => [] | Some name => [(name, metadata (map fst rundirs))] end).
End Script.
