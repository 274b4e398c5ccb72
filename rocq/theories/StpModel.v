(** The construction of star polymers from the settings given for them: the constructor in src/OpenMPCD/CUDA/MPCSolute/StarPolymers.cu l.193-306.
    Simplifications: memory on the device is left out, so that pushing the state there is, too; the products of the numbers of particles do not overflow; the
    instrumentation is left out, since it does not change what is built. Texts are read and written as in VtfModel.v, settings are read as in CfgModel.v. *)
From Verif Require Import PyBase StrBase CuModel CfgModel CfgSimModel.
From Verif Require StarModel VtfModel VtfStarModel.
From Coq Require Import Reals.
From Verif Require Import VecModel.
Open Scope string_scope.
Open Scope list_scope.
Open Scope Z_scope.

(** Star polymers (include/OpenMPCD/CUDA/MPCSolute/StarPolymers.hpp l.365-386): the size of the time steps, the structure, the mass, the potentials, and the state
    on the host. *)
Record stars (F : Type) := Stars {
  mdTimeStepSize : F; theStructure : StarModel.structure; particleMass : F; theInteractions : StarModel.interactions;
  hostPositions : Z -> F; hostVelocities : Z -> F }.
Arguments Stars {F} _ _ _ _ _ _.
Arguments mdTimeStepSize {F} _.
Arguments theStructure {F} _.
Arguments particleMass {F} _.
Arguments theInteractions {F} _.
Arguments hostPositions {F} _.
Arguments hostVelocities {F} _.
(** How the constructor ends (StarPolymers.cu l.193-306): with an instance, with an exception, or with one that is thrown because of the snapshot file. *)
Inductive ended (F : Type) :=
| Built (s : stars F)
| Thrown (f : failure)
| AssertionFailed
| SnapshotError (e : exc).
Arguments Built {F} _.
Arguments Thrown {F} _.
Arguments AssertionFailed {F}.
Arguments SnapshotError {F} _.

Section Stp.
(** The type of coordinates and of numbers in the configuration (StarPolymers.cu l.242-245), the numbers that its values stand for, its zero and its one, and rounding. *)
Variable F : Type.
(** See above (StarPolymers.cu l.242-245). *)
Variable value : F -> R.
(** See above (StarPolymers.cu l.242-245). *)
Variable zero one : F.
(** See above (StarPolymers.cu l.242-245). *)
Variable round : R -> F.
(** See CfgModel.v (Configuration.hpp l.165). *)
Variable negative_as_unsigned : Z -> option Z.
(** Whether [OPENMPCD_DEBUG] is defined (Configuration.hpp l.334-340). *)
Variable debug : bool.
(** Reading and writing numbers in files, see VtfModel.v (VTFSnapshotFile.cpp l.19-63). *)
Variable cast : string -> option F.
(** See above (VTFSnapshotFile.cpp l.19-63). *)
Variable show : F -> string.
(** See above (VTFSnapshotFile.cpp l.19-63). *)
Variable negative : F -> bool.
(** The regular files, and whether a path that is not one can be opened for writing (VTFSnapshotFile.cpp l.26-47). *)
Variable files : string -> option string.
(** See above (VTFSnapshotFile.cpp l.26-47). *)
Variable creatable : string -> bool.
(** What is in the memory that is allocated on the host (StarPolymers.cu l.236-237). *)
Variable memoryPositions memoryVelocities : Z -> F.

(** Configuration.hpp l.130-209: a [std::size_t], by way of an [unsigned int]. *)
Definition setting_read_size (s : setting F) (name : string) : outcome Z :=
  next (setting_read F negative_as_unsigned TUnsigned s name) (fun v => match v with VInt z => Done z | _ => Fails InvalidConfiguration end).
(** Configuration.hpp l.130-182: a [bool]. *)
Definition setting_read_bool (s : setting F) (name : string) : outcome bool :=
  next (setting_read F negative_as_unsigned TBool s name) (fun v => match v with VBool b => Done b | _ => Fails InvalidConfiguration end).
(** Configuration.hpp l.130-182: a number. *)
Definition number_at (s : setting F) (name : string) : outcome F := setting_read_float F negative_as_unsigned s name.
(** StarPolymers.cu l.211-213. *)
Definition read_timestep (s : setting F) : outcome F :=
  next (number_at s "mdTimeStepSize") (fun dt => if rltb 0 (value dt) then Done dt else Fails InvalidConfiguration).
(** StarPolymers.cu l.215-218. *)
Definition read_structure (s : setting F) : outcome StarModel.structure :=
  next (setting_read_size s "structure.starCount") (fun starCount =>
  next (setting_read_size s "structure.armCountPerStar") (fun armCountPerStar =>
  next (setting_read_size s "structure.armParticlesPerArm") (fun armParticlesPerArm =>
  next (setting_read_bool s "structure.hasMagneticParticles") (fun hasMagneticParticles =>
  Done (StarModel.Structure starCount armCountPerStar armParticlesPerArm hasMagneticParticles))))).
(** StarPolymers.cu l.197, 220-221. *)
Definition read_mass (s : setting F) : outcome F :=
  next (setting_has F s "structure.particleMass") (fun b => if b then number_at s "structure.particleMass" else Done one).
(** StarPolymers.cu l.247-257: a value for each type of particles. *)
Definition by_type (core arm magnetic : F) (t : StarModel.ptype) : R :=
  match t with StarModel.TCore => value core | StarModel.TArm => value arm | StarModel.TMagnetic => value magnetic end.
(** StarPolymers.cu l.247-257. *)
Definition read_by_type (s : setting F) (core arm magnetic : string) : outcome (StarModel.ptype -> R) :=
  next (number_at s core) (fun c =>
  next (number_at s arm) (fun a =>
  next (number_at s magnetic) (fun m =>
  Done (by_type c a m)))).
(** StarPolymers.cu l.265-272: a component of the orientation. *)
Definition read_component (s : setting F) (i : Z) : outcome R :=
  next (setting_getList F debug s "interactionParameters.dipoleOrientation") (fun l =>
  next (list_read F negative_as_unsigned TFloat l i) (fun v =>
  match v with VFloat d => Done (value d) | _ => Fails InvalidConfiguration end)).
(** StarPolymers.cu l.262-273, where the orientation that is assumed if none is given is in StarModel.v, as is normalization in l.274. *)
Definition read_orientation (s : setting F) : outcome (option vec) :=
  next (setting_has F s "interactionParameters.dipoleOrientation") (fun b =>
  if b then
    next (read_component s 0) (fun x => next (read_component s 1) (fun y => next (read_component s 2) (fun z => Done (Some (Vec x y z)))))
  else Done None).
(** StarPolymers.cu l.242-274. *)
Definition read_parameters (s : setting F) : outcome StarModel.parameters :=
  next (read_by_type s "interactionParameters.epsilon_core" "interactionParameters.epsilon_arm" "interactionParameters.epsilon_magnetic") (fun epsilon =>
  next (read_by_type s "interactionParameters.sigma_core" "interactionParameters.sigma_arm" "interactionParameters.sigma_magnetic") (fun sigma =>
  next (read_by_type s "interactionParameters.D_core" "interactionParameters.D_arm" "interactionParameters.D_magnetic") (fun d =>
  next (number_at s "interactionParameters.magneticPrefactor") (fun prefactor =>
  next (read_orientation s) (fun orientation =>
  Done (StarModel.Parameters epsilon sigma d (value prefactor) orientation)))))).
(** StarPolymers.cu l.211-221. *)
Definition described (s : setting F) : outcome (F * StarModel.structure * F) :=
  next (read_timestep s) (fun dt =>
  next (read_structure s) (fun structure =>
  next (read_mass s) (fun mass =>
  Done (dt, structure, mass)))).

(** StarPolymers.cu l.740-832: the vectors that are set, as coordinates; the others are as in memory. *)
Definition coordinate (v : vec) (k : Z) : R := if k =? 0 then vx v else if k =? 1 then vy v else vz v.
(** StarPolymers.cu l.740-832. *)
Definition coordinates (memory : Z -> F) (h : Z -> option vec) : Z -> F :=
  fun c => match h (c / 3) with Some v => round (coordinate v (c mod 3)) | None => memory c end.
(** StarPolymers.cu l.287-288. *)
Definition zeroed (s : StarModel.structure) (memory : Z -> F) : Z -> F :=
  fun c => if (0 <=? c) && (c <? 3 * StarModel.getParticleCount s) then zero else memory c.
(** VTFSnapshotFile.cpp l.299-308: component [k] of the rows is stored in an array of coordinates, if it is there; [from] is 3 for the velocities. *)
Definition fill (memory : Z -> F) (rows : list (list F)) (from : nat) : Z -> F :=
  fun c =>
    if c <? 0 then memory c
    else match nth_error rows (Z.to_nat (c / 3)) with
         | Some row => nth (from + Z.to_nat (c mod 3)) row (memory c)
         | None => memory c
         end.
(** StarPolymers.cu l.285-293, 577-590 and VTFSnapshotFile.cpp l.19-63: the files that are written, and positions and velocities. A new file is not compatible. *)
Definition from_snapshot (structure : StarModel.structure) (path : string) : list (string * string) * result ((Z -> F) * (Z -> F)) :=
  match files path with
  | Some text =>
    ([], do (r, ls) <- VtfModel.open_file cast negative debug text;
         do (rows, rest) <- VtfStarModel.readStateFromSnapshot structure cast r ls;
         Ok match rows with
            | None => (memoryPositions, zeroed structure memoryVelocities)
            | Some rows => (fill memoryPositions rows 0, fill (zeroed structure memoryVelocities) rows 3)
            end)
  | None =>
    if creatable path then ([(path, VtfModel.file_contents show VtfModel.new_writer)], Err InvalidArgumentException)
    else ([], Err IOException)
  end.
(** StarPolymers.cu l.285-298, with l.745-748. *)
Definition initial_state (s : setting F) (structure : StarModel.structure) : outcome (list (string * string) * result ((Z -> F) * (Z -> F))) :=
  next (setting_has F s "initialState") (fun b =>
  if b then next (setting_read_string F negative_as_unsigned s "initialState") (fun path => Done (from_snapshot structure path))
  else if debug && negb (StarModel.starCount structure =? 1) then Fails Unimplemented
  else Done ([], Ok (coordinates memoryPositions (StarModel.initializePositions structure (fun _ => None)),
                     coordinates memoryVelocities (StarModel.initializeVelocities structure (fun _ => None))))).
(** StarPolymers.cu l.193-306: the constructor, with the files it writes; [leesEdwards] is whether the boundary condition is of that kind. *)
Definition constructed (leesEdwards : bool) (s : setting F) : list (string * string) * ended F :=
  if negb leesEdwards then ([], Thrown Unimplemented)
  else match described s with
       | Fails f => ([], Thrown f)
       | Done (dt, structure, mass) =>
         if debug && (3 * StarModel.getParticleCount structure =? 0) then ([], AssertionFailed)
         else match next (read_parameters s) (fun p => next (initial_state s structure) (fun i => Done (p, i))) with
              | Fails f => ([], Thrown f)
              | Done (p, (written, Err e)) => (written, SnapshotError e)
              | Done (p, (written, Ok (x, v))) => (written, Built (Stars dt structure mass (StarModel.createInteractions p) x v))
              end
       end.
End Stp.
