(** Boundary conditions, collision cells and the collision step of the simulation:
    [LeesEdwardsBoundaryConditions.cpp]/[.cu], [ImplementationDetails/Simulation.cpp],
    [DeviceCode/Simulation.cu], [CUDA/Simulation.cu].
    Simplifications: exact real arithmetic; the arrays that hold one entry per particle
    are one list of records; arrays with one entry per collision cell are functions of
    the index; the random numbers are parameters. *)
From Coq Require Import List ZArith Bool Reals.
From Verif Require Export VecModel.
Import ListNotations.
Open Scope R_scope.

(** * Lees-Edwards boundary conditions *)

(** [floor] *)
Definition rfloor (x : R) : R := IZR (Int_part x).
(* src/OpenMPCD/LeesEdwardsBoundaryConditions.cpp:6-46: the image and the velocity
   correction *)
Definition le_image (shearRate mpcTime : R) (bx by_ bz : Z) (p : vec) : vec * R :=
  let relativeLayerVelocity := shearRate * IZR by_ in
  let layerDisplacement := relativeLayerVelocity * mpcTime in
  let layerY := rfloor (vy p / IZR by_) in
  let layerZ := rfloor (vz p / IZR bz) in
  let x := vx p - layerY * layerDisplacement in
  let layerX := rfloor (x / IZR bx) in
  (Vec (x - layerX * IZR bx) (vy p - layerY * IZR by_) (vz p - layerZ * IZR bz),
   - layerY * relativeLayerVelocity).
(* cudaDeviceCode/OpenMPCD/CUDA/DeviceCode/LeesEdwardsBoundaryConditions.cu:9-15 *)
Definition le_symbol (shearRate : R) (by_ : Z) : R := shearRate * IZR by_.
(* cudaDeviceCode/OpenMPCD/CUDA/DeviceCode/LeesEdwardsBoundaryConditions.cu:17-87 *)
Definition le_image_device (leesEdwardsRelativeLayerVelocity mpcTime : R) (bx by_ bz : Z) (p : vec) : vec * R :=
  let layerDisplacement := leesEdwardsRelativeLayerVelocity * mpcTime in
  let layerY := rfloor (vy p / IZR by_) in
  let layerZ := rfloor (vz p / IZR bz) in
  let x := vx p - layerY * layerDisplacement in
  let layerX := rfloor (x / IZR bx) in
  (Vec (x - layerX * IZR bx) (vy p - layerY * IZR by_) (vz p - layerZ * IZR bz),
   - layerY * leesEdwardsRelativeLayerVelocity).

(** * Collision cells *)

(** Arithmetic of [unsigned int] (Simulation.cpp:12-34). *)
Definition w32 (z : Z) : Z := (z mod 2 ^ 32)%Z.
(** Product of [unsigned int]s, Simulation.cpp:12-34. *)
Definition wmul (a b : Z) : Z := w32 (a * b).
Definition wadd (a b : Z) : Z := w32 (a + b).
(* src/OpenMPCD/ImplementationDetails/Simulation.cpp:12-34 and
   cudaDeviceCode/OpenMPCD/CUDA/DeviceCode/Simulation.cu:34-53: getCollisionCellIndex;
   the conversion to integers is defined for non-negative coordinates only *)
Definition cell_index (p : vec) (bx by_ : Z) : Z :=
  let cellX := Int_part (vx p) in
  let cellY := Int_part (vy p) in
  let cellZ := Int_part (vz p) in
  wadd (wadd (wmul (wmul cellZ bx) by_) (wmul cellY bx)) cellX.
(* include/OpenMPCD/CUDA/Simulation.hpp:129-135: getCollisionCellCount *)
Definition cell_count (bx by_ bz : Z) : Z := wmul (wmul bx by_) bz.

(** * The collision step *)

(** One particle: the entries of the arrays of positions, velocities, velocity
    corrections and cell indices (DeviceCode/Simulation.cu:75-162). *)
Record part := Part { p_pos : vec; p_vel : vec; p_corr : R; p_idx : Z }.
(** Assignment to the velocity, DeviceCode/Simulation.cu:264-274. *)
Definition with_vel (p : part) (v : vec) : part := Part (p_pos p) v (p_corr p) (p_idx p).
(** The fluid, the solute: the mass of each particle, and the particles (CUDA/Simulation.cu:273-280). *)
Definition species := (R * list part)%type.
(** The configured values, and the grid shift, axes and energies that were drawn (CUDA/Simulation.cu:273-280). *)
Record config := Config {
  shearRate : R; mpcTime : R; boxX : Z; boxY : Z; boxZ : Z; angle : R; targetkT : R;
  gridShift : vec; axes : Z -> vec; drawn : Z -> R }.
(** Assignment to an array element (DeviceCode/Simulation.cu:117-162). *)
Definition upd {A} (f : Z -> A) (i : Z) (v : A) : Z -> A := fun j => if Z.eqb j i then v else f j.

(* ImplementationDetails/Simulation.cpp:36-72, DeviceCode/Simulation.cu:75-115:
   sortIntoCollisionCellsLeesEdwards *)
Definition sort_particle (cf : config) (p : part) : part :=
  let '(image, velocityCorrection) :=
    le_image (shearRate cf) (mpcTime cf) (boxX cf) (boxY cf) (boxZ cf) (vadd (p_pos p) (gridShift cf)) in
  Part (p_pos p) (Vec (vx (p_vel p) + velocityCorrection) (vy (p_vel p)) (vz (p_vel p)))
       velocityCorrection (cell_index image (boxX cf) (boxY cf)).
(** Momenta and masses of the cells. *)
Definition cells := ((Z -> vec) * (Z -> R))%type.
(* ImplementationDetails/Simulation.cpp:74-99, DeviceCode/Simulation.cu:117-162:
   collisionCellContributions *)
Definition contribute (m : R) (PM : cells) (p : part) : cells :=
  (upd (fst PM) (p_idx p) (vadd (fst PM (p_idx p)) (vscale m (p_vel p))),
   upd (snd PM) (p_idx p) (snd PM (p_idx p) + m)).
Definition contributions (PM : cells) (s : species) : cells := fold_left (contribute (fst s)) (snd s) PM.
(* ImplementationDetails/Simulation.cpp:112-129, DeviceCode/Simulation.cu:164-191:
   getCollisionCellCenterOfMassVelocity *)
Definition com_velocity (PM : cells) (c : Z) : vec := vdivs (fst PM c) (snd PM c).
(** Kinetic energies in the frame of the cell, and particle counts. *)
Definition energies := ((Z -> R) * (Z -> nat))%type.
(* ImplementationDetails/Simulation.cpp:131-174, DeviceCode/Simulation.cu:231-275:
   collisionCellStochasticRotationStep1, for one particle *)
Definition step1_particle (cf : config) (PM : cells) (m : R) (p : part) (EN : energies) : part * energies :=
  let c := p_idx p in
  let relativeVelocity := vsub (p_vel p) (com_velocity PM c) in
  (with_vel p (vrotate (axes cf c) (angle cf) relativeVelocity),
   (upd (fst EN) c (fst EN c + m * vmag2 relativeVelocity / 2), upd (snd EN) c (S (snd EN c)))).
Fixpoint step1_list (cf : config) (PM : cells) (m : R) (ps : list part) (EN : energies) : list part * energies :=
  match ps with
  | [] => ([], EN)
  | p :: ps =>
    let '(p', EN1) := step1_particle cf PM m p EN in
    let '(ps', EN2) := step1_list cf PM m ps EN1 in (p' :: ps', EN2)
  end.
(* CUDA/Simulation.cu:339-376: first the fluid, then the solute *)
Fixpoint step1 (cf : config) (PM : cells) (l : list species) (EN : energies) : list species * energies :=
  match l with
  | [] => ([], EN)
  | s :: l =>
    let '(ps, EN1) := step1_list cf PM (fst s) (snd s) EN in
    let '(l', EN2) := step1 cf PM l EN1 in ((fst s, ps) :: l', EN2)
  end.
(* DeviceCode/Simulation.cu:277-311, CUDA/Simulation.cu:200-210, 479-497:
   generateCollisionCellMBSFactors *)
Definition scalings (cf : config) (EN : energies) (c : Z) : R :=
  if Req_EM_T (targetkT cf) 0 then 1
  else if Nat.ltb (snd EN c) 2 then 1
  else if Req_EM_T (fst EN c) 0 then 1
  else sqrt (drawn cf c / fst EN c).
(* ImplementationDetails/Simulation.cpp:176-204, DeviceCode/Simulation.cu:313-367:
   collisionCellStochasticRotationStep2 *)
Definition step2_particle (PM : cells) (s : Z -> R) (p : part) : part :=
  with_vel p (vadd (vscale (s (p_idx p)) (p_vel p)) (com_velocity PM (p_idx p))).
(* ImplementationDetails/Simulation.cpp:206-220, DeviceCode/Simulation.cu:369-408:
   undoLeesEdwardsVelocityCorrections *)
Definition undo_particle (p : part) : part :=
  with_vel p (Vec (vx (p_vel p) - p_corr p) (vy (p_vel p)) (vz (p_vel p))).
Definition each (f : part -> part) (l : list species) : list species :=
  map (fun s => (fst s, map f (snd s))) l.
(* CUDA/Simulation.cu:282-453: the part of [collide] that works *)
Definition collide_all (cf : config) (l : list species) : list species :=
  let l1 := each (sort_particle cf) l in
  let PM := fold_left contributions l1 ((fun _ => Vec 0 0 0), (fun _ => 0)) in
  let '(l2, EN) := step1 cf PM l1 ((fun _ => 0), (fun _ => O)) in
  each undo_particle (each (step2_particle PM (scalings cf EN)) l2).
(* CUDA/Simulation.cu:273-280: collide; the list has the fluid and the solute, or one of
   them *)
Definition collide (cf : config) (l : list species) : list species :=
  match l with
  | [] => l
  | _ =>
    if Req_EM_T (angle cf) 0 then
      if Req_EM_T (targetkT cf) 0 then l else collide_all cf l
    else collide_all cf l
  end.
