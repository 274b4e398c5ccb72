(** What a simulation reads from its configuration when it is constructed: src/OpenMPCD/CUDA/Simulation.cu l.100-239 and the factories and constructors called there.
    Simplifications: the parts of the constructors that do not depend on the configuration (memory, random numbers, symbols on the device), the instruments of the
    fluids and the constructor of star polymers are left out, except that what the latter makes of its group is a parameter, as is whether the time step is a multiple
    of that of the solute. The number of particles, a product of integers, is computed exactly. *)
From Verif Require Import StrBase CuModel CfgModel.
Open Scope list_scope.
Open Scope Z_scope.

(** Statements in sequence (Simulation.cu l.29-31). *)
Definition next {A B} (r : outcome A) (k : A -> outcome B) : outcome B := match r with Done a => k a | Fails f => Fails f end.

(** The fluids, with what is read for them (MPCFluid/Factory.cpp l.23-51). *)
Inductive fluid (D : Type) :=
(** MPCFluid/Simple.cu l.37-39. *)
| FSimple
(** GaussianDumbbells.cu l.76-86: with the time step count unless streaming is analytical, and kT and the shear rate from MPCFluid/Factory.cpp l.28-29. *)
| FDumbbells (length_ relaxationTime : D) (mdStepCount : option Z) (kT shearRate : D)
(** GaussianChains.cu l.57-64. *)
| FChains (particlesPerChain : Z) (springConstant : D) (mdStepCount : Z)
(** GaussianRods.cu l.45-52. *)
| FRods (meanBondLength springConstant : D) (mdStepCount : Z)
(** HarmonicTrimers.cu l.42-53. *)
| FTrimers (springConstant1 springConstant2 : D) (mdStepCount : option Z).
Arguments FSimple {D}.
Arguments FDumbbells {D} _ _ _ _ _.
Arguments FChains {D} _ _ _.
Arguments FRods {D} _ _ _.
Arguments FTrimers {D} _ _ _.
(** How the velocities are drawn (MPCFluid/Base.cu l.195-227): mean, standard deviation and [kT], if that is given. *)
Record velocities (D : Type) := Velocities { vmean : D; vdeviation : D; vkT : option D }.
Arguments Velocities {D} _ _ _.
(** A simulation (Simulation.hpp l.282-298, Simulation.cu l.100-239); [S_] are solutes. *)
Record simulation (D S_ : Type) := Simulation {
  boxX : Z; boxY : Z; boxZ : Z; timestep : D; collisionAngle : D; gridShiftScale : D; targetkT : option D; sweepSize : Z;
  shearRate : D; particleCount : Z; theFluid : option (fluid D * velocities D); theSolute : option S_ }.
Arguments Simulation {D S_} _ _ _ _ _ _ _ _ _ _ _ _.

Section Sim.
Variable D S_ : Type.
(** See CfgModel.v. *)
Variable negative_as_unsigned : Z -> option Z.
(** The constructor of StarPolymers, called in MPCSolute/Factory.cpp l.33-37. *)
Variable star_polymers : setting D -> outcome S_.
(** Simulation.cu l.219-222: whether the time step is a multiple of the one of the solute. *)
Variable multiple : D -> S_ -> bool.

(** Reading a floating-point number (Configuration.hpp l.537-555). *)
Definition read_float (root : setting D) (name : string) : outcome D :=
  next (read D negative_as_unsigned TFloat root name) (fun v => match v with VFloat d => Done d | _ => Fails InvalidConfiguration end).
(** Reading an [unsigned int] (Configuration.hpp l.537-555). *)
Definition read_unsigned (root : setting D) (name : string) : outcome Z :=
  next (read D negative_as_unsigned TUnsigned root name) (fun v => match v with VInt z => Done z | _ => Fails InvalidConfiguration end).
(** Reading a [bool] (Configuration.hpp l.537-555). *)
Definition read_bool (root : setting D) (name : string) : outcome bool :=
  next (read D negative_as_unsigned TBool root name) (fun v => match v with VBool b => Done b | _ => Fails InvalidConfiguration end).
(** Reading from a group (Configuration.hpp l.130-182): a floating-point number. *)
Definition setting_read_float (s : setting D) (name : string) : outcome D :=
  next (setting_read D negative_as_unsigned TFloat s name) (fun v => match v with VFloat d => Done d | _ => Fails InvalidConfiguration end).
(** Reading from a group (Configuration.hpp l.130-182): a text. *)
Definition setting_read_string (s : setting D) (name : string) : outcome string :=
  next (setting_read D negative_as_unsigned TString s name) (fun v => match v with VString x => Done x | _ => Fails InvalidConfiguration end).

(** BoundaryCondition/LeesEdwards.cu l.12-31: the shear rate. *)
Definition leesEdwards (config : setting D) : outcome D :=
  if negb (Nat.eqb (getChildCount D config) 1) then Fails InvalidConfiguration else setting_read_float config "shearRate".
(** BoundaryCondition/Factory.cpp l.14-66. *)
Definition boundary (config : setting D) : outcome D :=
  if Nat.eqb (getChildCount D config) 0 then Fails InvalidConfiguration
  else if Nat.eqb (getChildCount D config) 2 then
    next (setting_read_string config "type") (fun type =>
    if negb (String.eqb type "Lees-Edwards") then Fails InvalidConfiguration
    else
      next (setting_has D config "shearRate") (fun b =>
      if negb b then Fails InvalidConfiguration
      else
        next (setting_read_float config "shearRate") (fun rate =>
        match set D false (Group []) "LeesEdwards.shearRate" (VFloat rate) with
        | (_, Some f) => Fails f
        | (newConfig, None) => next (getSetting D newConfig "LeesEdwards") leesEdwards
        end)))
  else if negb (Nat.eqb (getChildCount D config) 1) then Fails InvalidConfiguration
  else
    next (setting_has D config "LeesEdwards") (fun b =>
    if b then next (setting_getSetting D config "LeesEdwards") leesEdwards else Fails InvalidConfiguration).
(** BoundaryCondition/LeesEdwards.cu l.17-18, 33-36: the volume, an [unsigned int]. *)
Definition volume (x y z : Z) : Z := u32 (u32 (x * y) * z).
(** Simulation.cu l.137-141: [boost::math::iround] throws if the result is not an [int]. *)
Definition particle_count (density volume : Z) : outcome Z :=
  if 2 ^ 31 - 1 <? density * volume then Fails GeneralException else Done (density * volume).

(** MPCFluid/Base.cu l.193-227. *)
Definition read_velocities (root : setting D) : outcome (velocities D) :=
  next (read_float root "initialization.particleVelocityDistribution.mean") (fun mean =>
  next (read_float root "initialization.particleVelocityDistribution.standardDeviation") (fun deviation =>
  if has D root "initialization.kT" then next (read_float root "initialization.kT") (fun kT => Done (Velocities mean deviation (Some kT)))
  else Done (Velocities mean deviation None))).
(** The number of time steps, which is read unless streaming is analytical (GaussianDumbbells.cu l.84-85, HarmonicTrimers.cu l.51-52). *)
Definition md_steps (root : setting D) (analytical : bool) (name : string) : outcome (option Z) :=
  if analytical then Done None else next (read_unsigned root name) (fun n => Done (Some n)).
(** GaussianDumbbells.cu l.155-187: the text is only needed if there are particles. *)
Definition relative_position (root : setting D) (count : Z) : outcome unit :=
  if count =? 0 then Done tt
  else next (read D negative_as_unsigned TString root "initialization.dumbbell.relativePosition") (fun v =>
       match v with
       | VString x => if String.eqb x "relaxed" || String.eqb x "perfect" then Done tt else Fails InvalidConfiguration
       | _ => Fails InvalidConfiguration
       end).
(** GaussianDumbbells.cu l.16-86, 116-121, and MPCFluid/Factory.cpp l.26-34. *)
Definition dumbbells (root : setting D) (count : Z) : outcome (fluid D * velocities D) :=
  next (read_float root "bulkThermostat.targetkT") (fun kT =>
  next (read_float root "boundaryConditions.LeesEdwards.shearRate") (fun rate =>
  if negb (count mod 2 =? 0) then Fails InvalidConfiguration
  else
    next (read_bool root "mpc.fluid.dumbbell.analyticalStreaming") (fun analytical =>
    next (read_float root "mpc.fluid.dumbbell.rootMeanSquareLength") (fun len =>
    next (read_float root "mpc.fluid.dumbbell.zeroShearRelaxationTime") (fun tau =>
    next (md_steps root analytical "mpc.fluid.dumbbell.mdStepCount") (fun steps =>
    next (read_velocities root) (fun vel =>
    next (relative_position root count) (fun _ =>
    match assertValue D negative_as_unsigned (fun a b => match a, b with VString x, VString y => String.eqb x y | _, _ => false end) TString root "bulkThermostat.type" (VString "MBS") with
    | Some f => Fails f
    | None => Done (FDumbbells len tau steps kT rate, vel)
    end)))))))).
(** GaussianChains.cu l.15-64, 84-86. *)
Definition chains (root : setting D) (count : Z) : outcome (fluid D * velocities D) :=
  next (read_unsigned root "mpc.fluid.gaussianChains.particlesPerChain") (fun n =>
  next (read_float root "mpc.fluid.gaussianChains.springConstant") (fun k =>
  next (read_unsigned root "mpc.fluid.gaussianChains.mdStepCount") (fun steps =>
  if n =? 0 then Fails InvalidConfiguration
  else if negb (count mod n =? 0) then Fails InvalidConfiguration
  else next (read_velocities root) (fun vel => Done (FChains n k steps, vel))))).
(** GaussianRods.cu l.15-52, 71-73. *)
Definition rods (root : setting D) (count : Z) : outcome (fluid D * velocities D) :=
  if negb (count mod 2 =? 0) then Fails InvalidConfiguration
  else
    next (read_float root "mpc.fluid.gaussianRods.meanBondLength") (fun len =>
    next (read_float root "mpc.fluid.gaussianRods.springConstant") (fun k =>
    next (read_unsigned root "mpc.fluid.gaussianRods.mdStepCount") (fun steps =>
    next (read_velocities root) (fun vel => Done (FRods len k steps, vel))))).
(** HarmonicTrimers.cu l.12-53, 79-81. *)
Definition trimers (root : setting D) (count : Z) : outcome (fluid D * velocities D) :=
  if negb (count mod 3 =? 0) then Fails InvalidConfiguration
  else
    next (read_float root "mpc.fluid.harmonicTrimers.springConstant1") (fun k1 =>
    next (read_float root "mpc.fluid.harmonicTrimers.springConstant2") (fun k2 =>
    next (read_bool root "mpc.fluid.harmonicTrimers.analyticalStreaming") (fun analytical =>
    next (md_steps root analytical "mpc.fluid.harmonicTrimers.mdStepCount") (fun steps =>
    next (read_velocities root) (fun vel => Done (FTrimers k1 k2 steps, vel)))))).
(** MPCFluid/Factory.cpp l.13-52. *)
Definition make_fluid (root : setting D) (count : Z) : outcome (option (fluid D * velocities D)) :=
  next (read_float root "mpc.timestep") (fun _ =>
  if negb (has D root "mpc.fluid") then Done None
  else if has D root "mpc.fluid.simple" then next (read_velocities root) (fun vel => Done (Some (FSimple, vel)))
  else if has D root "mpc.fluid.dumbbell" then next (dumbbells root count) (fun f => Done (Some f))
  else if has D root "mpc.fluid.gaussianChains" then next (chains root count) (fun f => Done (Some f))
  else if has D root "mpc.fluid.gaussianRods" then next (rods root count) (fun f => Done (Some f))
  else if has D root "mpc.fluid.harmonicTrimers" then next (trimers root count) (fun f => Done (Some f))
  else Fails InvalidConfiguration).
(** MPCSolute/Factory.cpp l.10-41. *)
Definition make_solute (root : setting D) : outcome (option S_) :=
  if negb (has D root "solute") then Done None
  else
    next (getSetting D root "solute") (fun soluteGroup =>
    if Nat.eqb (getChildCount D soluteGroup) 0 then Done None
    else if negb (Nat.eqb (getChildCount D soluteGroup) 1) then Fails Unimplemented
    else
      next (setting_has D soluteGroup "StarPolymers") (fun b =>
      if b then next (setting_getSetting D soluteGroup "StarPolymers") (fun g => next (star_polymers g) (fun s => Done (Some s)))
      else Fails Unimplemented)).
(** Simulation.cu l.100-239. *)
Definition construct (root : setting D) : outcome (simulation D S_) :=
  next (read_unsigned root "mpc.simulationBoxSize.x") (fun x =>
  next (read_unsigned root "mpc.simulationBoxSize.y") (fun y =>
  next (read_unsigned root "mpc.simulationBoxSize.z") (fun z =>
  next (read_float root "mpc.timestep") (fun dt =>
  next (read_float root "mpc.srdCollisionAngle") (fun angle =>
  next (read_float root "mpc.gridShiftScale") (fun shift =>
  next (if has D root "bulkThermostat" then next (read_float root "bulkThermostat.targetkT") (fun kT => Done (Some kT)) else Done None) (fun kT =>
  next (read_unsigned root "mpc.sweepSize") (fun sweep =>
  next (read_unsigned root "initialization.particleDensity") (fun density =>
  if negb (has D root "boundaryConditions") then Fails InvalidConfiguration
  else
    next (next (getSetting D root "boundaryConditions") boundary) (fun rate =>
    next (particle_count density (volume x y z)) (fun count =>
    next (make_fluid root count) (fun f =>
    next (match f with
          | Some _ => if density =? 0 then Fails InvalidConfiguration else if count =? 0 then Fails InvalidConfiguration else Done tt
          | None => if negb (density =? 0) then Fails InvalidConfiguration else Done tt
          end) (fun _ =>
    next (make_solute root) (fun s =>
    match s with
    | Some s => if multiple dt s then Done (Simulation x y z dt angle shift kT sweep rate count f (Some s)) else Fails InvalidConfiguration
    | None => Done (Simulation x y z dt angle shift kT sweep rate count f None)
    end)))))))))))))).
(** HarmonicTrimers.cu l.55-60: streaming; only that the analytical one throws. *)
Definition stream_trimers (f : fluid D) : outcome unit := match f with FTrimers _ _ None => Fails Unimplemented | _ => Done tt end.
End Sim.
