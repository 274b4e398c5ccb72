(** The instruments of a simulation: src/OpenMPCD/CUDA/Instrumentation.cpp, with the histogram, density profile and flow profile that it fills.
    Simplifications: numbers are exact; the square root in the magnitude of a velocity, the instruments of the fluid and of the solute, clock, names of host and
    device and the contents of the data files are parameters; products of box sizes and subdivisions do not wrap around. *)
From Coq Require Import Qround.
From Verif Require Import QcBase StrBase PyBase CuModel CfgModel CfgSimModel OtfsModel FlowModel MeasModel.
Open Scope string_scope.
Open Scope list_scope.
Open Scope Qc_scope.

(** [floor] (LeesEdwardsBoundaryConditions.cpp l.21-28). *)
Definition qfloor (x : Qc) : Qc := qz (Qfloor (this x)).
(** src/OpenMPCD/LeesEdwardsBoundaryConditions.cpp l.6-46: the image, and the velocity correction. *)
Definition image_under (position : vec) (mpcTime shearRate : Qc) (box : cell) : vec * Qc :=
  let '(simBoxX, simBoxY, simBoxZ) := box in
  let '(x, y, z) := position in
  let relativeLayerVelocity := shearRate * qn simBoxY in
  let layerDisplacement := relativeLayerVelocity * mpcTime in
  let layerY := qfloor (y / qn simBoxY) in
  let layerZ := qfloor (z / qn simBoxZ) in
  let x := x - layerY * layerDisplacement in
  let layerX := qfloor (x / qn simBoxX) in
  ((x - layerX * qn simBoxX, y - layerY * qn simBoxY, z - layerZ * qn simBoxZ), - layerY * relativeLayerVelocity).

(** Instrumentation.hpp l.90-117: the instruments, how often those of the fluid and the solute have been told to measure, and [measurementCount].
    The graph of the total velocity is never created (Instrumentation.cpp l.18-102). *)
Record instruments := Instruments {
  velocityMagnitudeHistogram : option hist; densityProfile : option dens; flowProfile : option cfp;
  fluidMeasurements : nat; soluteMeasurements : nat; measurementCount : nat }.
(** Instrumentation.cpp l.21-28: no instruments. *)
Definition nothing : instruments := Instruments None None None 0 0 0.

(** A fluid (MPCFluid/Base.hpp): mass, and position and velocity of the particles, as fetched in Instrumentation.cpp l.201-218. *)
Record fluid_state := FluidState { particleMass : Qc; particles : list (vec * vec) }.
(** What is asked of the simulation (Instrumentation.cpp l.177-289): the fluid if there is one, the shear rate if the boundary conditions are those of Lees and
    Edwards, the box, the time, and whether there is a solute with instruments. *)
Record sim_state := SimState { mpcFluid : option fluid_state; shearRate_ : option Qc; box_ : cell; mpcTime_ : Qc; measuredSolute : bool }.

Section Constructor.
(** See CfgModel.v. *)
Variable negative_as_unsigned : Z -> option Z.

(** src/OpenMPCD/Histogram.cpp l.9-19. *)
Definition histogram_from (name : string) (conf : setting Qc) : outcome hist :=
  next (read_unsigned Qc negative_as_unsigned conf ("instrumentation." ++ name ++ ".binCount")%string) (fun binCount =>
  next (read_float Qc negative_as_unsigned conf ("instrumentation." ++ name ++ ".low")%string) (fun lowEnd =>
  next (read_float Qc negative_as_unsigned conf ("instrumentation." ++ name ++ ".high")%string) (fun highEnd =>
  Done (hist_new lowEnd highEnd (Z.to_nat binCount))))).
(** Reading an [unsigned int] from a group (Configuration.hpp l.130-182). *)
Definition setting_read_unsigned (s : setting Qc) (name : string) : outcome nat :=
  next (setting_read Qc negative_as_unsigned TUnsigned s name) (fun v => match v with VInt z => Done (Z.to_nat z) | _ => Fails InvalidConfiguration end).
(** DensityProfile.cpp l.24-29 and FlowProfile.cpp l.31-36: the numbers of subdivisions. *)
Definition subdivisions (settings : setting Qc) : outcome cell :=
  next (setting_has Qc settings "cellSubdivision") (fun given =>
  if given : bool then
    next (setting_read_unsigned settings "cellSubdivision.x") (fun x =>
    next (setting_read_unsigned settings "cellSubdivision.y") (fun y =>
    next (setting_read_unsigned settings "cellSubdivision.z") (fun z => Done (x, y, z))))
  else Done (1, 1, 1)%nat).
(** An exception that is thrown in a constructor (DensityProfile.cpp l.31-36, FlowProfile.cpp l.42-47). *)
Definition thrown {A} (r : result A) : outcome A := match r with Ok a => Done a | Err _ => Fails InvalidConfiguration end.
(** DensityProfile.cpp l.9-45. *)
Definition density_from (box : cell) (settings : setting Qc) : outcome dens :=
  next (subdivisions settings) (fun subs => thrown (dens_new box subs)).
(** FlowProfile.cpp l.12-48. *)
Definition flow_from (box : cell) (settings : setting Qc) : outcome cfp :=
  next (subdivisions settings) (fun subs =>
  next (setting_has Qc settings "sweepCountPerOutput") (fun given =>
  next (if given : bool then setting_read_unsigned settings "sweepCountPerOutput" else Done 0%nat) (fun per =>
  thrown (cfp_new box subs per)))).

(** Instrumentation.cpp l.37-61. *)
Definition knownSettings : list string :=
  ["velocityMagnitudeHistogram"; "densityProfile"; "flowProfile";
   "dumbbellBondLengthHistogram"; "dumbbellBondLengthSquaredHistogram"; "dumbbellBondXHistogram"; "dumbbellBondYHistogram"; "dumbbellBondZHistogram";
   "dumbbellBondXXHistogram"; "dumbbellBondYYHistogram"; "dumbbellBondZZHistogram"; "dumbbellBondXYHistogram";
   "dumbbellBondAngleWithFlowDirectionHistogram"; "dumbbellBondXYAngleWithFlowDirectionHistogram"; "fourierTransformedVelocity"; "gaussianChains";
   "gaussianRods"; "harmonicTrimers"; "logicalEntityMeanSquareDisplacement"; "normalModeAutocorrelation"; "selfDiffusionCoefficient";
   "velocityAutocorrelation"].
(** Instrumentation.cpp l.78-101: an instrument that is created if there is a setting for it. *)
Definition if_set {A} (setting_ : setting Qc) (name : string) (make : outcome A) : outcome (option A) :=
  next (setting_has Qc setting_ name) (fun b => if b : bool then next make (fun a => Done (Some a)) else Done None).
(** Instrumentation.cpp l.18-102; [hasMPCFluid] and [box] are those of the simulation. *)
Definition construct (config : setting Qc) (hasMPCFluid : bool) (box : cell) : outcome instruments :=
  if negb (has Qc config "instrumentation") then Done nothing else
  next (getSetting Qc config "instrumentation") (fun setting_ =>
  next (childrenHaveNamesInCollection Qc setting_ knownSettings "") (fun r =>
  if negb (fst r) then Fails InvalidConfiguration else
  if negb hasMPCFluid then Done nothing else
  next (if_set setting_ "velocityMagnitudeHistogram" (histogram_from "velocityMagnitudeHistogram" config)) (fun h =>
  next (if_set setting_ "densityProfile" (next (setting_getSetting Qc setting_ "densityProfile") (density_from box))) (fun d =>
  next (if_set setting_ "flowProfile" (next (setting_getSetting Qc setting_ "flowProfile") (flow_from box))) (fun f =>
  Done (Instruments h d f 0 0 0)))))).
End Constructor.

Section Measure.
(** The magnitude of a velocity (called in Instrumentation.cpp l.220). *)
Variable magnitude : vec -> Qc.

(** [static_cast<std::size_t>] of the coordinates of an image times the subdivisions (Instrumentation.cpp l.235-243, 250-258). *)
Definition cell_of (image : vec) (subs : cell) : cell :=
  let '(x, y, z) := image in let '(sx, sy, sz) := subs in
  (trunc (x * qn sx), trunc (y * qn sy), trunc (z * qn sz)).
(** An instrument that is used if it exists (Instrumentation.cpp l.216, 233, 248). *)
Definition on {A} (o : option A) (f : A -> result A) : result (option A) :=
  match o with None => Ok None | Some a => do a' <- f a; Ok (Some a') end.
(** Instrumentation.cpp l.211-263: the body of the loop. *)
Definition measure_particle (s : sim_state) (shearRate mass : Qc) (m : instruments) (p : vec * vec) : result instruments :=
  let '(position, velocity) := p in
  do h <- on (velocityMagnitudeHistogram m) (fun h => hist_fill h (magnitude velocity));
  let '(image, velocityCorrection) := image_under position (mpcTime_ s) shearRate (box_ s) in
  let '(vx, vy, vz) := velocity in
  let correctedVelocity := (vx + velocityCorrection, vy, vz) in
  do d <- on (densityProfile m) (fun d => dens_op d (DMass (cell_of image (d_subs d)) mass));
  do f <- on (flowProfile m) (fun f => cfp_add f (cell_of image (c_subs f)) correctedVelocity);
  Ok (Instruments h d f (fluidMeasurements m) (soluteMeasurements m) (measurementCount m)).
(** Instrumentation.cpp l.177-276. *)
Definition measureMPCFluid (s : sim_state) (m : instruments) : result instruments :=
  match mpcFluid s with
  | None => Ok m
  | Some fluid =>
    match shearRate_ s with
    | None => Err UnimplementedException
    | Some shearRate =>
      let m1 := Instruments (velocityMagnitudeHistogram m) (densityProfile m) (option_map newSweep (flowProfile m))
                  (fluidMeasurements m) (soluteMeasurements m) (measurementCount m) in
      do m2 <- fold_res (measure_particle s shearRate (particleMass fluid)) (particles fluid) m1;
      do d <- on (densityProfile m2) (fun d => dens_op d DFill);
      Ok (Instruments (velocityMagnitudeHistogram m2) d (flowProfile m2) (Datatypes.S (fluidMeasurements m2)) (soluteMeasurements m2) (measurementCount m2))
    end
  end.
(** Instrumentation.cpp l.278-289. *)
Definition measureMPCSolute (s : sim_state) (m : instruments) : instruments :=
  if measuredSolute s
  then Instruments (velocityMagnitudeHistogram m) (densityProfile m) (flowProfile m) (fluidMeasurements m) (Datatypes.S (soluteMeasurements m)) (measurementCount m)
  else m.
(** Instrumentation.cpp l.110-118. *)
Definition measure (m : instruments) (s : sim_state) : result instruments :=
  do m1 <- measureMPCFluid s m;
  let m2 := measureMPCSolute s m1 in
  Ok (Instruments (velocityMagnitudeHistogram m2) (densityProfile m2) (flowProfile m2) (fluidMeasurements m2) (soluteMeasurements m2)
        (Datatypes.S (measurementCount m2))).
(** The calls in the course of a simulation (Instrumentation.cpp l.110-118). *)
Definition measure_all (m : instruments) (l : list sim_state) : result instruments := fold_res measure l m.
End Measure.

Section Save.
(** The contents of the files of the instruments (called in Instrumentation.cpp l.122-133). *)
Variables (histogram_text : hist -> string) (density_text : dens -> string) (flow_text : cfp -> string).
(** Printing of integers (Instrumentation.cpp l.153, 295). *)
Variable show : Z -> string.
(** Double quotes, and the end of a line (Instrumentation.cpp l.153-167). *)
Definition quote : string := String (ascii_of_nat 34) EmptyString.
(** See [quote] (Instrumentation.cpp l.153-167). *)
Definition line_end : string := String (ascii_of_nat 10) EmptyString.
(** Instrumentation.cpp l.151-167: the text of the metadata. *)
Definition metadata (sweeps : Z) (host device started ended : string) : string :=
  ("numberOfCompletedSweeps: " ++ show sweeps ++ line_end ++ "executingHost: " ++ quote ++ host ++ quote ++ line_end
  ++ "DefaultCUDADevicePCIAddress: " ++ quote ++ device ++ quote ++ line_end ++ "startTimeUTC: " ++ quote ++ started ++ quote ++ line_end
  ++ "endTimeUTC: " ++ quote ++ ended ++ quote ++ line_end)%string.
(** A file that is written if there is such an instrument (Instrumentation.cpp l.122-133). *)
Definition file_if {A} (o : option A) (name : string) (text : A -> string) : list (string * string) :=
  match o with Some a => [(name, text a)] | None => [] end.
(** Instrumentation.cpp l.291-312: the files written, with their contents. *)
Definition saveStaticData (rngSeed : Z) (gitRevision config_text : string) (exists_ : string -> bool) (rundir : string) : list (string * string) :=
  [((rundir ++ "/rngSeed.txt")%string, show rngSeed)]
  ++ (if negb (exists_ (rundir ++ "/config.txt")%string) then [((rundir ++ "/config.txt")%string, config_text)] else [])
  ++ (if negb (String.eqb gitRevision "") then [((rundir ++ "/git-revision")%string, gitRevision)] else []).
(** Instrumentation.cpp l.120-175: the files written, in this order; [fluid] and [solute] are those of the instruments of the fluid and the solute, if there are such. *)
Definition save (m : instruments) (fluid solute : option (string -> list (string * string))) (sweeps : Z) (host device started ended : string)
  (rngSeed : Z) (gitRevision config_text : string) (exists_ : string -> bool) (rundir : string) : list (string * string) :=
  file_if (velocityMagnitudeHistogram m) (rundir ++ "/velocityMagnitudeHistogram.data")%string histogram_text
  ++ file_if (densityProfile m) (rundir ++ "/densityProfile.data")%string density_text
  ++ file_if (flowProfile m) (rundir ++ "/flowProfile.data")%string flow_text
  ++ match fluid with Some f => f rundir | None => [] end
  ++ match solute with Some f => f rundir | None => [] end
  ++ [((rundir ++ "/metadata.txt")%string, metadata sweeps host device started ended)]
  ++ saveStaticData rngSeed gitRevision config_text exists_ rundir.
(** Instrumentation.cpp l.104-108 and Instrumentation.hpp l.51-60: at destruction, [autosave] being the directory that has been set, if any. *)
Definition destruct_ (autosave : option string) (files : string -> list (string * string)) : list (string * string) :=
  match autosave with Some rundir => files rundir | None => [] end.
End Save.
