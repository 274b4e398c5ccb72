(** Specification of the configurations of a simulation: which settings there are to be, and what they mean. *)
From Verif Require Import StrBase CfgModel CfgSpec CfgSimModel.
Open Scope list_scope.
Open Scope Z_scope.

Section Spec.
Context {D S_ : Type} (neg : Z -> option Z) (star : setting D -> outcome S_) (multiple : D -> S_ -> bool).
Variable root : setting D.
Definition present (p : list string) : Prop := exists s, reaches root p s.
Definition float_at (p : list string) (d : D) : Prop := reaches root p (Scalar (VFloat d)).
Definition bool_at (p : list string) (b : bool) : Prop := reaches root p (Scalar (VBool b)).
Definition text_at (p : list string) (x : string) : Prop := reaches root p (Scalar (VString x)).
(** A number that is not negative, or what libconfig makes of one that is. *)
Definition unsigned_at (p : list string) (n : Z) : Prop := exists z, reaches root p (Scalar (VInt z)) /\ (0 <= z /\ n = z \/ z < 0 /\ neg z = Some n).

(** The boundary conditions, in the present and in the deprecated form. *)
Inductive boundary_given (rate : D) : Prop :=
| boundary_now : reaches root ["boundaryConditions"%string] (Group [("LeesEdwards", Group [("shearRate", Scalar (VFloat rate))])]%string) -> boundary_given rate
| boundary_deprecated : forall a b, reaches root ["boundaryConditions"%string] (Group [a; b]) ->
    (a, b) = (("type", Scalar (VString "Lees-Edwards")), ("shearRate", Scalar (VFloat rate)))%string \/ (b, a) = (("type", Scalar (VString "Lees-Edwards")), ("shearRate", Scalar (VFloat rate)))%string ->
    boundary_given rate.
(** The distribution of the velocities; [kT] is optional. *)
Definition velocities_given (v : velocities D) : Prop :=
  float_at ["initialization"; "particleVelocityDistribution"; "mean"]%string (vmean D v)
  /\ float_at ["initialization"; "particleVelocityDistribution"; "standardDeviation"]%string (vdeviation D v)
  /\ match vkT D v with Some kT => float_at ["initialization"; "kT"]%string kT | None => absent root ["initialization"; "kT"]%string end.
(** A number of time steps, if streaming is not analytical. *)
Definition steps_given (p : list string) (steps : option Z) : Prop :=
  match steps with
  | Some n => bool_at (p ++ ["analyticalStreaming"%string]) false /\ unsigned_at (p ++ ["mdStepCount"%string]) n
  | None => bool_at (p ++ ["analyticalStreaming"%string]) true
  end.
(** What is to be given for the kinds of fluids, with a number of particles. *)
Definition dumbbells_given (count : Z) (f : fluid D) : Prop :=
  exists len tau steps kT rate, f = FDumbbells len tau steps kT rate /\ Z.even count = true
  /\ float_at ["bulkThermostat"; "targetkT"]%string kT /\ text_at ["bulkThermostat"; "type"]%string "MBS"
  /\ float_at ["boundaryConditions"; "LeesEdwards"; "shearRate"]%string rate
  /\ float_at ["mpc"; "fluid"; "dumbbell"; "rootMeanSquareLength"]%string len /\ float_at ["mpc"; "fluid"; "dumbbell"; "zeroShearRelaxationTime"]%string tau
  /\ steps_given ["mpc"; "fluid"; "dumbbell"]%string steps
  /\ (count = 0 \/ text_at ["initialization"; "dumbbell"; "relativePosition"]%string "relaxed" \/ text_at ["initialization"; "dumbbell"; "relativePosition"]%string "perfect").
Definition chains_given (count : Z) (f : fluid D) : Prop :=
  exists n k steps, f = FChains n k steps /\ n <> 0 /\ (n | count)
  /\ unsigned_at ["mpc"; "fluid"; "gaussianChains"; "particlesPerChain"]%string n /\ float_at ["mpc"; "fluid"; "gaussianChains"; "springConstant"]%string k
  /\ unsigned_at ["mpc"; "fluid"; "gaussianChains"; "mdStepCount"]%string steps.
Definition rods_given (count : Z) (f : fluid D) : Prop :=
  exists len k steps, f = FRods len k steps /\ Z.even count = true
  /\ float_at ["mpc"; "fluid"; "gaussianRods"; "meanBondLength"]%string len /\ float_at ["mpc"; "fluid"; "gaussianRods"; "springConstant"]%string k
  /\ unsigned_at ["mpc"; "fluid"; "gaussianRods"; "mdStepCount"]%string steps.
Definition trimers_given (count : Z) (f : fluid D) : Prop :=
  exists k1 k2 steps, f = FTrimers k1 k2 steps /\ (3 | count)
  /\ float_at ["mpc"; "fluid"; "harmonicTrimers"; "springConstant1"]%string k1 /\ float_at ["mpc"; "fluid"; "harmonicTrimers"; "springConstant2"]%string k2
  /\ steps_given ["mpc"; "fluid"; "harmonicTrimers"]%string steps.
(** Of several fluids, the first in this order counts. *)
Definition kinds : list (string * (Z -> fluid D -> Prop)) :=
  [("simple", fun _ f => f = FSimple); ("dumbbell", dumbbells_given); ("gaussianChains", chains_given); ("gaussianRods", rods_given); ("harmonicTrimers", trimers_given)]%string.
Definition fluid_given (count : Z) (f : fluid D) : Prop :=
  exists before n given after, kinds = before ++ (n, given) :: after /\ (forall k g, In (k, g) before -> absent root ["mpc"; "fluid"; k]%string)
  /\ present ["mpc"; "fluid"; n]%string /\ given count f.
(** No solute, or one that is made of star polymers. *)
Definition solute_given (dt : D) (s : option S_) : Prop :=
  match s with
  | None => absent root ["solute"%string] \/ exists t, reaches root ["solute"%string] t /\ children D t = []
  | Some x => exists g, reaches root ["solute"%string] (Group [("StarPolymers"%string, g)]) /\ star g = Done x /\ multiple dt x = true
  end.
(** A simulation as the configuration describes it; there is fluid if and only if the density is not zero. *)
Definition simulation_given (sim : simulation D S_) : Prop :=
  unsigned_at ["mpc"; "simulationBoxSize"; "x"]%string (boxX _ _ sim) /\ unsigned_at ["mpc"; "simulationBoxSize"; "y"]%string (boxY _ _ sim)
  /\ unsigned_at ["mpc"; "simulationBoxSize"; "z"]%string (boxZ _ _ sim)
  /\ float_at ["mpc"; "timestep"]%string (timestep _ _ sim) /\ float_at ["mpc"; "srdCollisionAngle"]%string (collisionAngle _ _ sim)
  /\ float_at ["mpc"; "gridShiftScale"]%string (gridShiftScale _ _ sim) /\ unsigned_at ["mpc"; "sweepSize"]%string (sweepSize _ _ sim)
  /\ match targetkT _ _ sim with Some kT => float_at ["bulkThermostat"; "targetkT"]%string kT | None => absent root ["bulkThermostat"%string] end
  /\ boundary_given (shearRate _ _ sim)
  /\ (exists density, unsigned_at ["initialization"; "particleDensity"]%string density
      /\ particleCount _ _ sim = density * ((boxX _ _ sim * boxY _ _ sim * boxZ _ _ sim) mod 2 ^ 32) /\ particleCount _ _ sim < 2 ^ 31
      /\ match theFluid _ _ sim with
         | Some (f, v) => fluid_given (particleCount _ _ sim) f /\ velocities_given v /\ density <> 0 /\ particleCount _ _ sim <> 0
         | None => absent root ["mpc"; "fluid"]%string /\ density = 0
         end)
  /\ solute_given (timestep _ _ sim) (theSolute _ _ sim).
End Spec.
