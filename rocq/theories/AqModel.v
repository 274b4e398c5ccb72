(** Model of the analytic predictions for simple fluids: the C++ functions, the Python functions,
    and the script that prints them.  Real numbers stand for floating-point numbers; Python's
    integers are kept apart from them, since Python 2 divides them differently. *)
From Coq Require Import Reals ZArith String List.
From Verif Require Import PyBase.
Import ListNotations.
Open Scope string_scope.
Open Scope list_scope.
Open Scope R_scope.

(** ** src/OpenMPCD/AnalyticQuantities.cpp *)

(** src/OpenMPCD/AnalyticQuantities.cpp l.10-13: meanFreePath. *)
Definition meanFreePath (kT m timestep : R) : R := timestep * sqrt (kT / m).

(** src/OpenMPCD/AnalyticQuantities.cpp l.15-26: kineticContributionsToSRDKinematicShearViscosity. *)
Definition kinetic_kinematic (kT m M srdAngle timestep : R) : R :=
  let factor1 := kT * timestep / (2 * m) in
  let denominator1 := M - 1 + exp (- M) in
  let denominator2 := 2 - cos srdAngle - cos (2 * srdAngle) in
  let factor2 := 5 * M / (denominator1 * denominator2) - 1 in
  factor1 * factor2.

(** src/OpenMPCD/AnalyticQuantities.cpp l.28-38: kineticContributionsToSRDDynamicShearViscosity. *)
Definition kinetic_dynamic (kT m linearCellSize M srdAngle timestep : R) : R :=
  let cellVolume := linearCellSize ^ 3 in
  let particleDensity := M / cellVolume in
  let massDensity := particleDensity * m in
  massDensity * kinetic_kinematic kT m M srdAngle timestep.

(** src/OpenMPCD/AnalyticQuantities.cpp l.40-50:
    collisionalContributionsToSRDKinematicShearViscosity. *)
Definition collisional_kinematic (linearCellSize M srdAngle timestep : R) : R :=
  let factor1 := linearCellSize * linearCellSize / (6 * 3 * timestep) in
  let factor2 := (M - 1 + exp (- M)) / M in
  let factor3 := 1 - cos srdAngle in
  factor1 * factor2 * factor3.

(** src/OpenMPCD/AnalyticQuantities.cpp l.52-62:
    collisionalContributionsToSRDDynamicShearViscosity. *)
Definition collisional_dynamic (m linearCellSize M srdAngle timestep : R) : R :=
  let cellVolume := linearCellSize ^ 3 in
  let particleDensity := M / cellVolume in
  let massDensity := particleDensity * m in
  massDensity * collisional_kinematic linearCellSize M srdAngle timestep.

(** src/OpenMPCD/AnalyticQuantities.cpp l.64-74: SRDKinematicShearViscosity. *)
Definition srd_kinematic (kT m linearCellSize M srdAngle timestep : R) : R :=
  let nu_kin := kinetic_kinematic kT m M srdAngle timestep in
  let nu_col := collisional_kinematic linearCellSize M srdAngle timestep in
  nu_kin + nu_col.

(** src/OpenMPCD/AnalyticQuantities.cpp l.76-86: SRDDynamicShearViscosity. *)
Definition srd_dynamic (kT m linearCellSize M srdAngle timestep : R) : R :=
  let mu_kin := kinetic_dynamic kT m linearCellSize M srdAngle timestep in
  let mu_col := collisional_dynamic m linearCellSize M srdAngle timestep in
  mu_kin + mu_col.

(** src/OpenMPCD/AnalyticQuantities.cpp l.88-97: approximateSelfDiffusionCoefficient. *)
Definition self_diffusion (dimensions : nat) (kT m M srdAngle timestep : R) : R :=
  let factor1 := kT * timestep / (2.0 * m) in
  let term2 := INR dimensions * M / ((1 - cos srdAngle) * (M - 1 + exp (- M))) in
  factor1 * (term2 - 1).

(** src/OpenMPCD/AnalyticQuantities.cpp l.99-103: hydrodynamicRadius. *)
Definition hydrodynamicRadius (kT dynamicStressViscosity selfDiffusionCoefficient : R) : R :=
  kT / (6 * PI * dynamicStressViscosity * selfDiffusionCoefficient).

(** ** Analysis/MPCDAnalysis/AnalyticQuantities_SimpleFluid.py *)

(** Numbers in Python, as they occur in AnalyticQuantities_SimpleFluid.py l.1-45. *)
Inductive pynum := PInt (z : Z) | PFloat (r : R).
(** The value of a number; used for the mixed operations in AnalyticQuantities_SimpleFluid.py
    l.8-45, which convert integers. *)
Definition real (x : pynum) : R := match x with PInt z => IZR z | PFloat r => r end.
(** Addition, as used in AnalyticQuantities_SimpleFluid.py l.9. *)
Definition padd (x y : pynum) : pynum :=
  match x, y with PInt a, PInt b => PInt (a + b) | _, _ => PFloat (real x + real y) end.
(** Subtraction, as used in AnalyticQuantities_SimpleFluid.py l.9-11. *)
Definition psub (x y : pynum) : pynum :=
  match x, y with PInt a, PInt b => PInt (a - b) | _, _ => PFloat (real x - real y) end.
(** Multiplication, as used in AnalyticQuantities_SimpleFluid.py l.8-13. *)
Definition pmul (x y : pynum) : pynum :=
  match x, y with PInt a, PInt b => PInt (a * b) | _, _ => PFloat (real x * real y) end.
(** Negation, as used in AnalyticQuantities_SimpleFluid.py l.9. *)
Definition pneg (x : pynum) : pynum := match x with PInt a => PInt (- a) | PFloat r => PFloat (- r) end.
(** Division, as used in AnalyticQuantities_SimpleFluid.py l.8; the file does not import division
    from __future__ (l.1). *)
Definition pdiv (python3 : bool) (x y : pynum) : result pynum :=
  if Req_EM_T (real y) 0 then Err ZeroDivisionError
  else match x, y with
    | PInt a, PInt b => if python3 then Ok (PFloat (IZR a / IZR b)) else Ok (PInt (a / b))
    | _, _ => Ok (PFloat (real x / real y))
    end.
(** math.exp in AnalyticQuantities_SimpleFluid.py l.9, 32, 43. *)
Definition pexp (x : pynum) : pynum := PFloat (exp (real x)).
(** math.cos in AnalyticQuantities_SimpleFluid.py l.10, 33, 43. *)
Definition pcos (x : pynum) : pynum := PFloat (cos (real x)).

(** AnalyticQuantities_SimpleFluid.py l.3-13: kineticContributionsToSRDKinematicShearViscosity. *)
Definition py_kinetic (python3 : bool) (M kT m mpcTimestep srdAngle : pynum) : result pynum :=
  do factor1 <- pdiv python3 (pmul kT mpcTimestep) (pmul (PInt 2) m);
  let denominator1 := padd (psub M (PInt 1)) (pexp (pneg M)) in
  let denominator2 := psub (psub (PInt 2) (pcos srdAngle)) (pcos (pmul (PInt 2) srdAngle)) in
  do quotient <- pdiv python3 (pmul (PInt 5) M) (pmul denominator1 denominator2);
  let factor2 := psub quotient (PInt 1) in
  Ok (pmul factor1 factor2).

(** AnalyticQuantities_SimpleFluid.py l.15-35:
    collisionalContributionsToSRDKinematicShearViscosity. *)
Definition py_collisional (python3 : bool) (linearCellSize M mpcTimestep srdAngle : pynum) : result pynum :=
  do factor1 <- pdiv python3 (pmul linearCellSize linearCellSize) (pmul (PInt 18) mpcTimestep);
  do factor2 <- pdiv python3 (padd (psub M (PInt 1)) (pexp (pneg M))) M;
  let factor3 := psub (PInt 1) (pcos srdAngle) in
  Ok (pmul (pmul factor1 factor2) factor3).

(** AnalyticQuantities_SimpleFluid.py l.37-45: approximateSelfDiffusionCoefficient. *)
Definition py_self_diffusion (python3 : bool) (M m kT mpcTimestep dimensions srdAngle : pynum) : result pynum :=
  do factor1 <- pdiv python3 (pmul kT mpcTimestep) (pmul (PFloat 2.0) m);
  do term2 <- pdiv python3 (pmul dimensions M)
    (pmul (psub (PInt 1) (pcos srdAngle)) (padd (psub M (PInt 1)) (pexp (pneg M))));
  Ok (pmul factor1 (psub term2 (PInt 1))).

(** ** Analysis/getSRDKinematicShearViscosityPrediction.py *)

(** The options in getSRDKinematicShearViscosityPrediction.py l.10-40, where [None] is an option
    that is not given. *)
Record options := Options { o_kT : option R; o_M : option Z; o_m : option R; o_timestep : option R; o_angle : option R }.
(** A line of output in getSRDKinematicShearViscosityPrediction.py l.50-85: the text, and the
    number printed after it. *)
Inductive line := Text (s : string) | Value (s : string) (x : pynum).
(** How the script getSRDKinematicShearViscosityPrediction.py ends: l.52 exits, l.85 is the end. *)
Inductive ending := Finished | Exit (code : Z) | Raised (e : exc).
(** The default of an option (getSRDKinematicShearViscosityPrediction.py l.15, 21, 27, 33, 39). *)
Definition default (o : option R) (x : pynum) : pynum := match o with Some r => PFloat r | None => x end.
(** The comparison in getSRDKinematicShearViscosityPrediction.py l.50. *)
Definition nonpositive (x : pynum) : bool := if Rle_dec (real x) 0 then true else false.

(** getSRDKinematicShearViscosityPrediction.py l.43-85. *)
Definition prediction_script (python3 : bool) (o : options) : list line * ending :=
  let kT := default (o_kT o) (PInt 1) in
  let M := PInt (match o_M o with Some z => z | None => 10 end)%Z in
  let m := default (o_m o) (PInt 1) in
  let dt := default (o_timestep o) (PFloat 0.1) in
  let a := default (o_angle o) (PFloat 2.27) in
  if nonpositive kT then ([Text "--kT is invalid."], Exit 1)
  else if nonpositive M then ([Text "--meanParticleCountPerCell is invalid."], Exit 1)
  else if nonpositive m then ([Text "--m is invalid."], Exit 1)
  else if nonpositive dt then ([Text "--MPCTimestep is invalid."], Exit 1)
  else if nonpositive a then ([Text "--SRDAngle is invalid."], Exit 1)
  else
    let echo := [Value "kT" kT; Value "meanParticleCountPerCell" M; Value "m" m; Value "MPCTimestep" dt; Value "SRDAngle" a; Text ""] in
    match py_kinetic python3 M kT m dt a with
    | Err e => (echo, Raised e)
    | Ok kinetic =>
      match py_collisional python3 (PInt 1) M dt a with
      | Err e => (echo, Raised e)
      | Ok collisional =>
        (echo ++ [Value "Kinetic Contribution" kinetic; Value "Collisional Contribution" collisional; Value "Total" (padd kinetic collisional)], Finished)
      end
    end.
