(** The measurements that are specific to the kinds of fluids (CUDA/MPCFluid/Instrumentation: HarmonicTrimers.cpp, GaussianDumbbells.cpp,
    GaussianRods.cpp, GaussianChains.cpp). Histograms and graphs are represented by the values they are given, together with
    the file they are saved to; what histograms do with them is modelled in MeasModel.v.
    Simplifications: exact arithmetic; numbers of particles do not overflow; positions are those last copied to the host. *)
From Coq Require Import List ZArith Bool Reals String.
From Verif Require Import PyBase StrBase VecBase VecModel.
Import ListNotations.
Open Scope R_scope.
Open Scope list_scope.

(** Positions by particle (CUDA/MPCFluid/Instrumentation/HarmonicTrimers.cpp l.52-54). *)
Definition particles := nat -> vec.
(** The values given to histograms, by the name of the file they are saved to (CUDA/MPCFluid/Instrumentation/HarmonicTrimers.cpp l.59-91, l.134-156). *)
Definition fills := list (string * R).
(** CUDA/MPCFluid/Instrumentation/HarmonicTrimers.cpp l.48, CUDA/MPCFluid/Instrumentation/GaussianDumbbells.cpp l.35. *)
Definition flowDirection : vec := Vec 1 0 0.
(** [for(i = 0; i < count; i += step)] (CUDA/MPCFluid/Instrumentation/HarmonicTrimers.cpp l.50): the values of [i]. *)
Definition every_nth (step count : nat) : list nat := map (fun k => (step * k)%nat) (seq 0 ((count + (step - 1)) / step)).

(** CUDA/MPCFluid/Instrumentation/HarmonicTrimers.cpp l.52-91: the body of the loop. *)
Definition trimer_fills (x : particles) (i : nat) : fills :=
  let r_1 := x (i + 0)%nat in
  let r_2 := x (i + 1)%nat in
  let r_3 := x (i + 2)%nat in
  let R_1 := vsub r_2 r_1 in
  let R_2 := vsub r_3 r_2 in
  let xx1 := vx R_1 * vx R_1 in
  let yy1 := vy R_1 * vy R_1 in
  let zz1 := vz R_1 * vz R_1 in
  let xy1 := vx R_1 * vy R_1 in
  let xx2 := vx R_2 * vx R_2 in
  let yy2 := vy R_2 * vy R_2 in
  let zz2 := vz R_2 * vz R_2 in
  let xy2 := vx R_1 * vy R_2 in
  let R_1_xy := Vec (vx R_1) (vy R_1) 0 in
  let R_2_xy := Vec (vx R_2) (vy R_2) 0 in
  [("harmonicTrimers/bond1/lengthHistogram.data", vmag R_1); ("harmonicTrimers/bond2/lengthHistogram.data", vmag R_2);
   ("harmonicTrimers/bond1/lengthSquaredHistogram.data", vmag2 R_1); ("harmonicTrimers/bond2/lengthSquaredHistogram.data", vmag2 R_2);
   ("harmonicTrimers/bond1/XXHistogram.data", xx1); ("harmonicTrimers/bond2/XXHistogram.data", xx2);
   ("harmonicTrimers/bond1/YYHistogram.data", yy1); ("harmonicTrimers/bond2/YYHistogram.data", yy2);
   ("harmonicTrimers/bond1/ZZHistogram.data", zz1); ("harmonicTrimers/bond2/ZZHistogram.data", zz2);
   ("harmonicTrimers/bond1/XYHistogram.data", xy1); ("harmonicTrimers/bond2/XYHistogram.data", xy2);
   ("harmonicTrimers/bond1/angleWithFlowDirectionHistogram.data", vangle R_1_xy flowDirection);
   ("harmonicTrimers/bond2/angleWithFlowDirectionHistogram.data", vangle R_2_xy flowDirection)]%string.
(** CUDA/MPCFluid/Instrumentation/HarmonicTrimers.cpp l.50-92. *)
Definition trimers_fills (x : particles) (particleCount : nat) : fills :=
  flat_map (trimer_fills x) (every_nth 3 particleCount).
(** CUDA/MPCFluid/Instrumentation/HarmonicTrimers.cpp l.161-175. *)
Definition getTrimerCenterOfMass (x : particles) (trimerID : nat) : vec :=
  let particle1ID := (trimerID * 3)%nat in
  vdivs (vadd (vadd (x (particle1ID + 0)%nat) (x (particle1ID + 1)%nat)) (x (particle1ID + 2)%nat)) 3.
(** The members [trimerCenterOfMassesSnapshot], [trimerCenterOfMassesSnapshotTime] and [selfDiffusionCoefficients]
    (OpenMPCD/CUDA/MPCFluid/Instrumentation/HarmonicTrimers.hpp l.106-112). *)
Record diffusion := Diffusion { snapshot : list vec; snapshotTime : R; coefficients : list (R * R) }.
(** CUDA/MPCFluid/Instrumentation/HarmonicTrimers.cpp l.36. *)
Definition diffusion_new : diffusion := Diffusion [] (-1) [].
(** [x < y] (CUDA/MPCFluid/Instrumentation/HarmonicTrimers.cpp l.97). *)
Definition rless (x y : R) : bool := if Rlt_dec x y then true else false.
(** CUDA/MPCFluid/Instrumentation/HarmonicTrimers.cpp l.95-129; [time] is the MPC time, [measurementTime] the configured time. *)
Definition measure_diffusion (measurementTime : R) (trimerCount : nat) (time : R) (x : particles) (d : diffusion) : diffusion :=
  let centres := map (getTrimerCenterOfMass x) (seq 0 trimerCount) in
  let d := if rless (snapshotTime d) 0 then Diffusion (snapshot d ++ centres) time (coefficients d) else d in
  let timeSinceLastCenterOfMassSnapshot := time - snapshotTime d in
  if rless timeSinceLastCenterOfMassSnapshot measurementTime then d
  else
    let accumulatedSquares :=
      fold_left (fun s i => s + vmag2 (vsub (nth i centres (Vec 0 0 0)) (nth i (snapshot d) (Vec 0 0 0)))) (seq 0 trimerCount) 0 in
    Diffusion (centres ++ skipn trimerCount (snapshot d)) time
      (coefficients d ++ [(snapshotTime d, accumulatedSquares / (6 * timeSinceLastCenterOfMassSnapshot * INR trimerCount))]).
(** CUDA/MPCFluid/Instrumentation/HarmonicTrimers.cpp l.46-130, called at each of the given times with the positions at that time. *)
Definition measure_diffusion_all (measurementTime : R) (trimerCount : nat) (l : list (R * particles)) : diffusion :=
  fold_left (fun d c => measure_diffusion measurementTime trimerCount (fst c) (snd c) d) l diffusion_new.

(** CUDA/MPCFluid/Instrumentation/GaussianDumbbells.cpp l.42-70, l.85-103: the body of the loop. *)
Definition dumbbell_fills (x : particles) (i : nat) : fills :=
  let r_1 := x i in
  let r_2 := x (i + 1)%nat in
  let B := vsub r_2 r_1 in
  let bondXX := vx B * vx B in
  let bondYY := vy B * vy B in
  let bondZZ := vz B * vz B in
  let R_xy := Vec (vx B) (vy B) 0 in
  [("dumbbellBondLengthHistogram.data", vmag B); ("dumbbellBondLengthSquaredHistogram.data", vmag2 B);
   ("dumbbellBondXHistogram.data", vx B); ("dumbbellBondYHistogram.data", vy B); ("dumbbellBondZHistogram.data", vz B);
   ("dumbbellBondXXHistogram.data", bondXX); ("dumbbellBondYYHistogram.data", bondYY); ("dumbbellBondZZHistogram.data", bondZZ);
   ("dumbbellBondXYHistogram.data", vx B * vy B);
   ("dumbbellBondAngleWithFlowDirectionHistogram.data", vangle B flowDirection);
   ("dumbbellBondXYAngleWithFlowDirectionHistogram.data", vangle R_xy flowDirection)]%string.
(** CUDA/MPCFluid/Instrumentation/GaussianDumbbells.cpp l.40-71. *)
Definition dumbbells_fills (x : particles) (particleCount : nat) : fills :=
  flat_map (dumbbell_fills x) (every_nth 2 particleCount).
(** CUDA/MPCFluid/Instrumentation/GaussianDumbbells.cpp l.37-39, l.54-66, l.73-80, l.98-100: the values added to the graphs, at the current time. *)
Definition dumbbells_points (x : particles) (particleCount : nat) : fills :=
  let sum (f : vec -> R) := fold_left (fun s i => s + f (vsub (x (i + 1)%nat) (x i))) (every_nth 2 particleCount) 0 in
  let dumbbellCount := INR (particleCount / 2) in
  [("dumbbellAverageBondXXVSTime.data", sum (fun B => vx B * vx B) / dumbbellCount);
   ("dumbbellAverageBondYYVSTime.data", sum (fun B => vy B * vy B) / dumbbellCount);
   ("dumbbellAverageBondZZVSTime.data", sum (fun B => vz B * vz B) / dumbbellCount)]%string.
(** CUDA/MPCFluid/Instrumentation/GaussianRods.cpp l.23-31, l.36. *)
Definition rods_fills (x : particles) (particleCount : nat) : fills :=
  map (fun i => ("gaussianRods/bondLengthHistogram.data"%string, vmag (vsub (x (i + 1)%nat) (x i)))) (every_nth 2 particleCount).
