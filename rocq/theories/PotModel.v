(** Pair potentials and the forces derived from them: the classes of the simulation and
    those of the analysis.
    Simplifications: exact real numbers; debug assertions, which check preconditions, are
    omitted; directions of the zero vector (an exception on the host) are arbitrary. *)
From Coq Require Import ZArith Reals.
From Verif Require Import PyBase VecBase VecModel.
Open Scope R_scope.

(* include/OpenMPCD/PairPotentials/*.hpp: the classes, with the arguments of their
   constructors (FENE.hpp:17-104 and the other files of the directory) *)
Inductive potential :=
| FENE (K l0 Rm : R)
| GEMn (eps sigma : R) (n : Z)
| LennardJones (r_offset r_cut sigma epsilon : R)
| Morse (epsilon alpha sigma shift : R)
| WCA (epsilon sigma : R)
| WCAOffset (epsilon sigma d : R)
| MagneticAlongZ (prefactor : R)
| Magnetic (prefactor : R) (orientation : vec)
| AdditivePair (potential1 potential2 : potential)
| Null.

Definition rleb (x y : R) : bool := if Rle_dec x y then true else false.
(* include/OpenMPCD/Vector3D.hpp:264-271: getNormalized *)
Definition vhat (a : vec) : vec := vdivs a (vmag a).
(** C's [pow], for a positive base (LennardJones.hpp:65, GEMn.hpp:51). *)
Definition cpow (x y : R) : R := Rpower x y.

(* FENE.hpp:46-55 *)
Definition fene_force (K l0 Rm : R) (r : vec) : vec :=
  let abs_r := vmag r in
  vscale ((K * (abs_r - l0)) / (1 - ((abs_r - l0) * (abs_r - l0)) / (Rm * Rm))) (vneg (vhat r)).
(* FENE.hpp:62-67 *)
Definition fene_potential (K l0 Rm : R) (r : vec) : R :=
  let tmp := (vmag r - l0) / Rm in
  let tmp := tmp * tmp in
  - (1 / 2) * K * Rm * Rm * ln (1 - tmp).
(* GEMn.hpp:48-53 *)
Definition gemn_force (epsilon sigma : R) (n : Z) (r : vec) : vec :=
  let abs_r := vmag r in
  let rOverSigma := cpow (abs_r / sigma) (IZR n) in
  vscale ((IZR n * epsilon * rOverSigma * exp ((- 1) * rOverSigma)) / abs_r) (vhat r).
(* GEMn.hpp:60-63 *)
Definition gemn_potential (epsilon sigma : R) (n : Z) (r : vec) : R :=
  epsilon * exp ((- 1) * cpow (vmag r / sigma) (IZR n)).
(* LennardJones.hpp:55-69 *)
Definition lj_force (r_offset r_cut sigma epsilon : R) (r : vec) : vec :=
  let Rv := vmag r in
  if rltb r_cut Rv then Vec 0 0 0
  else
    let oneOverRMinusROffset := 1 / (Rv - r_offset) in
    let ratio := sigma * oneOverRMinusROffset in
    let ratio6 := ratio ^ 6 in
    let ratio12 := ratio6 * ratio6 in
    vscale (24 * epsilon * (2 * ratio12 - ratio6) * oneOverRMinusROffset) (vhat r).
(* LennardJones.hpp:75-87 *)
Definition lj_potential (r_offset r_cut sigma epsilon : R) (r : vec) : R :=
  let Rv := vmag r in
  if rltb r_cut Rv then 0
  else 4 * epsilon * ((sigma / (Rv - r_offset)) ^ 12 - (sigma / (Rv - r_offset)) ^ 6).
(* Morse.hpp:46-50 *)
Definition morse_force (epsilon alpha sigma shift : R) (r : vec) : vec :=
  let abs_r := vmag r in
  vscale ((- 1) * epsilon *
          ((- 2) * alpha * exp (- 2 * alpha * (abs_r - sigma)) + 2 * alpha * exp ((- 1) * alpha * (abs_r - sigma))))
    (vhat r).
(* Morse.hpp:57-64 *)
Definition morse_potential (epsilon alpha sigma shift : R) (r : vec) : R :=
  let abs_r := vmag r in
  epsilon * (exp (- 2 * alpha * (abs_r - sigma)) - 2 * exp ((- 1) * alpha * (abs_r - sigma))) - shift.
(* WeeksChandlerAndersen.hpp:69-89 *)
Definition wca_force (epsilon sigma : R) (r : vec) : vec :=
  let r2 := vmag2 r in
  let sigma2 := sigma * sigma in
  let cutoff := cpow 2 (1 / 3) * sigma2 in
  if rleb cutoff r2 then Vec 0 0 0
  else
    let frac2 := sigma2 / r2 in
    let frac6 := frac2 * frac2 * frac2 in
    let frac12 := frac6 * frac6 in
    vscale (24 * epsilon / r2 * (2 * frac12 - frac6)) r.
(* WeeksChandlerAndersen.hpp:100-120 *)
Definition wca_potential (epsilon sigma : R) (r : vec) : R :=
  let r2 := vmag2 r in
  let sigma2 := sigma * sigma in
  let cutoff := cpow 2 (1 / 3) * sigma2 in
  if rleb cutoff r2 then 0
  else
    let frac2 := sigma2 / r2 in
    let frac6 := frac2 * frac2 * frac2 in
    let frac12 := frac6 * frac6 in
    4 * epsilon * (frac12 - frac6 + 1 / 4).
(* WeeksChandlerAndersen_DistanceOffset.hpp:79-101 *)
Definition wcad_force (epsilon sigma d : R) (rvec : vec) : vec :=
  let r2 := vmag2 rvec in
  let sigma2 := sigma * sigma in
  let cutoff := cpow 2 (1 / 6) * sigma in
  let r := sqrt r2 in
  if rleb cutoff (r - d) then Vec 0 0 0
  else
    let denominator2 := (r - d) * (r - d) in
    let frac2 := sigma2 / denominator2 in
    let frac6 := frac2 * frac2 * frac2 in
    let frac12 := frac6 * frac6 in
    vscale (24 * epsilon / (r * (r - d)) * (2 * frac12 - frac6)) rvec.
(* WeeksChandlerAndersen_DistanceOffset.hpp:112-134 *)
Definition wcad_potential (epsilon sigma d : R) (rvec : vec) : R :=
  let r2 := vmag2 rvec in
  let sigma2 := sigma * sigma in
  let cutoff := cpow 2 (1 / 6) * sigma in
  let r := sqrt r2 in
  if rleb cutoff (r - d) then 0
  else
    let denominator2 := (r - d) * (r - d) in
    let frac2 := sigma2 / denominator2 in
    let frac6 := frac2 * frac2 * frac2 in
    let frac12 := frac6 * frac6 in
    4 * epsilon * (frac12 - frac6 + 1 / 4).
(* MagneticDipoleDipoleInteraction_ConstantEqualDipolesAlongZ.hpp:86-108 *)
Definition magz_force (prefactor : R) (rvec : vec) : vec :=
  let r2 := vmag2 rvec in
  let r_m2 := 1 / r2 in
  let r_m3 := r_m2 / sqrt r2 in
  let r_m5 := r_m2 * r_m3 in
  let r_m7 := r_m5 * r_m2 in
  let r_x := vx rvec in
  let r_y := vy rvec in
  let r_z := vz rvec in
  let r_z_squared := r_z * r_z in
  let F_x := - 5 * r_x * r_z_squared * r_m7 + r_x * r_m5 in
  let F_y := - 5 * r_y * r_z_squared * r_m7 + r_y * r_m5 in
  let F_z := - 5 * r_z * r_z_squared * r_m7 + 3 * r_z * r_m5 in
  vscale (3 * prefactor) (Vec F_x F_y F_z).
(* MagneticDipoleDipoleInteraction_ConstantEqualDipolesAlongZ.hpp:119-130 *)
Definition magz_potential (prefactor : R) (rvec : vec) : R :=
  let r2 := vmag2 rvec in
  let r_m2 := 1 / r2 in
  let r_m3 := r_m2 / sqrt r2 in
  let r_z_squared := vz rvec * vz rvec in
  - prefactor * r_m3 * (3 * r_z_squared * r_m2 - 1).
(* MagneticDipoleDipoleInteraction_ConstantIdenticalDipoles.hpp:100-117 *)
Definition mag_force (prefactor : R) (orientation rvec : vec) : vec :=
  let r2 := vmag2 rvec in
  let r_m2 := 1 / r2 in
  let r_m3 := r_m2 / sqrt r2 in
  let r_m5 := r_m2 * r_m3 in
  let dot := vdot orientation rvec in
  let F := vscale (2 * dot) orientation in
  let F := vsub F (vscale (5 * r_m2 * dot * dot - 1) rvec) in
  vscale (3 * prefactor * r_m5) F.
(* MagneticDipoleDipoleInteraction_ConstantIdenticalDipoles.hpp:129-140 *)
Definition mag_potential (prefactor : R) (orientation rvec : vec) : R :=
  let r2 := vmag2 rvec in
  let r_m2 := 1 / r2 in
  let r_m3 := r_m2 / sqrt r2 in
  let dot := vdot rvec orientation in
  - prefactor * r_m3 * (3 * dot * dot * r_m2 - 1).

(** The virtual functions; AdditivePair.hpp:55-69 and Null.hpp:33-42. *)
Fixpoint force (p : potential) (r : vec) : vec :=
  match p with
  | FENE K l0 Rm => fene_force K l0 Rm r
  | GEMn eps sigma n => gemn_force eps sigma n r
  | LennardJones r_offset r_cut sigma epsilon => lj_force r_offset r_cut sigma epsilon r
  | Morse epsilon alpha sigma shift => morse_force epsilon alpha sigma shift r
  | WCA epsilon sigma => wca_force epsilon sigma r
  | WCAOffset epsilon sigma d => wcad_force epsilon sigma d r
  | MagneticAlongZ prefactor => magz_force prefactor r
  | Magnetic prefactor orientation => mag_force prefactor orientation r
  | AdditivePair p q => vadd (force p r) (force q r)
  | Null => Vec 0 0 0
  end.
Fixpoint energy (p : potential) (r : vec) : R :=
  match p with
  | FENE K l0 Rm => fene_potential K l0 Rm r
  | GEMn eps sigma n => gemn_potential eps sigma n r
  | LennardJones r_offset r_cut sigma epsilon => lj_potential r_offset r_cut sigma epsilon r
  | Morse epsilon alpha sigma shift => morse_potential epsilon alpha sigma shift r
  | WCA epsilon sigma => wca_potential epsilon sigma r
  | WCAOffset epsilon sigma d => wcad_potential epsilon sigma d r
  | MagneticAlongZ prefactor => magz_potential prefactor r
  | Magnetic prefactor orientation => mag_potential prefactor orientation r
  | AdditivePair p q => energy p r + energy q r
  | Null => 0
  end.
(* Base.hpp:65-68 *)
Definition forceOnR1DueToR2 (p : potential) (r1 r2 : vec) : vec := force p (vsub r1 r2).

(** * The analysis *)

(** The arguments of [getPotential]: a number or a vector. *)
Inductive pyarg := Number (r : R) | Vector (r : vec).
(* PairPotentials/FENE.py:72-80, WeeksChandlerAndersen_DistanceOffset.py:97-106 *)
Definition py_length (r : pyarg) : result R :=
  match r with
  | Vector r => Ok (pylen r)
  | Number r => if rltb r 0 then Err ValueError else Ok r
  end.
(* PairPotentials/FENE.py:25-36: __init__; the types are not checked here *)
Definition py_fene_init (K l_0 Rm : R) : result unit :=
  if rleb Rm 0 then Err ValueError else Ok tt.
(* PairPotentials/FENE.py:63-95 *)
Definition py_fene_potential (K l_0 Rm : R) (r : pyarg) : result R :=
  do r <- py_length r;
  let prefactor := - (1 / 2) * K * Rm * Rm in
  let frac := (r - l_0) / Rm in
  let frac2 := frac * frac in
  if rleb 1 frac2 then Err ValueError else Ok (prefactor * ln (1 - frac2)).
(* PairPotentials/WeeksChandlerAndersen_DistanceOffset.py:29-58: __init__ *)
Definition py_wcad_init (epsilon sigma d : R) : result unit :=
  if rltb epsilon 0 then Err ValueError
  else if rltb sigma 0 then Err ValueError
  else if rltb d 0 then Err ValueError
  else Ok tt.
(* PairPotentials/WeeksChandlerAndersen_DistanceOffset.py:85-127 *)
Definition py_wcad_potential (epsilon sigma d : R) (r : pyarg) : result R :=
  do r <- py_length r;
  if rleb r d then Err ValueError
  else
    let sigma2 := sigma * sigma in
    let cutoff := cpow 2 (1 / 6) * sigma in
    if rleb cutoff (r - d) then Ok 0
    else
      let denominator2 := (r - d) * (r - d) in
      let frac2 := sigma2 / denominator2 in
      let frac6 := frac2 * frac2 * frac2 in
      let frac12 := frac6 * frac6 in
      Ok (4 * epsilon * (frac12 - frac6 + 1 / 4)).
(* PairPotentials/MagneticDipoleDipoleInteraction_ConstantIdenticalDipoles.py:31-66:
   __init__ *)
Definition py_mag_init (prefactor : R) (orientation : vec) : result unit :=
  if rltb prefactor 0 then Err ValueError
  else if Req_EM_T (pylen2 orientation) 1 then Ok tt else Err ValueError.
(* PairPotentials/MagneticDipoleDipoleInteraction_ConstantIdenticalDipoles.py:85-118 *)
Definition py_mag_potential (prefactor : R) (orientation : vec) (r : pyarg) : result R :=
  match r with
  | Number _ => Err TypeError
  | Vector r =>
    let r2 := pylen2 r in
    if Req_EM_T r2 0 then Err ValueError
    else
      let r_m2 := 1 / r2 in
      let r_m3 := r_m2 / sqrt r2 in
      let dot := pydot r orientation in
      Ok (- prefactor * r_m3 * (3 * dot * dot * r_m2 - 1))
  end.
(** Construction of an object followed by a call of [getPotential] (PairPotentials/FENE.py:1-99 and the other files of the directory). *)
Definition py_potential (p : potential) (r : pyarg) : result R :=
  match p with
  | FENE K l0 Rm => do _ <- py_fene_init K l0 Rm; py_fene_potential K l0 Rm r
  | WCAOffset epsilon sigma d => do _ <- py_wcad_init epsilon sigma d; py_wcad_potential epsilon sigma d r
  | Magnetic prefactor orientation => do _ <- py_mag_init prefactor orientation; py_mag_potential prefactor orientation r
  | _ => Err AttributeError
  end.
