(** Streaming of the particles of the fluid: free flight, and molecular dynamics of bonded
    particles.
    Simplifications: exact real arithmetic; identifiers of particles do not overflow;
    debug output is omitted; since the threads of a kernel work on different molecules,
    they are executed one after the other, in an arbitrary order. *)
From Coq Require Import List ZArith Bool Reals.
From Verif Require Import PyBase VecBase VecModel CuModel.
Import ListNotations.
Open Scope R_scope.

(** The device arrays, as vectors that are stored remotely (RemotelyStoredVector.hpp, lines 26-80). *)
Definition vecs := Z -> vec.
(** RemotelyStoredVector.hpp, lines 222-245: assignment to a vector. *)
Definition assign (a : vecs) (i : Z) (v : vec) : vecs := fun j => if Z.eqb j i then v else a j.
(** The arguments of the kernels, MPCFluid/DeviceCode/GaussianDumbbells.cu:181-197. *)
Record fluid := Fluid { pos : vecs; vel : vecs }.

(* cudaDeviceCode/OpenMPCD/CUDA/DeviceCode/VelocityVerlet.cu:3-10 *)
Definition verlet1 (position velocity acceleration timestep : R) : R :=
  position + velocity * timestep + 1 / 2 * acceleration * timestep * timestep.
(* VelocityVerlet.cu:12-20 *)
Definition verlet2 (velocity oldAcceleration newAcceleration timestep : R) : R :=
  velocity + 1 / 2 * timestep * (oldAcceleration + newAcceleration).
(* VelocityVerlet.cu:22-36: the new value of the position *)
Definition vverlet1 (position velocity acceleration : vec) (timestep : R) : vec :=
  Vec (verlet1 (vx position) (vx velocity) (vx acceleration) timestep)
      (verlet1 (vy position) (vy velocity) (vy acceleration) timestep)
      (verlet1 (vz position) (vz velocity) (vz acceleration) timestep).
(* VelocityVerlet.cu:38-53: the new value of the velocity *)
Definition vverlet2 (velocity oldAcceleration newAcceleration : vec) (timestep : R) : vec :=
  Vec (verlet2 (vx velocity) (vx oldAcceleration) (vx newAcceleration) timestep)
      (verlet2 (vy velocity) (vy oldAcceleration) (vy newAcceleration) timestep)
      (verlet2 (vz velocity) (vz oldAcceleration) (vz newAcceleration) timestep).

(* cudaDeviceCode/OpenMPCD/CUDA/MPCFluid/DeviceCode/GaussianDumbbells.cu:161-178: the body
   of the loop in streamDumbbellVelocityVerlet *)
Definition dumbbell_step (id1 : Z) (reducedSpringConstant timestep : R) (f : fluid) : fluid :=
  let '(Fluid r v) := f in
  let id2 := (id1 + 1)%Z in
  let R_ := vsub (r id2) (r id1) in
  let a_1_old := vscale reducedSpringConstant R_ in
  let a_2_old := vneg a_1_old in
  let r := assign r id1 (vverlet1 (r id1) (v id1) a_1_old timestep) in
  let r := assign r id2 (vverlet1 (r id2) (v id2) a_2_old timestep) in
  let R_ := vsub (r id2) (r id1) in
  let a_1_new := vscale reducedSpringConstant R_ in
  let a_2_new := vneg a_1_new in
  let v := assign v id1 (vverlet2 (v id1) a_1_old a_1_new timestep) in
  let v := assign v id2 (vverlet2 (v id2) a_2_old a_2_new timestep) in
  Fluid r v.
(* MPCFluid/DeviceCode/HarmonicTrimers.cu:31-56: the body of the loop *)
Definition trimer_step (id1 : Z) (k_1 k_2 timestep : R) (f : fluid) : fluid :=
  let '(Fluid r v) := f in
  let id2 := (id1 + 1)%Z in
  let id3 := (id1 + 2)%Z in
  let R_1 := vsub (r id2) (r id1) in
  let R_2 := vsub (r id3) (r id2) in
  let a_1_old := vscale k_1 R_1 in
  let a_2_old := vadd (vscale (- k_1) R_1) (vscale k_2 R_2) in
  let a_3_old := vscale (- k_2) R_2 in
  let r := assign r id1 (vverlet1 (r id1) (v id1) a_1_old timestep) in
  let r := assign r id2 (vverlet1 (r id2) (v id2) a_2_old timestep) in
  let r := assign r id3 (vverlet1 (r id3) (v id3) a_3_old timestep) in
  let R_1 := vsub (r id2) (r id1) in
  let R_2 := vsub (r id3) (r id2) in
  let a_1_new := vscale k_1 R_1 in
  let a_2_new := vadd (vscale (- k_1) R_1) (vscale k_2 R_2) in
  let a_3_new := vscale (- k_2) R_2 in
  let v := assign v id1 (vverlet2 (v id1) a_1_old a_1_new timestep) in
  let v := assign v id2 (vverlet2 (v id2) a_2_old a_2_new timestep) in
  let v := assign v id3 (vverlet2 (v id3) a_3_old a_3_new timestep) in
  Fluid r v.
(* MPCFluid/DeviceCode/GaussianRods.cu:33-64: the body of the loop; a kernel in which an
   assertion fails makes the program throw *)
Definition rod_step (id1 : Z) (meanBondLength reducedSpringConstant timestep : R) (f : fluid) : result fluid :=
  let '(Fluid r v) := f in
  let id2 := (id1 + 1)%Z in
  let R_ := vsub (r id2) (r id1) in
  let R_magnitude := vmag R_ in
  if Req_EM_T R_magnitude 0 then Err AssertionError
  else
    let a_1_old := vscale (reducedSpringConstant * (1 - meanBondLength / R_magnitude)) R_ in
    let a_2_old := vneg a_1_old in
    let r := assign r id1 (vverlet1 (r id1) (v id1) a_1_old timestep) in
    let r := assign r id2 (vverlet1 (r id2) (v id2) a_2_old timestep) in
    let R_ := vsub (r id2) (r id1) in
    let R_magnitude := vmag R_ in
    if Req_EM_T R_magnitude 0 then Err AssertionError
    else
      let a_1_new := vscale (reducedSpringConstant * (1 - meanBondLength / R_magnitude)) R_ in
      let a_2_new := vneg a_1_new in
      let v := assign v id1 (vverlet2 (v id1) a_1_old a_1_new timestep) in
      let v := assign v id2 (vverlet2 (v id2) a_2_old a_2_new timestep) in
      Ok (Fluid r v).
(* MPCFluid/DeviceCode/GaussianChains.cu:95-126: getAccelerationGaussianChainVelocityVerlet *)
Definition chain_acceleration (r : vecs) (first particleID last : Z) (reducedSpringConstant : R) : vec :=
  let accelerationDueToPrevious :=
    if Z.eqb particleID first then Vec 0 0 0
    else vscale (- reducedSpringConstant) (vsub (r particleID) (r (particleID - 1)%Z)) in
  let accelerationDueToNext :=
    if Z.eqb particleID last then Vec 0 0 0
    else vscale reducedSpringConstant (vsub (r (particleID + 1)%Z) (r particleID)) in
  vadd accelerationDueToPrevious accelerationDueToNext.
(** A loop [for(unsigned int i = 0; i < n; ++i)]. *)
Definition loop {A} (body : Z -> A -> A) (n : Z) (a : A) : A := fold_left (fun a i => body i a) (zrange n) a.
(* GaussianChains.cu:35-70: the body of the outer loop in streamGaussianChainVelocityVerlet;
   [b] is the acceleration buffer *)
Definition chain_step (id1 particlesPerChain : Z) (reducedSpringConstant timestep : R) (fb : fluid * vecs) : fluid * vecs :=
  let '(Fluid r v, b) := fb in
  let last := (id1 + particlesPerChain - 1)%Z in
  let b := loop (fun offset b => let current := (id1 + offset)%Z in
    assign b current (chain_acceleration r id1 current last reducedSpringConstant)) particlesPerChain b in
  let r := loop (fun offset r => let current := (id1 + offset)%Z in
    assign r current (vverlet1 (r current) (v current) (b current) timestep)) particlesPerChain r in
  let v := loop (fun offset v => let current := (id1 + offset)%Z in
    assign v current (vverlet2 (v current) (b current)
      (chain_acceleration r id1 current last reducedSpringConstant) timestep)) particlesPerChain v in
  (Fluid r v, b).

(** The kinds of fluids, with the parameters that are passed to the kernels (GaussianDumbbells.cu, HarmonicTrimers.cu, GaussianRods.cu, GaussianChains.cu:10-71). *)
Inductive kind :=
| Simple
| Dumbbells (reducedSpringConstant : R)
| Trimers (reducedSpringConstant1 reducedSpringConstant2 : R)
| Rods (meanBondLength reducedSpringConstant : R)
| Chains (particlesPerChain : Z) (reducedSpringConstant : R).
(** [n] repetitions of something that may fail (the loops over molecular dynamics steps, GaussianDumbbells.cu:161-178). *)
Fixpoint repeated {A} (n : nat) (step : A -> result A) (a : A) : result A :=
  match n with O => Ok a | S n => do a <- step a; repeated n step a end.
(** The thread for the given unit. *)
Definition thread_streams (k : kind) (particleCount : Z) (timestep : R) (stepCount : nat) (unit : Z) (fb : fluid * vecs)
  : result (fluid * vecs) :=
  let '(f, b) := fb in
  match k with
  (* MPCFluid/DeviceCode/Simple.cu:6-45: free flight, without steps: [timestep] is the
     streaming time step *)
  | Simple =>
    let id := unit in
    if Z.leb particleCount id then Ok fb
    else Ok (Fluid (assign (pos f) id (vadd (pos f id) (vscale timestep (vel f id)))) (vel f), b)
  (* GaussianDumbbells.cu:137-197 *)
  | Dumbbells k =>
    let id := (2 * unit)%Z in
    if Z.leb particleCount id then Ok fb
    else do f <- repeated stepCount (fun f => Ok (dumbbell_step id k timestep f)) f; Ok (f, b)
  (* HarmonicTrimers.cu:5-57 *)
  | Trimers k_1 k_2 =>
    let id := (3 * unit)%Z in
    if Z.leb particleCount (id + 2)%Z then Ok fb
    else do f <- repeated stepCount (fun f => Ok (trimer_step id k_1 k_2 timestep f)) f; Ok (f, b)
  (* GaussianRods.cu:8-85 *)
  | Rods l k =>
    let id := (2 * unit)%Z in
    if Z.leb particleCount id then Ok fb
    else do f <- repeated stepCount (rod_step id l k timestep) f; Ok (f, b)
  (* GaussianChains.cu:10-93 *)
  | Chains n k =>
    let id := (n * unit)%Z in
    if Z.leb particleCount id then Ok fb
    else repeated stepCount (fun fb => Ok (chain_step id n k timestep fb)) fb
  end.
(** The threads of a launch, Macros.hpp:53-64. *)
Fixpoint threads_stream (k : kind) (particleCount : Z) (timestep : R) (stepCount : nat) (units : list Z) (fb : fluid * vecs)
  : result (fluid * vecs) :=
  match units with
  | [] => Ok fb
  | u :: units => do fb <- thread_streams k particleCount timestep stepCount u fb;
                  threads_stream k particleCount timestep stepCount units fb
  end.

(** * Analytic streaming of dumbbells *)
(* GaussianDumbbells.cu:27-120: streamDumbbellAnalytically; [c] and [s] are the cosine and
   the sine of the frequency times the time step, as computed in lines 16-17 *)
Definition dumbbell_exactly (id1 : Z) (streamingTimestep omega c s : R) (f : fluid) : fluid :=
  let '(Fluid r v) := f in
  let id2 := (id1 + 1)%Z in
  let r_cm := vdivs (vadd (r id1) (r id2)) 2 in
  let R_ := vsub (r id2) (r id1) in
  let v_cm := vdivs (vadd (v id1) (v id2)) 2 in
  let v_R := vsub (v id2) (v id1) in
  let r_cm := vadd r_cm (vscale streamingTimestep v_cm) in
  let R_old := R_ in
  let R_ := vadd (vscale c R_) (vdivs (vscale s v_R) omega) in
  let v_R := vadd (vscale s (vscale (- omega) R_old)) (vscale c v_R) in
  let R_ := vdivs R_ 2 in
  let v_R := vdivs v_R 2 in
  let r := assign r id1 (vsub r_cm R_) in
  let r := assign r id2 (vadd r_cm R_) in
  let v := assign v id1 (vsub v_cm v_R) in
  let v := assign v id2 (vadd v_cm v_R) in
  Fluid r v.
(* src/OpenMPCD/CUDA/MPCFluid/GaussianDumbbells.cu:57-67: the parameters, from the Lagrange
   multiplier, temperature and mass *)
Definition dumbbell_spring_constant (lambda kT m : R) : R := 2 * lambda * kT / m.
Definition dumbbell_omega (lambda kT m : R) : R := sqrt (4 * lambda * kT / m).
(* GaussianDumbbells.cu:122-135: the thread for the given unit *)
Definition thread_streams_exactly (particleCount : Z) (streamingTimestep omega : R) (unit : Z) (f : fluid) : fluid :=
  let id := (2 * unit)%Z in
  if Z.leb particleCount id then f
  else dumbbell_exactly id streamingTimestep omega (cos (omega * streamingTimestep)) (sin (omega * streamingTimestep)) f.
(** The threads of a launch, Macros.hpp:53-64. *)
Definition threads_stream_exactly (particleCount : Z) (streamingTimestep omega : R) (units : list Z) (f : fluid) : fluid :=
  fold_left (fun f u => thread_streams_exactly particleCount streamingTimestep omega u f) units f.
