(** Fourier-transformed velocities of the fluid: the kernels in
    cudaDeviceCode/OpenMPCD/CUDA/MPCFluid/Instrumentation/FourierTransformedVelocity/DeviceCode/fourierTransformedVelocity.cu
    and the measurements in src/OpenMPCD/CUDA/MPCFluid/Instrumentation/FourierTransformedVelocity/{Simple,Doublets,Triplets,Chains}.cu.
    Simplifications: real numbers instead of floating-point numbers; the threads of a launch may run in any order, but the accesses of a thread
    to its own elements of the buffers are not split; errors of the CUDA runtime are left out; pointers have 64 bits. *)
From Coq Require Import List ZArith Bool Reals.
From Verif Require Import PyBase VecModel CuModel.
Import ListNotations.
Open Scope Z_scope.

(** Device memory: the elements of an array of numbers (fourierTransformedVelocity.cu l.36-41). *)
Definition array := Z -> R.
(** RemotelyStoredVector.hpp l.35-39, 71-131: the vector with number [vectorID] in an array. *)
Definition stored (a : array) (vectorID : Z) : vec := Vec (a (3 * vectorID)) (a (3 * vectorID + 1)) (a (3 * vectorID + 2)).

(** A store to the two buffers: the index and what is written to the buffer for real parts and that for imaginary parts (fourierTransformedVelocity.cu l.50-56). *)
Definition write := (Z * (R * R))%type.
(** fourierTransformedVelocity.cu l.50-56, 117-124, 185-192, 256-263: what a thread stores for a constituent at [r] with velocity [v]. *)
Definition store_wave (k r v : vec) (id : Z) : list write :=
  let dotProduct := vdot k r in
  let realPart := vscale (cos dotProduct) v in
  let imaginaryPart := vscale (sin dotProduct) v in
  [(3 * id, (vx realPart, vx imaginaryPart)); (3 * id + 1, (vy realPart, vy imaginaryPart)); (3 * id + 2, (vz realPart, vz imaginaryPart))].

Section Kernels.
(** The symbol [mpcParticleCount], the positions and velocities of the particles and the wave vector (fourierTransformedVelocity.cu l.34-57). *)
Variables (mpcParticleCount : Z) (positions velocities : array) (k : vec).
(** fourierTransformedVelocity.cu l.34-57: calculateVelocityInFourierSpace_simpleMPCFluid_single. *)
Definition simple_single (particleID : Z) : list write :=
  if mpcParticleCount <=? particleID then [] else store_wave k (stored positions particleID) (stored velocities particleID) particleID.
(** fourierTransformedVelocity.cu l.92-125: calculateVelocityInFourierSpace_doubletMPCFluid_single. *)
Definition doublet_single (doubletID : Z) : list write :=
  let particle1ID := u32 (2 * doubletID) in
  let particle2ID := u32 (particle1ID + 1) in
  if mpcParticleCount <=? particle2ID then []
  else
    let r := vdivs (vadd (stored positions particle1ID) (stored positions particle2ID)) 2 in
    let v := vdivs (vadd (stored velocities particle1ID) (stored velocities particle2ID)) 2 in
    store_wave k r v doubletID.
(** fourierTransformedVelocity.cu l.157-193: calculateVelocityInFourierSpace_tripletMPCFluid_single. *)
Definition triplet_single (tripletID : Z) : list write :=
  let particle1ID := u32 (3 * tripletID) in
  let particle2ID := u32 (particle1ID + 1) in
  let particle3ID := u32 (particle1ID + 2) in
  if mpcParticleCount <=? particle3ID then []
  else
    let r := vdivs (vadd (vadd (stored positions particle1ID) (stored positions particle2ID)) (stored positions particle3ID)) 3 in
    let v := vdivs (vadd (vadd (stored velocities particle1ID) (stored velocities particle2ID)) (stored velocities particle3ID)) 3 in
    store_wave k r v tripletID.
(** fourierTransformedVelocity.cu l.244-251: the loop over the particles of a chain; [n] bounds the number of iterations, of which there are at most [2^32]
    as the loop variable is different each time. *)
Fixpoint chain_sums (n : nat) (particleID lastParticleID : Z) (r v : vec) : vec * vec :=
  match n with
  | O => (r, v)
  | S n => if particleID <=? lastParticleID
           then chain_sums n (u32 (particleID + 1)) lastParticleID (vadd r (stored positions particleID)) (vadd v (stored velocities particleID))
           else (r, v)
  end.
(** fourierTransformedVelocity.cu l.227-264: calculateVelocityInFourierSpace_chainMPCFluid_single. *)
Definition chain_single (chainLength chainID : Z) : list write :=
  let firstParticleID := u32 (chainID * chainLength) in
  let lastParticleID := u32 (u32 (firstParticleID + chainLength) - 1) in
  if mpcParticleCount <=? lastParticleID then []
  else
    let (r, v) := chain_sums (Z.to_nat (lastParticleID + 1)) firstParticleID lastParticleID (Vec 0 0 0) (Vec 0 0 0) in
    store_wave k (vdivs r (IZR chainLength)) (vdivs v (IZR chainLength)) chainID.
End Kernels.

(** fourierTransformedVelocity.cu l.18-25 and Macros.hpp l.53-64: the threads of one launch [<<<blockSize, gridSize>>>]; [blockSize] is the number of blocks here, and [gridSize]
    the number of threads in each of them. *)
Definition swapped_threads (blockSize : Z) (launch : Z * Z) : list Z :=
  flat_map (fun b => map (fun t => thread_unit b (fst launch) t (snd launch)) (zrange (fst launch))) (zrange blockSize).
(** All launches (fourierTransformedVelocity.cu l.18-25, 76-83, 141-148, 210-218). *)
Definition swapped_dispatched (fuel : nat) (numberOfWorkUnits maxGridSize blockSize : Z) : option (list Z) :=
  option_map (flat_map (swapped_threads blockSize)) (launches fuel numberOfWorkUnits maxGridSize blockSize 0).
(** The contents of the buffers for real and imaginary parts after some stores (fourierTransformedVelocity.cu l.50-56). *)
Definition perform_write (m : array * array) (w : write) : array * array :=
  (fun i => if i =? fst w then fst (snd w) else fst m i, fun i => if i =? fst w then snd (snd w) else snd m i).
(** fourierTransformedVelocity.cu l.275-288: what [thrust::reduce] makes of the elements of a [StridedIteratorRange] of stride 3 from [start] to [summandCount * 3]. *)
Definition strided_sum (a : array) (start summandCount : Z) : R :=
  fold_left (fun s o => s + a (start + o)%Z)%R (strided_visited 3 (u32 (summandCount * 3) - start)) 0%R.
(** fourierTransformedVelocity.cu l.270-316: reduceVelocityInFourierSpaceBuffers. *)
Definition reduce_buffers (summandCount : Z) (m : array * array) : cvec :=
  let part a start := (strided_sum a start summandCount / IZR summandCount)%R in
  CVec (Cplx (part (fst m) 0) (part (snd m) 0)) (Cplx (part (fst m) 1) (part (snd m) 1)) (Cplx (part (fst m) 2) (part (snd m) 2)).

(** The kinds of fluid: Simple.cu l.11-16, Doublets.cu l.11-16, Triplets.cu l.11-16 and Chains.cu l.11-18; the last one has the length of a chain. *)
Inductive kind := Simple | Doublets | Triplets | Chains (chainLength : Z).
(** The number of constituents that is given to fourierTransformedVelocity.cu l.9-225 (Simple.cu l.42, Doublets.cu l.42, Triplets.cu l.42, Chains.cu l.44), and for which
    the constructors allocate three elements in each buffer (Simple.cu l.14, Doublets.cu l.14, Triplets.cu l.14, Chains.cu l.15). *)
Definition constituents (f : kind) (particleCount : Z) : Z :=
  match f with Simple => particleCount | Doublets => particleCount / 2 | Triplets => particleCount / 3 | Chains l => particleCount / l end.
(** fourierTransformedVelocity.cu l.18, 76, 141, 210: the maximal grid size; the block size is 512 (Macros.hpp l.81-93). *)
Definition max_grid (f : kind) : Z := match f with Doublets => 512 | _ => 1024 end.
(** The kernel (fourierTransformedVelocity.cu l.34, 92, 157, 227). *)
Definition single (f : kind) : Z -> array -> array -> vec -> Z -> list write :=
  match f with Simple => simple_single | Doublets => doublet_single | Triplets => triplet_single
  | Chains l => fun n p v k => chain_single n p v k l end.
(** Simple.cu l.22-38, Doublets.cu l.22-38, Triplets.cu l.22-38, Chains.cu l.24-40: the wave vector. *)
Definition wave_vector (box : Z * Z * Z) (k_n : vec) : vec :=
  let '(x, y, z) := box in
  let factorX := (2 * PI / IZR x)%R in
  let factorY := (2 * PI / IZR y)%R in
  let factorZ := (2 * PI / IZR z)%R in
  Vec (vx k_n * factorX) (vy k_n * factorY) (vz k_n * factorZ).
(** The stores of all threads (fourierTransformedVelocity.cu l.9-32, 67-90, 132-155, 200-225), launch by launch; [None] if the launches do not end within [fuel] iterations. *)
Definition all_writes (f : kind) (fuel : nat) (particleCount : Z) (positions velocities : array) (k : vec) : option (list write) :=
  option_map (flat_map (single f particleCount positions velocities k))
    (swapped_dispatched fuel (constituents f particleCount) (max_grid f) 512).
(** fourierTransformedVelocity.cu l.9-32, 67-90, 132-155, 200-225 with the stores in some order, on buffers with some contents. *)
Definition transformed (f : kind) (particleCount : Z) (buffers : array * array) (stores : list write) : cvec :=
  reduce_buffers (constituents f particleCount) (fold_left perform_write stores buffers).
