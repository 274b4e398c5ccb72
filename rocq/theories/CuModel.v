(** The loop that launches work units on the device, iterator ranges, bit sets, and the
    linear congruential generators.
    Simplifications: limits of the hardware on grid and block sizes are not modelled;
    iterators are offsets from the start of the underlying range; debug assertions that
    only check preconditions are omitted; memory that was not initialised has arbitrary
    contents. *)
From Coq Require Import List ZArith Bool.
From Verif Require Import PyBase.
Import ListNotations.
Open Scope Z_scope.

(** Conversion to [unsigned int] and to a 64-bit [std::size_t] (Macros.hpp:53-64, BunchIteratorRange.hpp:84-104). *)
Definition u32 (z : Z) : Z := z mod 2 ^ 32.
(** Macros.hpp:53-64: a 64-bit [std::size_t]. *)
Definition u64 (z : Z) : Z := z mod 2 ^ 64.
(** The numbers below [n] (the thread and block indices of Macros.hpp:53-64). *)
Definition zrange (n : Z) : list Z := map Z.of_nat (seq 0 (Z.to_nat n)).

(* include/OpenMPCD/CUDA/Macros.hpp:53-64: OPENMPCD_CUDA_LAUNCH_WORKUNITS_SIZES_BEGIN: grid
   size and work unit offset of each kernel launch; [None] if [fuel] iterations are not
   enough *)
Fixpoint launches (fuel : nat) (numberOfWorkUnits maxGridSize blockSize workUnit : Z) : option (list (Z * Z)) :=
  match fuel with
  | O => None
  | S fuel =>
    if workUnit <? numberOfWorkUnits then
      let requiredGridSize := u32 (u32 (numberOfWorkUnits - workUnit) / blockSize + 1) in
      let gridSize := if maxGridSize <? requiredGridSize then maxGridSize else requiredGridSize in
      option_map (cons (gridSize, workUnit))
        (launches fuel numberOfWorkUnits maxGridSize blockSize (u32 (workUnit + u32 (maxGridSize * blockSize))))
    else Some []
  end.
(* cudaDeviceCode/OpenMPCD/CUDA/DeviceCode/Simulation.cu:126-128 and all other kernels
   launched in this way: each thread computes the work unit it is responsible for, and
   returns if there is no such unit *)
Definition thread_unit (blockIdx blockDim threadIdx workUnitOffset : Z) : Z :=
  u32 (u32 (u32 (blockIdx * blockDim) + threadIdx) + workUnitOffset).
(** Macros.hpp:53-64: the threads of one launch. *)
Definition launch_units (numberOfWorkUnits blockSize : Z) (launch : Z * Z) : list Z :=
  filter (fun id => id <? numberOfWorkUnits)
    (flat_map (fun b => map (fun t => thread_unit b blockSize t (snd launch)) (zrange blockSize)) (zrange (fst launch))).
(** The units that are worked on, in order of launch, block and thread (Macros.hpp:53-64). *)
Definition dispatched (fuel : nat) (numberOfWorkUnits maxGridSize blockSize : Z) : option (list Z) :=
  option_map (flat_map (launch_units numberOfWorkUnits blockSize)) (launches fuel numberOfWorkUnits maxGridSize blockSize 0).

(* include/OpenMPCD/CUDA/BunchIteratorRange.hpp:84-104: AdvancingFunctor::operator() *)
Fixpoint advance_loop (remaining : nat) (bunchSize gapSize ret positionInBunch : Z) : Z :=
  match remaining with
  | O => ret
  | S remaining =>
    let positionInBunch := u32 (positionInBunch + 1) in
    let ret := u32 (ret + 1) in
    if positionInBunch =? bunchSize then advance_loop remaining bunchSize gapSize (u32 (ret + gapSize)) 0
    else advance_loop remaining bunchSize gapSize ret positionInBunch
  end.
Definition bunch_advance (bunchSize gapSize i : Z) : Z := advance_loop (Z.to_nat (u32 i)) bunchSize gapSize 0 0.
(* BunchIteratorRange.hpp:166-189: the loop of end(); [None] if [fuel] iterations are not
   enough *)
Fixpoint bunch_end (fuel : nat) (bunchSize gapSize effectiveCount underlyingRemaining : Z) : option Z :=
  match fuel with
  | O => None
  | S fuel =>
    if underlyingRemaining <=? bunchSize then Some (effectiveCount + underlyingRemaining)
    else
      let effectiveCount := effectiveCount + bunchSize in
      let underlyingRemaining := underlyingRemaining - bunchSize in
      if underlyingRemaining <=? gapSize then Some effectiveCount
      else bunch_end fuel bunchSize gapSize effectiveCount (underlyingRemaining - gapSize)
  end.
(** The offsets of the elements between begin() and end(), for an underlying range of [n]
    elements: iterators are equal when their counting iterators are (BunchIteratorRange.hpp:84-104, 166-189). *)
Definition bunch_visited (fuel : nat) (bunchSize gapSize n : Z) : option (list Z) :=
  option_map (fun count => map (bunch_advance bunchSize gapSize) (zrange count)) (bunch_end fuel bunchSize gapSize 0 n).

(* include/OpenMPCD/CUDA/StridedIteratorRange.hpp:72-77, 123-126, 173-176, 229-232: both
   variants; the arithmetic is that of 64-bit differences *)
Definition strided_visited (stride n : Z) : list Z := map (fun i => stride * i) (zrange ((n + (stride - 1)) / stride)).

(* include/OpenMPCD/StridedPointerIterator.hpp:187-229: operator++, both forms; position
   [current] in an array of [pastEnd] elements *)
Fixpoint step_loop (i : nat) (current pastEnd : Z) : Z :=
  match i with
  | O => current
  | S i => let current := current + 1 in if current =? pastEnd then current else step_loop i current pastEnd
  end.
Definition pointer_step (stride current pastEnd : Z) : result Z :=
  if current =? pastEnd then Err PyException else Ok (step_loop (Z.to_nat stride) current pastEnd).
(* StridedPointerIterator.hpp:235-246: operator+= *)
Fixpoint pointer_advance (n : nat) (stride current pastEnd : Z) : result Z :=
  match n with
  | O => Ok current
  | S n =>
    do current <- pointer_step stride current pastEnd;
    if current =? pastEnd then Ok current else pointer_advance n stride current pastEnd
  end.
(** A loop [for(; it != end; ++it)] (StridedPointerIterator.hpp:187-246). *)
Fixpoint pointer_visited (fuel : nat) (stride current pastEnd : Z) : option (list Z) :=
  match fuel with
  | O => None
  | S fuel =>
    if current =? pastEnd then Some []
    else option_map (cons current) (pointer_visited fuel stride (step_loop (Z.to_nat stride) current pastEnd) pastEnd)
  end.

(** * Bit sets *)
(** The elements of the storage; [size] of them have been allocated. *)
Record bitset := Bitset { storage : Z -> Z; size : Z; bitCount : Z }.
(* include/OpenMPCD/CUDA/ImplementationDetails/Bitset.hpp:19-25: the constructor; the
   members are initialised in the order of their declaration (CUDA/Bitset.hpp:99-100), so
   that the size of the storage is computed from [bitCount] before it is set: [stale] is
   what its memory contained. *)
Definition bitset_new (stale : Z) (contents : Z -> Z) (bitCount_ : Z) : bitset :=
  Bitset contents (u64 (u64 (stale + 32) - 1) / 32) bitCount_.
(** Accesses to the elements, each of which is indivisible (ImplementationDetails/Bitset.hpp:40-76). *)
Inductive access := AtomicOr (element mask : Z) | AtomicAnd (element mask : Z) | Store (element value : Z).
(** ImplementationDetails/Bitset.hpp:40-55: assignment to an element. *)
Definition put (f : Z -> Z) (i v : Z) : Z -> Z := fun j => if j =? i then v else f j.
Definition perform (f : Z -> Z) (a : access) : Z -> Z :=
  match a with
  | AtomicOr e m => put f e (Z.lor (f e) m)
  | AtomicAnd e m => put f e (Z.land (f e) m)
  | Store e v => put f e v
  end.
(* ImplementationDetails/Bitset.hpp:40-55: set *)
Definition bitset_set (bit : Z) (value : bool) : list access :=
  let element := bit / 32 in
  let bitInElement := bit mod 32 in
  if value then [AtomicOr element (u32 (Z.shiftl 1 bitInElement))]
  else [AtomicAnd element (u32 (Z.lnot (u32 (Z.shiftl 1 bitInElement))))].
(* ImplementationDetails/Bitset.hpp:57-66: get *)
Definition bitset_get (f : Z -> Z) (bit : Z) : bool :=
  negb (Z.land (Z.shiftr (f (bit / 32)) (bit mod 32)) 1 =? 0).
(* ImplementationDetails/Bitset.hpp:68-76: setAll *)
Definition bitset_set_all (bitCount : Z) (value : bool) : list access :=
  map (fun i => Store i (if value then u32 (-1) else 0)) (zrange (u64 (u64 (bitCount + 32) - 1) / 32)).

(* include/OpenMPCD/CUDA/Random/Generators/LinearCongruent.hpp:87-91: operator(), in the
   arithmetic of an unsigned type of [width] bits *)
Definition lcg (width multiplier increment modulus current : Z) : Z :=
  ((multiplier * current + increment) mod 2 ^ width) mod modulus.
(* include/OpenMPCD/CUDA/Random/Generators/minstd.hpp:23-31; boost::uint_fast32_t has 64
   bits on the platforms supported by CUDA, but may have 32 *)
Definition minstd_rand (width : Z) : Z -> Z := lcg width 48271 0 2147483647.
(** include/OpenMPCD/CUDA/Random/Generators/minstd.hpp:23-31. *)
Definition minstd_rand0 (width : Z) : Z -> Z := lcg width 16807 0 2147483647.
(** The first [n] numbers generated after [current] (LinearCongruent.hpp:87-91). *)
Fixpoint draws (next : Z -> Z) (n : nat) (current : Z) : list Z :=
  match n with O => [] | S n => let x := next current in x :: draws next n x end.
