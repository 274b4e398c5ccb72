(** Resources: device memory (DeviceMemoryManager, DeviceBuffer) and MPI.
    Simplifications: calls of the CUDA runtime report no errors of earlier, asynchronous calls;
    the runtime is a list of live allocations and a record of what was released; which address
    an allocation gets is an input. MPI calls other than [MPI_Init_thread] succeed; a call that
    the MPI standard forbids is counted. *)
From Coq Require Import List ZArith Bool.
From Verif Require Import CuModel.
Import ListNotations.
Open Scope Z_scope.

(** The exceptions that are thrown: include/OpenMPCD/Exceptions.hpp l.37-49, l.208-219, CUDA/Exceptions.hpp l.18-27. *)
Inductive exception := MemoryManagementException | InvalidArgumentException | CudaException | MPIException.
(** The result of a call, with exceptions (C++ functions that throw, DeviceMemoryManager.cpp l.40-51). *)
Inductive outcome := Done | Pointer (p : Z) | Thrown (e : exception).

(** The CUDA runtime, as used in DeviceMemoryManager.cpp l.24-25, l.77-78, l.140-141: live allocations
    (address, number of bytes), the addresses released so far, and the number of invalid releases. *)
Record runtime := Runtime { live : list (Z * Z); released : list Z; invalid : nat }.
(** Whether an allocation begins at [p] (DeviceMemoryManager.cpp l.77). *)
Definition is_live (r : runtime) (p : Z) : bool := existsb (fun a => Z.eqb (fst a) p) (live r).
(** [cudaFree] (DeviceMemoryManager.cpp l.25, l.77); [false] means an error. *)
Definition cudaFree (p : Z) (r : runtime) : runtime * bool :=
  if Z.eqb p 0 then (r, true)
  else if is_live r p
       then (Runtime (filter (fun a => negb (Z.eqb (fst a) p)) (live r)) (released r ++ [p]) (invalid r), true)
       else (Runtime (live r) (released r) (S (invalid r)), false).
(** DeviceMemoryManager.cpp l.81-103. *)
Definition isDeviceMemoryPointer (r : runtime) (p : Z) : bool :=
  existsb (fun a => Z.leb (fst a) p && Z.ltb p (fst a + snd a)) (live r).
(** DeviceMemoryManager.cpp l.105-111. *)
Definition isHostMemoryPointer (r : runtime) (p : Z) : bool :=
  if Z.eqb p 0 then false else negb (isDeviceMemoryPointer r p).

(** OpenMPCD/CUDA/DeviceMemoryManager.hpp l.396-397; the set is kept in increasing order. *)
Record manager := Manager { allocatedBuffers : list Z; autofree : bool }.
(** DeviceMemoryManager.cpp l.12-15. *)
Definition manager_new : manager := Manager [] false.
(** [std::set::insert] (DeviceMemoryManager.cpp l.129). *)
Fixpoint set_insert (p : Z) (l : list Z) : list Z :=
  match l with
  | [] => [p]
  | a :: l => if Z.ltb p a then p :: a :: l else if Z.eqb p a then a :: l else a :: set_insert p l
  end.
(** [std::set::count] (DeviceMemoryManager.cpp l.45, l.121). *)
Definition set_count (p : Z) (l : list Z) : bool := existsb (Z.eqb p) l.
(** [std::set::erase] (DeviceMemoryManager.cpp l.48). *)
Definition set_erase (p : Z) (l : list Z) : list Z := filter (fun a => negb (Z.eqb p a)) l.

Section Debug.
(** Whether [OPENMPCD_DEBUG] is defined. *)
Variable debug : bool.
(** DeviceMemoryManager.cpp l.134-165; [answer] is the result of [cudaMalloc], [None] if it fails. *)
Definition allocateMemoryInternalUnregistered (bufferSize : Z) (answer : option Z) (r : runtime) : runtime * outcome :=
  if Z.eqb bufferSize 0 then (r, Pointer 0)
  else match answer with
       | None => (r, Thrown MemoryManagementException)
       | Some p =>
         let r := Runtime ((p, bufferSize) :: live r) (released r) (invalid r) in
         if debug && Z.eqb p 0 then (r, Thrown MemoryManagementException) else (r, Pointer p)
       end.
(** DeviceMemoryManager.cpp l.113-132. *)
Definition allocateMemoryInternal (bufferSize : Z) (answer : option Z) (m : manager) (r : runtime) : manager * runtime * outcome :=
  if Z.eqb bufferSize 0 then (m, r, Pointer 0)
  else match allocateMemoryInternalUnregistered bufferSize answer r with
       | (r, Pointer p) =>
         if debug && set_count p (allocatedBuffers m) then (m, r, Thrown MemoryManagementException)
         else (Manager (set_insert p (allocatedBuffers m)) (autofree m), r, Pointer p)
       | (r, o) => (m, r, o)
       end.
(** OpenMPCD/CUDA/DeviceMemoryManager.hpp l.62-65; the type has [size] bytes; [instanceCount] is an [unsigned int]. *)
Definition allocateMemory (size instanceCount : Z) := allocateMemoryInternal (u64 (u32 instanceCount * size)).
(** OpenMPCD/CUDA/DeviceMemoryManager.hpp l.119-127. *)
Definition allocateMemoryUnregistered (size instanceCount : Z) := allocateMemoryInternalUnregistered (u64 (u32 instanceCount * size)).
(** DeviceMemoryManager.cpp l.53-79. *)
Definition freeMemoryUnregistered (p : Z) (r : runtime) : runtime * outcome :=
  if Z.eqb p 0 then (r, Done)
  else if debug && negb (isDeviceMemoryPointer r p) then (r, Thrown MemoryManagementException)
  else match cudaFree p r with (r, true) => (r, Done) | (r, false) => (r, Thrown CudaException) end.
(** DeviceMemoryManager.cpp l.40-51. *)
Definition freeMemory (p : Z) (m : manager) (r : runtime) : manager * runtime * outcome :=
  if Z.eqb p 0 then (m, r, Done)
  else if negb (set_count p (allocatedBuffers m)) then (m, r, Thrown MemoryManagementException)
  else match freeMemoryUnregistered p r with (r, o) => (Manager (set_erase p (allocatedBuffers m)) (autofree m), r, o) end.
(** OpenMPCD/CUDA/DeviceMemoryManager.hpp l.207-210. *)
Definition setAutofree (b : bool) (m : manager) : manager := Manager (allocatedBuffers m) b.
(** DeviceMemoryManager.cpp l.17-38; also the addresses printed to [stderr]. *)
Definition manager_delete (m : manager) (r : runtime) : runtime * list Z :=
  match allocatedBuffers m with
  | [] => (r, [])
  | _ => if autofree m then (fold_left (fun r p => fst (cudaFree p r)) (allocatedBuffers m) r, []) else (r, allocatedBuffers m)
  end.

(** The calls of a program: those on a manager (DeviceMemoryManager.cpp l.40-132), and that the allocations made elsewhere become [others]. *)
Inductive call :=
| Allocate (size instanceCount : Z) (answer : option Z)
| Free (p : Z)
| Autofree (b : bool)
| Elsewhere (others : list (Z * Z)).
(** One call (DeviceMemoryManager.cpp l.40-132); exceptions are caught by the program. *)
Definition perform (c : call) (m : manager) (r : runtime) : manager * runtime * outcome :=
  match c with
  | Allocate size count answer => allocateMemory size count answer m r
  | Free p => freeMemory p m r
  | Autofree b => (setAutofree b m, r, Done)
  | Elsewhere others =>
    (m, Runtime (filter (fun a => set_count (fst a) (allocatedBuffers m)) (live r) ++ others) (released r) (invalid r), Done)
  end.
(** A sequence of calls (DeviceMemoryManager.cpp l.40-132). *)
Fixpoint perform_all (cs : list call) (m : manager) (r : runtime) : manager * runtime * list outcome :=
  match cs with
  | [] => (m, r, [])
  | c :: cs =>
    match perform c m r with
    | (m, r, o) => match perform_all cs m r with (m, r, os) => (m, r, o :: os) end
    end
  end.

(** CUDA/ImplementationDetails/DeviceBuffer.hpp l.18-29; the result is its pointer. *)
Definition buffer_new (size elementCount : Z) (answer : option Z) (r : runtime) : runtime * outcome :=
  if debug && Z.eqb elementCount 0 then (r, Thrown InvalidArgumentException)
  else allocateMemoryUnregistered size (u64 (size * elementCount)) answer r.
(** CUDA/ImplementationDetails/DeviceBuffer.hpp l.31-35. *)
Definition buffer_delete (p : Z) (r : runtime) : runtime * outcome := freeMemoryUnregistered p r.
End Debug.

(** The state of MPI (MPI.cpp l.12-77): whether it has been initialized and finalized, how often each has been
    done, and the number of calls that the standard forbids. *)
Record mpi := Mpi { initialized : bool; finalized : bool; inits : nat; finals : nat; forbidden : nat }.
(** [MPI_Init_thread] (MPI.cpp l.24-25). *)
Definition mpi_init (s : mpi) : mpi :=
  Mpi true (finalized s) (S (inits s)) (finals s) (if initialized s then S (forbidden s) else forbidden s).
(** [MPI_Finalize] (MPI.cpp l.32, l.68). *)
Definition mpi_finalize (s : mpi) : mpi :=
  Mpi (initialized s) true (inits s) (S (finals s)) (if initialized s && negb (finalized s) then forbidden s else S (forbidden s)).
(** [MPI_Comm_rank] and other calls (MPI.cpp l.79-119), which are allowed between the two. *)
Definition mpi_use (s : mpi) : mpi :=
  Mpi (initialized s) (finalized s) (inits s) (finals s) (if initialized s && negb (finalized s) then forbidden s else S (forbidden s)).
(** MPI.cpp l.12-42; [threads] tells whether the thread support is sufficient. The result is the member
    [initializedByThisInstance] of the new object. *)
Definition MPI_new (threads : bool) (s : mpi) : mpi * (bool + exception) :=
  if initialized s then (s, inl false)
  else let s := mpi_init s in
       if threads then (s, inl true) else (mpi_finalize s, inr MPIException).
(** MPI.cpp l.44-77; an exception in a destructor terminates the program. *)
Definition MPI_delete (own : bool) (s : mpi) : mpi * option exception :=
  if finalized s then if own then (s, Some MPIException) else (s, None)
  else if own then (mpi_finalize s, None) else (s, None).
(** The calls of a program that uses OpenMPCD/MPI.hpp l.26-113: objects have numbers; the class has the implicit copy constructor. *)
Inductive mpi_call := New (id : nat) (threads : bool) | Copy (id from : nat) | Use (id : nat) | Delete (id : nat).
(** The objects (OpenMPCD/MPI.hpp l.26-113): their number and the member [initializedByThisInstance]. *)
Definition handles := list (nat * bool).
(** The object with a number (OpenMPCD/MPI.hpp l.110-112). *)
Definition handle (hs : handles) (id : nat) : option bool := option_map snd (find (fun h => Nat.eqb (fst h) id) hs).
(** One call (MPI.cpp l.12-119); [None] if the program is terminated. Calls for objects that do not exist are ignored. *)
Definition mpi_perform (c : mpi_call) (hs : handles) (s : mpi) : option (handles * mpi) :=
  match c with
  | New id threads => match MPI_new threads s with (s, inl own) => Some ((id, own) :: hs, s) | (s, inr _) => Some (hs, s) end
  | Copy id from => match handle hs from with Some own => Some ((id, own) :: hs, s) | None => Some (hs, s) end
  | Use id => match handle hs id with Some _ => Some (hs, mpi_use s) | None => Some (hs, s) end
  | Delete id =>
    match handle hs id with
    | None => Some (hs, s)
    | Some own =>
      match MPI_delete own s with
      | (s, None) => Some (filter (fun h => negb (Nat.eqb (fst h) id)) hs, s)
      | (_, Some _) => None
      end
    end
  end.
(** A sequence of calls (MPI.cpp l.12-119). *)
Fixpoint mpi_all (cs : list mpi_call) (hs : handles) (s : mpi) : option (handles * mpi) :=
  match cs with
  | [] => Some (hs, s)
  | c :: cs => match mpi_perform c hs s with Some (hs, s) => mpi_all cs hs s | None => None end
  end.
