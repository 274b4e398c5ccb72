(** Copying to and from device memory.
    Simplifications: host and device memory share one space of addresses, as with unified addressing; a copy for which the runtime finds
    that the device side is not within one allocation, or that a pointer is of the wrong kind, is an error and copies nothing; host
    memory is accessible; errors other than of these calls are those that are pending before. *)
From Coq Require Import List ZArith Bool.
From Verif Require Import CuModel.
Import ListNotations.
Open Scope Z_scope.

(** What [cudaGetLastError] reports, DeviceMemoryManager.cpp l.86-100. *)
Inductive cuda_error := cudaSuccess | cudaErrorInvalidValue | cudaErrorOther.
(** Memory, by addresses of bytes, the allocations on the device (address, number of bytes), and the last error
    (CUDA/ImplementationDetails/DeviceMemoryManager.hpp l.21-131). *)
Record machine := Machine { byte : Z -> Z; allocations : list (Z * Z); last : cuda_error }.
(** The exceptions, CUDA/ImplementationDetails/DeviceMemoryManager.hpp l.26-40. *)
Inductive exception := NULLPointerException | InvalidArgumentException | CUDAException.
(** What a call does: the state afterwards, and its value or the exception (CUDA/ImplementationDetails/DeviceMemoryManager.hpp l.21-131). *)
Definition call (A : Type) : Type := machine -> machine * (A + exception).
(** One statement after another, CUDA/ImplementationDetails/DeviceMemoryManager.hpp l.25-40. *)
Definition seqc {A B : Type} (x : call A) (f : A -> call B) : call B :=
  fun m => match x m with (m, inl a) => f a m | (m, inr e) => (m, inr e) end.
(** [OPENMPCD_THROW], CUDA/ImplementationDetails/DeviceMemoryManager.hpp l.27. *)
Definition throw {A : Type} (e : exception) : call A := fun m => (m, inr e).
(** A value, CUDA/ImplementationDetails/DeviceMemoryManager.hpp l.130. *)
Definition ret {A : Type} (a : A) : call A := fun m => (m, inl a).
(** [cudaGetLastError], DeviceMemoryManager.cpp l.86; the error is forgotten. *)
Definition cudaGetLastError : call cuda_error := fun m => (Machine (byte m) (allocations m) cudaSuccess, inl (last m)).
(** Macros.hpp l.96. *)
Definition throw_on_error : call unit :=
  seqc cudaGetLastError (fun e => match e with cudaSuccess => ret tt | _ => throw CUDAException end).

(** Whether the address is in an allocation on the device, DeviceMemoryManager.cpp l.84. *)
Definition on_device (m : machine) (p : Z) : bool := existsb (fun a => (fst a <=? p) && (p <? fst a + snd a)) (allocations m).
(** Whether the bytes are in one allocation on the device (cudaMemcpy, CUDA/ImplementationDetails/DeviceMemoryManager.hpp l.39). *)
Definition in_allocation (m : machine) (p n : Z) : bool := existsb (fun a => (fst a <=? p) && (p + n <=? fst a + snd a)) (allocations m).
(** An error is recorded (CUDA/ImplementationDetails/DeviceMemoryManager.hpp l.39-40). *)
Definition fail (m : machine) : machine := Machine (byte m) (allocations m) cudaErrorInvalidValue.
(** DeviceMemoryManager.cpp l.81-103. *)
Definition isDeviceMemoryPointer (ptr : Z) : call bool :=
  fun m =>
    let m := if on_device m ptr then m else fail m in
    seqc cudaGetLastError (fun e =>
      match e with
      | cudaSuccess => ret true
      | cudaErrorInvalidValue => ret false
      | cudaErrorOther => throw CUDAException
      end) m.
(** DeviceMemoryManager.cpp l.105-111. *)
Definition isHostMemoryPointer (ptr : Z) : call bool :=
  if ptr =? 0 then ret false else seqc (isDeviceMemoryPointer ptr) (fun b => ret (negb b)).

(** The kinds of copies, CUDA/ImplementationDetails/DeviceMemoryManager.hpp l.39, l.61, l.83. *)
Inductive kind := HostToDevice | DeviceToHost | DeviceToDevice.
(** Some bytes are overwritten (CUDA/ImplementationDetails/DeviceMemoryManager.hpp l.39, l.99). *)
Definition write (m : machine) (p n : Z) (f : Z -> Z) : machine :=
  Machine (fun x => if (p <=? x) && (x <? p + n) then f (x - p) else byte m x) (allocations m) (last m).
(** [cudaMemcpy], CUDA/ImplementationDetails/DeviceMemoryManager.hpp l.39, l.61, l.83. *)
Definition cudaMemcpy (dest src n : Z) (k : kind) : call unit :=
  fun m =>
    if n =? 0 then (m, inl tt)
    else if match k with
            | HostToDevice => in_allocation m dest n && negb (on_device m src)
            | DeviceToHost => in_allocation m src n && negb (on_device m dest)
            | DeviceToDevice => in_allocation m src n && in_allocation m dest n
            end
         then (write m dest n (fun i => byte m (src + i)), inl tt)
         else (fail m, inl tt).
(** [cudaMemset], CUDA/ImplementationDetails/DeviceMemoryManager.hpp l.99. *)
Definition cudaMemset (p value n : Z) : call unit :=
  fun m => if n =? 0 then (m, inl tt) else if in_allocation m p n then (write m p n (fun _ => value), inl tt) else (fail m, inl tt).
(** A check, CUDA/ImplementationDetails/DeviceMemoryManager.hpp l.32-33. *)
Definition check (b : call bool) (e : exception) : call unit := seqc b (fun b => if b then ret tt else throw e).

Section Debug.
(** Whether [OPENMPCD_DEBUG] is defined. *)
Variable debug : bool.
(** CUDA/ImplementationDetails/DeviceMemoryManager.hpp l.25-37, l.47-59, l.69-81: the checks of pointers. *)
Definition checks (src dest : Z) (source destination : Z -> call bool) : call unit :=
  if debug
  then seqc (check (ret (negb (src =? 0))) NULLPointerException) (fun _ =>
       seqc (check (ret (negb (dest =? 0))) NULLPointerException) (fun _ =>
       seqc (check (source src) InvalidArgumentException) (fun _ => check (destination dest) InvalidArgumentException)))
  else ret tt.
(** CUDA/ImplementationDetails/DeviceMemoryManager.hpp l.21-41; [size] is [sizeof(T)]. *)
Definition copyElementsFromHostToDevice (size src dest count : Z) : call unit :=
  seqc (checks src dest isHostMemoryPointer isDeviceMemoryPointer) (fun _ =>
  seqc (cudaMemcpy dest src (u64 (size * count)) HostToDevice) (fun _ => throw_on_error)).
(** CUDA/ImplementationDetails/DeviceMemoryManager.hpp l.43-63. *)
Definition copyElementsFromDeviceToHost (size src dest count : Z) : call unit :=
  seqc (checks src dest isDeviceMemoryPointer isHostMemoryPointer) (fun _ =>
  seqc (cudaMemcpy dest src (u64 (size * count)) DeviceToHost) (fun _ => throw_on_error)).
(** CUDA/ImplementationDetails/DeviceMemoryManager.hpp l.65-85. *)
Definition copyElementsFromDeviceToDevice (size src dest count : Z) : call unit :=
  seqc (checks src dest isDeviceMemoryPointer isDeviceMemoryPointer) (fun _ =>
  seqc (cudaMemcpy dest src (u64 (size * count)) DeviceToDevice) (fun _ => throw_on_error)).
(** CUDA/ImplementationDetails/DeviceMemoryManager.hpp l.87-101. *)
Definition zeroMemory (size start numberOfElements : Z) : call unit :=
  seqc (if debug
        then seqc (check (ret (negb (start =? 0))) NULLPointerException) (fun _ => check (isDeviceMemoryPointer start) InvalidArgumentException)
        else ret tt) (fun _ =>
  seqc (cudaMemset start 0 (u64 (size * numberOfElements))) (fun _ => throw_on_error)).
(** CUDA/ImplementationDetails/DeviceMemoryManager.hpp l.103-131; the copy that is compared is at an address [buffer] that [new] gave,
    and is released again. *)
Definition elementMemoryEqualOnHostAndDevice (buffer size host device count : Z) : call bool :=
  seqc (checks host device isHostMemoryPointer isDeviceMemoryPointer) (fun _ =>
  seqc (check (ret (negb (debug && (count =? 0)))) InvalidArgumentException) (fun _ =>
  let byteCount := u64 (size * count) in
  seqc (cudaMemcpy buffer device byteCount DeviceToHost) (fun _ =>
  seqc throw_on_error (fun _ =>
  fun m => (m, inl (forallb (fun i => byte m (host + i) =? byte m (buffer + i)) (zrange byteCount))))))).
(** CUDA/ImplementationDetails/DeviceBuffer.hpp l.54-61. *)
Definition copyFromDevice (size pointer elementCount src : Z) : call unit :=
  seqc (if debug then check (ret (negb (src =? 0))) NULLPointerException else ret tt) (fun _ =>
  copyElementsFromDeviceToDevice size src pointer elementCount).
(** CUDA/ImplementationDetails/DeviceBuffer.hpp l.63-67. *)
Definition zeroBuffer (size pointer elementCount : Z) : call unit := zeroMemory size pointer elementCount.
End Debug.
