(** Interactions of star polymers in device memory: how they are created and destroyed, and what becomes of the memory
    if the construction of star polymers fails.
    Simplifications: kernels run when they are launched; [new] in device code succeeds, and the addresses it gives are an
    input, as are the addresses of arrays (see ResModel.v); pointers have 8 bytes; what a [StarPolymers] object
    allocates on the host is not modelled. *)
From Coq Require Import List ZArith Bool.
From Verif Require Import PotModel StarModel ResModel.
Import ListNotations.
Open Scope Z_scope.

(** The device, as used in StarPolymers_Implementation.hpp l.316-345: arrays, objects with their addresses, and the pointers
    that are stored in memory ([None] if nothing has been stored there); also the number of uses of pointers that are not valid. *)
Record device := Device { memory : runtime; objects : list (Z * potential); pointers : Z -> option Z; faults : nat }.
(** StarPolymers_Implementation.hpp l.366: the arrays have changed. *)
Definition with_memory (r : runtime) (d : device) : device := Device r (objects d) (pointers d) (faults d).
(** StarPolymers_Implementation.hpp l.316: assignment to an element of an array. *)
Definition store (cell a : Z) (d : device) : device :=
  Device (memory d) (objects d) (fun c => if c =? cell then Some a else pointers d c) (faults d).
(** StarPolymers_Implementation.hpp l.366: the contents of a new array are not set. *)
Definition unset (p size : Z) (d : device) : device :=
  Device (memory d) (objects d) (fun c => if (p <=? c) && (c <? p + size) then None else pointers d c) (faults d).
(** StarPolymers_Implementation.hpp l.409: a pointer is used that is not valid. *)
Definition fault (d : device) : device := Device (memory d) (objects d) (pointers d) (S (faults d)).
(** StarPolymers_Implementation.hpp l.316: [cell = new ...], with the address [a]. *)
Definition construct_at (cell a : Z) (x : option potential) (d : device) : device :=
  match x with
  | Some x => store cell a (Device (memory d) ((a, x) :: objects d) (pointers d) (faults d))
  | None => d
  end.
(** StarPolymers_Implementation.hpp l.409: [delete] of a pointer. *)
Definition delete (p : option Z) (d : device) : device :=
  match p with
  | None => fault d
  | Some a =>
    if a =? 0 then d
    else if existsb (fun o => fst o =? a) (objects d)
         then Device (memory d) (filter (fun o => negb (fst o =? a)) (objects d)) (pointers d) (faults d)
         else fault d
  end.

Section Debug.
(** Whether OPENMPCD_DEBUG is defined. *)
Variable debug : bool.

(** StarPolymers_Implementation.hpp l.251-346; [new] gives the addresses. The flag is whether the kernel ran to its end. *)
Definition createInteractionsOnDevice_kernel (p : parameters) (new : nat -> Z) (w f m : Z) (d : device) : device * bool :=
  if debug && ((w =? 0) || (f =? 0) || (m =? 0)) then (d, false)
  else
    let i := createInteractions p in
    let indexCC := getParticleTypeCombinationIndex TCore TCore in
    let indexCA := getParticleTypeCombinationIndex TCore TArm in
    let indexCM := getParticleTypeCombinationIndex TCore TMagnetic in
    let indexAA := getParticleTypeCombinationIndex TArm TArm in
    let indexAM := getParticleTypeCombinationIndex TArm TMagnetic in
    let indexMM := getParticleTypeCombinationIndex TMagnetic TMagnetic in
    let d := construct_at (w + 8 * indexCC) (new 0%nat) (WCAPotentials i indexCC) d in
    let d := construct_at (w + 8 * indexCA) (new 1%nat) (WCAPotentials i indexCA) d in
    let d := construct_at (w + 8 * indexCM) (new 2%nat) (WCAPotentials i indexCM) d in
    let d := construct_at (w + 8 * indexAA) (new 3%nat) (WCAPotentials i indexAA) d in
    let d := construct_at (w + 8 * indexAM) (new 4%nat) (WCAPotentials i indexAM) d in
    let d := construct_at (w + 8 * indexMM) (new 5%nat) (WCAPotentials i indexMM) d in
    let d := construct_at (f + 8 * indexCA) (new 6%nat) (FENEPotentials i indexCA) d in
    let d := construct_at (f + 8 * indexAA) (new 7%nat) (FENEPotentials i indexAA) d in
    let d := construct_at (f + 8 * indexAM) (new 8%nat) (FENEPotentials i indexAM) d in
    let d := if debug then store (f + 8 * indexMM) 0 (store (f + 8 * indexCM) 0 (store (f + 8 * indexCC) 0 d)) else d in
    let d := construct_at m (new 9%nat) (Some (magneticPotential i)) d in
    (d, true).

(** The pointers that are returned, or the exception (StarPolymers_Implementation.hpp l.354-360). *)
Inductive created := Created (w f m : Z) | NotCreated (e : exception).
(** StarPolymers_Implementation.hpp l.366-368: an array of [n] pointers. *)
Definition array (n : Z) (answer : option Z) (d : device) : device * outcome :=
  match allocateMemoryUnregistered debug 8 n answer (memory d) with
  | (r, Pointer q) => (unset q (8 * n) (with_memory r d), Pointer q)
  | (r, o) => (with_memory r d, o)
  end.
(** StarPolymers_Implementation.hpp l.349-377; [answers] is what [cudaMalloc] gives. The output arguments are not NULL. *)
Definition createInteractionsOnDevice (p : parameters) (answers : nat -> option Z) (new : nat -> Z) (d : device) : device * created :=
  match array 6 (answers 0%nat) d with
  | (d, Pointer w) =>
    match array 6 (answers 1%nat) d with
    | (d, Pointer f) =>
      match array 1 (answers 2%nat) d with
      | (d, Pointer m) => (fst (createInteractionsOnDevice_kernel p new w f m d), Created w f m)
      | (d, Thrown e) => (d, NotCreated e)
      | (d, Done) => (d, NotCreated CudaException)
      end
    | (d, Thrown e) => (d, NotCreated e)
    | (d, Done) => (d, NotCreated CudaException)
    end
  | (d, Thrown e) => (d, NotCreated e)
  | (d, Done) => (d, NotCreated CudaException)
  end.

(** One statement after the other, unless an assertion fails (StarPolymers_Implementation.hpp l.401-446). *)
Definition andthen (a b : device -> device * bool) (d : device) : device * bool :=
  match a d with (d, true) => b d | (d, false) => (d, false) end.
(** StarPolymers_Implementation.hpp l.401-403 and l.407: an assertion about a pointer in memory. *)
Definition check (holds : Z -> bool) (cell : Z) (d : device) : device * bool :=
  if debug then match pointers d cell with Some a => (d, holds a) | None => (fault d, false) end else (d, true).
(** StarPolymers_Implementation.hpp l.409: [delete] of a pointer in memory. *)
Definition delete_at (cell : Z) (d : device) : device * bool := (delete (pointers d cell) d, true).
(** StarPolymers_Implementation.hpp l.392-447. *)
Definition destroyInteractionsOnDevice_kernel (w f m : Z) (d : device) : device * bool :=
  if debug && ((w =? 0) || (f =? 0) || (m =? 0)) then (d, false)
  else
    let null a := a =? 0 in
    let set a := negb (a =? 0) in
    let indexCC := getParticleTypeCombinationIndex TCore TCore in
    let indexCA := getParticleTypeCombinationIndex TCore TArm in
    let indexCM := getParticleTypeCombinationIndex TCore TMagnetic in
    let indexAA := getParticleTypeCombinationIndex TArm TArm in
    let indexAM := getParticleTypeCombinationIndex TArm TMagnetic in
    let indexMM := getParticleTypeCombinationIndex TMagnetic TMagnetic in
    andthen (fold_right (fun i rest => andthen (check set (w + 8 * i)) (andthen (delete_at (w + 8 * i)) rest)) (fun d => (d, true)) [0; 1; 2; 3; 4; 5])
   (andthen (check set (f + 8 * indexCA)) (andthen (check set (f + 8 * indexAA)) (andthen (check set (f + 8 * indexAM))
   (andthen (check null (f + 8 * indexCC)) (andthen (check null (f + 8 * indexCM)) (andthen (check null (f + 8 * indexMM))
   (andthen (delete_at (f + 8 * indexCA)) (andthen (delete_at (f + 8 * indexAA)) (andthen (delete_at (f + 8 * indexAM))
            (delete_at m)))))))))) d.

(** StarPolymers_Implementation.hpp l.462-464: the arrays are freed, up to the first exception. *)
Fixpoint free_all (ps : list Z) (d : device) : device * outcome :=
  match ps with
  | [] => (d, Done)
  | q :: ps =>
    match freeMemoryUnregistered debug q (memory d) with
    | (r, Done) => free_all ps (with_memory r d)
    | (r, o) => (with_memory r d, o)
    end
  end.
(** StarPolymers_Implementation.hpp l.450-465. After a failed assertion, freeing an array reports the error (DeviceMemoryManager.cpp l.53-103). *)
Definition destroyInteractionsOnDevice (w f m : Z) (d : device) : device * outcome :=
  match destroyInteractionsOnDevice_kernel w f m d with
  | (d, true) => free_all [w; f; m] d
  | (d, false) => (d, if (w =? 0) && (f =? 0) && (m =? 0) then Done else Thrown CudaException)
  end.

(** A [StarPolymers] object: its memory manager, and its pointers to interactions (OpenMPCD/CUDA/MPCSolute/StarPolymers.hpp l.378-386). *)
Record star := Star { buffers : manager; wcaPotentials : Z; fenePotentials : Z; magneticPotentials : Z }.
(** StarPolymers.cu l.193-306: the object, or [None] after an exception. *)
Definition made := option star.
(** StarPolymers.cu l.227-230: the buffers, each with [n] numbers of [size] bytes, and whether there was no exception. *)
Fixpoint allocate_all (size n : Z) (answers : list (option Z)) (s : manager) (r : runtime) : manager * runtime * bool :=
  match answers with
  | [] => (s, r, true)
  | a :: answers =>
    match allocateMemory debug size n a s r with
    | (s, r, Pointer _) => allocate_all size n answers s r
    | (s, r, _) => (s, r, false)
    end
  end.
(** StarPolymers.cu l.193-306: what happens to members if the constructor throws; the destructor does not run. *)
Definition unwound (s : manager) (d : device) : device * made := (with_memory (fst (manager_delete s (memory d))) d, None).
(** StarPolymers.cu l.193-306. [coordinateCount] is [None] if there is an exception before l.227; [p] is [None] if there is one in l.242-274,
    and [started] is whether there is none in l.285-306. *)
Definition construct (size : Z) (coordinateCount : option Z) (p : option parameters) (started : bool)
  (answers : nat -> option Z) (new : nat -> Z) (d : device) : device * made :=
  let s := setAutofree true manager_new in
  match coordinateCount with
  | None => unwound s d
  | Some n =>
    match allocate_all size n [answers 3%nat; answers 4%nat; answers 5%nat; answers 6%nat] s (memory d) with
    | (s, r, false) => unwound s (with_memory r d)
    | (s, r, true) =>
      let d := with_memory r d in
      match p with
      | None => unwound s d
      | Some p =>
        match createInteractionsOnDevice p answers new d with
        | (d, NotCreated _) => unwound s d
        | (d, Created w f m) => if started then (d, Some (Star s w f m)) else unwound s d
        end
      end
    end
  end.
(** StarPolymers.cu l.308-313, and the destructors of members. *)
Definition destruct (s : star) (d : device) : device * outcome :=
  match destroyInteractionsOnDevice (wcaPotentials s) (fenePotentials s) (magneticPotentials s) d with
  | (d, o) => (with_memory (fst (manager_delete (buffers s) (memory d))) d, o)
  end.
End Debug.
