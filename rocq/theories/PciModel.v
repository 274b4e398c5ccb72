(** The devices that computations run on.
    Simplifications: the runtime knows the devices by their properties, which device is active, the limits on the stack of each device, and
    whether an error is pending; limits that the runtime does not accept are an input; [cudaGetDeviceCount] and
    [cudaGetDevice] themselves succeed if there is a device. *)
From Coq Require Import String Ascii List ZArith Bool.
From Verif Require Import CuModel.
Import ListNotations.
Open Scope Z_scope.

(** Device properties, src/OpenMPCD/CUDA/Device.cpp l.20, SystemInformation.cpp l.47-53. *)
Record properties := Properties { pciDomainID : Z; pciBusID : Z; pciDeviceID : Z; name : string; totalGlobalMem : Z }.
(** The runtime, src/OpenMPCD/CUDA/Device.cpp l.17-21, l.69-80: the devices, the active one, the stack sizes, which sizes are accepted, and whether an
    error is pending. *)
Record system := System { devices : list properties; active : nat; stack : nat -> Z; accepted : Z -> bool; pending : bool }.
(** The exceptions, src/OpenMPCD/CUDA/Device.cpp l.18, l.30, l.71, l.77. *)
Inductive exception := CUDAException | AssertionException | Exception | InvalidArgumentException.
(** What a call does (src/OpenMPCD/CUDA/Device.cpp l.15-81). *)
Definition call (A : Type) : Type := system -> system * (A + exception).
(** One after another (src/OpenMPCD/CUDA/Device.cpp l.17-21). *)
Definition seqc {A B : Type} (x : call A) (f : A -> call B) : call B := fun w => match x w with (w, inl a) => f a w | (w, inr e) => (w, inr e) end.
(** A value (src/OpenMPCD/CUDA/Device.cpp l.32). *)
Definition ret {A : Type} (a : A) : call A := fun w => (w, inl a).
(** The error state is set (src/OpenMPCD/CUDA/Device.cpp l.18). *)
Definition set_pending (b : bool) (w : system) : system := System (devices w) (active w) (stack w) (accepted w) b.
(** Macros.hpp l.96. *)
Definition throw_on_error : call unit := fun w => (set_pending false w, if pending w then inr CUDAException else inl tt).
(** cudaGetDeviceProperties (src/OpenMPCD/CUDA/Device.cpp l.20-21), and the check after it. *)
Definition device_properties (i : nat) : call properties :=
  fun w => match nth_error (devices w) i with
           | Some p => seqc throw_on_error (fun _ => ret p) w
           | None => (set_pending false w, inr CUDAException)
           end.

(** An instance, src/OpenMPCD/CUDA/Device.cpp l.15-22. *)
Record device := Device { deviceID : nat; props : properties }.
(** src/OpenMPCD/CUDA/Device.cpp l.15-22. *)
Definition newDevice : call device :=
  fun w => seqc throw_on_error (fun _ => seqc (device_properties (active w)) (fun p => ret (Device (active w) p))) w.
Section Debug.
(** Whether [OPENMPCD_DEBUG] is defined. *)
Variable debug : bool.
(** src/OpenMPCD/CUDA/Device.cpp l.24-33. *)
Definition getDeviceCount : call Z :=
  seqc throw_on_error (fun _ => fun w =>
    let n := Z.of_nat (List.length (devices w)) in
    if debug && negb (1 <=? n) then (w, inr AssertionException) else (w, inl n)).
(** src/OpenMPCD/CUDA/Device.cpp l.35-54: the three identifiers, of type [int], as [unsigned int]. *)
Definition identifier (z : Z) : Z + exception := if debug && negb (0 <=? z) then inr AssertionException else inl (u32 z).
(** A hexadecimal digit (src/OpenMPCD/CUDA/Device.cpp l.59). *)
Definition hex_digit (z : Z) : ascii :=
  nth (Z.to_nat z) ["0"; "1"; "2"; "3"; "4"; "5"; "6"; "7"; "8"; "9"; "a"; "b"; "c"; "d"; "e"; "f"]%char "0"%char.
(** Hexadecimal digits, at most [n] of them (std::hex, src/OpenMPCD/CUDA/Device.cpp l.59). *)
Fixpoint hex (n : nat) (z : Z) : string :=
  match n with
  | O => EmptyString
  | S n => append (if z <? 16 then EmptyString else hex n (z / 16)) (String (hex_digit (z mod 16)) EmptyString)
  end.
(** As many zeros (std::setfill, src/OpenMPCD/CUDA/Device.cpp l.59). *)
Fixpoint zeros (n : nat) : string := match n with O => EmptyString | S n => String "0"%char (zeros n) end.
(** std::setw, src/OpenMPCD/CUDA/Device.cpp l.60-62; an [unsigned int] has at most eight digits. *)
Definition padded (width : nat) (z : Z) : string := let s := hex 8 z in append (zeros (width - String.length s)) s.
(** src/OpenMPCD/CUDA/Device.cpp l.56-65. *)
Definition getPCIAddressString (d : device) : string + exception :=
  match identifier (pciDomainID (props d)) with
  | inr e => inr e
  | inl domain =>
    match identifier (pciBusID (props d)) with
    | inr e => inr e
    | inl bus =>
      match identifier (pciDeviceID (props d)) with
      | inr e => inr e
      | inl slot => inl (padded 4 domain ++ ":" ++ padded 2 bus ++ ":" ++ padded 2 slot)%string
      end
    end
  end.
(** src/OpenMPCD/CUDA/Device.cpp l.67-73. *)
Definition getStackSizePerThread (d : device) : call Z := fun w => (w, inl (stack w (active w))).
(** src/OpenMPCD/CUDA/Device.cpp l.75-81; the error of [cudaDeviceSetLimit] stays pending. *)
Definition setStackSizePerThread (d : device) (value : Z) : call unit :=
  fun w =>
    if debug && (value =? 0) then (w, inr InvalidArgumentException)
    else if accepted w value
         then (System (devices w) (active w) (fun i => if Nat.eqb i (active w) then value else stack w i) (accepted w) (pending w), inl tt)
         else (set_pending true w, inr Exception).
End Debug.

(** SystemInformation.cpp l.36-57: the loop over the devices. *)
Fixpoint collect (n : nat) (i : nat) : call (list (string * Z)) :=
  match n with
  | O => ret []
  | S n => seqc (device_properties i) (fun p => seqc (collect n (S i)) (fun r => ret ((name p, totalGlobalMem p) :: r)))
  end.
(** SystemInformation.cpp l.36-57. *)
Definition getCUDADevices : call (list (string * Z)) :=
  seqc throw_on_error (fun _ => fun w => collect (List.length (devices w)) 0 w).
(** SystemInformation.cpp l.24-34; the argument is what [sysinfo] reports: [mem_unit] and [totalram]. *)
Definition getTotalPhysicalMainMemory (info : option (Z * Z)) : Z + exception :=
  match info with Some (mem_unit, totalram) => inl (u64 (mem_unit * totalram)) | None => inr Exception end.
