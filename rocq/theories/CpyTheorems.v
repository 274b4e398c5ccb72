(** Copies to and from device memory (C129). *)
From Coq Require Import List ZArith Bool Lia.
From Verif Require Import CuModel CpyModel CpySpec CpyProof.
Import ListNotations.
Open Scope Z_scope.

(** Copying to the device puts the bytes of the elements there, and changes nothing else. *)
Theorem to_device_copies debug size src dest count m : fits size count -> sane m -> last m = cudaSuccess ->
  host_pointer_to m src -> device_region m dest (size * count) ->
  exists m', copyElementsFromHostToDevice debug size src dest count m = (m', inl tt) /\
    changed m m' dest (size * count) (fun i => byte m (src + i)).
Proof. intros F N L (H & O) D. exact (to_device debug size src dest count m F N L H O D). Qed.
Print Assumptions to_device_copies.
Example to_device_copies_example :
  let (m, r) := copyElementsFromHostToDevice true 4 100 1028 2 two_buffers in
  r = inl tt /\ map (byte m) [1027; 1028; 1035; 1036; 100] = [3; 100; 107; 12; 100].
Proof. vm_compute. split; reflexivity. Qed.
Example two_buffers_sane : sane two_buffers /\ host_pointer_to two_buffers 100 /\ device_region two_buffers 1028 8.
Proof.
  repeat split.
  - intros a l [[= <- <-] | [[= <- <-] | []]]; lia.
  - lia.
  - intros a l [[= <- <-] | [[= <- <-] | []]]; lia.
  - exists 1024, 32. cbn. split; [auto|lia].
Qed.

(** Likewise in the other direction, *)
Theorem to_host_copies debug size src dest count m : fits size count -> sane m -> last m = cudaSuccess ->
  host_pointer_to m dest -> device_region m src (size * count) ->
  exists m', copyElementsFromDeviceToHost debug size src dest count m = (m', inl tt) /\
    changed m m' dest (size * count) (fun i => byte m (src + i)).
Proof. intros F N L (H & O) D. exact (to_host debug size src dest count m F N L H O D). Qed.
Print Assumptions to_host_copies.
Example to_host_copies_example :
  let (m, r) := copyElementsFromDeviceToHost false 8 2048 500 2 two_buffers in r = inl tt /\ map (byte m) [499; 500; 515; 516] = [243; 0; 15; 4].
Proof. vm_compute. split; reflexivity. Qed.

(** and on the device; a buffer is copied to completely. *)
Theorem on_device_copies debug size src dest count m : fits size count -> sane m -> last m = cudaSuccess ->
  device_region m src (size * count) -> device_region m dest (size * count) -> apart src dest (size * count) ->
  exists m', copyElementsFromDeviceToDevice debug size src dest count m = (m', inl tt) /\
    copyFromDevice debug size dest count src m = (m', inl tt) /\
    changed m m' dest (size * count) (fun i => byte m (src + i)).
Proof.
  intros F N L S D _. destruct (on_the_device debug size src dest count m F N L S D) as (m' & E & C). exists m'. split; [exact E|]. split; [|exact C].
  unfold copyFromDevice. unfold seqc at 1. destruct debug; [|exact E]. unfold check, seqc, ret. rewrite (nonzero src) by exact (region_nonzero m _ _ N S). exact E.
Qed.
Print Assumptions on_device_copies.
Example on_device_copies_example :
  let (m, r) := copyFromDevice true 8 1040 2 2048 two_buffers in r = inl tt /\ map (byte m) [1039; 1040; 1055; 1056] = [15; 0; 15; 32].
Proof. vm_compute. split; reflexivity. Qed.

(** What is copied to the device and back is the same again. *)
Theorem round_trip debug size src dest there count m : fits size count -> sane m -> last m = cudaSuccess ->
  host_pointer_to m src -> host_pointer_to m dest -> device_region m there (size * count) ->
  exists m', seqc (copyElementsFromHostToDevice debug size src there count) (fun _ => copyElementsFromDeviceToHost debug size there dest count) m = (m', inl tt) /\
    (forall i, 0 <= i < size * count -> byte m' (dest + i) = byte m (src + i)).
Proof.
  intros F N L (Hs & Os) (Hd & Od) D. destruct (to_device debug size src there count m F N L Hs Os D) as (m1 & E1 & C1). destruct C1 as (A1 & B1 & L1 & S1).
  destruct (to_host debug size there dest count m1) as (m2 & E2 & C2).
  - exact F.
  - unfold sane. rewrite L1. exact N.
  - exact S1.
  - exact Hd.
  - unfold not_on_device. rewrite L1. exact Od.
  - unfold device_region. rewrite L1. exact D.
  - exists m2. unfold seqc. rewrite E1. split; [exact E2|]. intros i I. destruct C2 as (A2 & _). rewrite A2 by exact I. apply A1. exact I.
Qed.
Print Assumptions round_trip.
Example round_trip_example :
  let (m, r) := seqc (copyElementsFromHostToDevice true 4 100 1024 8) (fun _ => copyElementsFromDeviceToHost true 4 1024 300 8) two_buffers in
  r = inl tt /\ map (byte m) [299; 300; 331; 332] = [43; 100; 131; 76].
Proof. vm_compute. split; reflexivity. Qed.

(** Zeroing makes all bytes of the elements zero, and changes nothing else. *)
Theorem memory_zeroed debug size start count m : fits size count -> sane m -> last m = cudaSuccess -> device_region m start (size * count) ->
  exists m', zeroMemory debug size start count m = (m', inl tt) /\ zeroBuffer debug size start count m = (m', inl tt) /\
    changed m m' start (size * count) (fun _ => 0).
Proof. intros F N L D. destruct (zeroes debug size start count m F N L D) as (m' & E & C). exists m'. repeat split; try exact E; apply C. Qed.
Print Assumptions memory_zeroed.
Example memory_zeroed_example :
  let (m, r) := zeroMemory true 4 1025 2 two_buffers in r = inl tt /\ map (byte m) [1024; 1025; 1032; 1033] = [0; 0; 0; 9].
Proof. vm_compute. split; reflexivity. Qed.

(** Comparing tells whether all bytes are the same; apart from the copy that is made for it, memory does not change. *)
Theorem memory_compared debug buffer size host device count m : fits size count -> sane m -> last m = cudaSuccess ->
  host_pointer_to m host -> not_on_device m buffer -> apart host buffer (size * count) -> device_region m device (size * count) ->
  exists m' b, elementMemoryEqualOnHostAndDevice debug buffer size host device count m = (m', inl b) /\
    (b = true <-> forall i, 0 <= i < size * count -> byte m (host + i) = byte m (device + i)) /\
    changed m m' buffer (size * count) (fun i => byte m (device + i)).
Proof. intros F N L (H & O). exact (compared debug buffer size host device count m F N L H O). Qed.
Print Assumptions memory_compared.
Example memory_compared_example :
  snd (elementMemoryEqualOnHostAndDevice true 600 4 256 1024 8 two_buffers) = inl true /\
  snd (elementMemoryEqualOnHostAndDevice true 600 4 257 1024 8 two_buffers) = inl false.
Proof. vm_compute. split; reflexivity. Qed.

(** In debug builds, NULL and pointers to memory of the wrong kind are refused, and nothing changes. *)
Theorem copies_refused size src dest count m : last m = cudaSuccess ->
  (src = 0 \/ dest = 0 ->
    copyElementsFromHostToDevice true size src dest count m = (m, inr NULLPointerException) /\
    copyElementsFromDeviceToHost true size src dest count m = (m, inr NULLPointerException) /\
    copyElementsFromDeviceToDevice true size src dest count m = (m, inr NULLPointerException) /\
    (forall buffer, elementMemoryEqualOnHostAndDevice true buffer size src dest count m = (m, inr NULLPointerException))) /\
  zeroMemory true size 0 count m = (m, inr NULLPointerException) /\
  (src <> 0 -> dest <> 0 ->
    (is_on_device m src \/ not_on_device m dest ->
      copyElementsFromHostToDevice true size src dest count m = (m, inr InvalidArgumentException) /\
      (forall buffer, elementMemoryEqualOnHostAndDevice true buffer size src dest count m = (m, inr InvalidArgumentException))) /\
    (not_on_device m src \/ is_on_device m dest -> copyElementsFromDeviceToHost true size src dest count m = (m, inr InvalidArgumentException)) /\
    (not_on_device m src \/ not_on_device m dest -> copyElementsFromDeviceToDevice true size src dest count m = (m, inr InvalidArgumentException)) /\
    (not_on_device m dest -> zeroMemory true size dest count m = (m, inr InvalidArgumentException))).
Proof.
  intros L. split; [|split].
  - intros H. assert (E : forall s d, checks true src dest s d m = (m, inr NULLPointerException)).
    { intros s d. unfold checks, seqc, check, seqc, ret, throw. destruct (Z.eqb_spec src 0); [reflexivity|]. cbn [negb]. destruct (Z.eqb_spec dest 0); [reflexivity|]. destruct H; contradiction. }
    unfold copyElementsFromHostToDevice, copyElementsFromDeviceToHost, copyElementsFromDeviceToDevice, elementMemoryEqualOnHostAndDevice.
    repeat split; unfold seqc at 1; rewrite E; reflexivity.
  - reflexivity.
  - intros Hs Hd.
    assert (Hh : forall p, p <> 0 -> isHostMemoryPointer p m = (m, inl (negb (on_device m p)))) by (intros p H; rewrite (host_pointer m p L), (nonzero p H); reflexivity).
    assert (E : forall (s d : Z -> call bool) bs bd, s src m = (m, inl bs) -> d dest m = (m, inl bd) -> bs && bd = false -> checks true src dest s d m = (m, inr InvalidArgumentException)).
    { intros s d bs bd A B C. unfold checks, seqc, check, seqc, ret, throw. rewrite (nonzero src Hs), (nonzero dest Hd). cbn [negb]. rewrite A. destruct bs; [|reflexivity]. rewrite B. cbn in C. rewrite C. reflexivity. }
    assert (Y : forall p, is_on_device m p -> on_device m p = true) by (intros; apply on_device_iff; assumption).
    assert (Nn : forall p, not_on_device m p -> on_device m p = false) by (intros; apply off_device_iff; assumption).
    repeat split.
    + unfold copyElementsFromHostToDevice, seqc at 1. rewrite (E _ _ _ _ (Hh src Hs) (device_pointer m dest L)); [reflexivity|].
      destruct H as [H | H]; [rewrite (Y _ H); reflexivity|rewrite (Nn _ H); apply andb_false_r].
    + intros buffer. unfold elementMemoryEqualOnHostAndDevice, seqc at 1. rewrite (E _ _ _ _ (Hh src Hs) (device_pointer m dest L)); [reflexivity|].
      destruct H as [H | H]; [rewrite (Y _ H); reflexivity|rewrite (Nn _ H); apply andb_false_r].
    + intros H. unfold copyElementsFromDeviceToHost, seqc at 1. rewrite (E _ _ _ _ (device_pointer m src L) (Hh dest Hd)); [reflexivity|].
      destruct H as [H | H]; [rewrite (Nn _ H); reflexivity|rewrite (Y _ H); apply andb_false_r].
    + intros H. unfold copyElementsFromDeviceToDevice, seqc at 1. rewrite (E _ _ _ _ (device_pointer m src L) (device_pointer m dest L)); [reflexivity|].
      destruct H as [H | H]; [rewrite (Nn _ H); reflexivity|rewrite (Nn _ H); apply andb_false_r].
    + intros H. unfold zeroMemory, seqc at 1 2, check at 1, seqc at 1, ret at 1. rewrite (nonzero dest Hd). cbn [negb]. unfold ret at 1, check, seqc at 1. rewrite (device_pointer m dest L), (Nn _ H). reflexivity.
Qed.
Print Assumptions copies_refused.
Example copies_refused_example :
  snd (copyElementsFromHostToDevice true 4 0 1024 1 two_buffers) = inr NULLPointerException /\
  snd (copyElementsFromHostToDevice true 4 1024 1032 1 two_buffers) = inr InvalidArgumentException /\
  snd (copyElementsFromDeviceToHost true 4 1024 1032 1 two_buffers) = inr InvalidArgumentException.
Proof. vm_compute. repeat split. Qed.

(** Comparing no elements is refused in debug builds. *)
Theorem nothing_compared buffer size host device m : sane m -> last m = cudaSuccess -> host_pointer_to m host -> is_on_device m device ->
  elementMemoryEqualOnHostAndDevice true buffer size host device 0 m = (m, inr InvalidArgumentException) /\
  elementMemoryEqualOnHostAndDevice false buffer size host device 0 m = (m, inl true).
Proof.
  intros N L (H & O) (a & l & I & D). assert (Hd : device <> 0) by (specialize (N a l I); lia). split.
  - unfold elementMemoryEqualOnHostAndDevice, seqc at 1. rewrite checks_pass; [reflexivity|apply nonzero; exact H|apply nonzero; exact Hd| |].
    + rewrite (host_pointer m host L), (nonzero host H), (proj2 (off_device_iff m host) O). reflexivity.
    + rewrite (device_pointer m device L). rewrite (proj2 (on_device_iff m device)); [reflexivity|]. exists a, l. auto.
  - unfold elementMemoryEqualOnHostAndDevice. rewrite Z.mul_0_r. change (u64 0) with 0. unfold checks, seqc at 1, ret at 1. unfold check, seqc at 1 2, ret at 1. cbn [negb andb].
    unfold ret at 1. unfold cudaMemcpy, seqc at 1. cbn [Z.eqb]. unfold seqc. rewrite (no_error m L). reflexivity.
Qed.
Print Assumptions nothing_compared.
Example nothing_compared_example : snd (elementMemoryEqualOnHostAndDevice true 600 4 256 1024 0 two_buffers) = inr InvalidArgumentException.
Proof. vm_compute. reflexivity. Qed.

(** If the elements are not all within one allocation on the device, there is an exception in every build, and nothing changes. *)
Theorem copies_fail debug size src dest count m : fits size count -> last m = cudaSuccess ->
  (~ device_region m dest (size * count) -> exists e, copyElementsFromHostToDevice debug size src dest count m = (m, inr e)) /\
  (~ device_region m src (size * count) -> exists e, copyElementsFromDeviceToHost debug size src dest count m = (m, inr e)) /\
  (~ device_region m src (size * count) \/ ~ device_region m dest (size * count) -> exists e, copyElementsFromDeviceToDevice debug size src dest count m = (m, inr e)) /\
  (~ device_region m dest (size * count) -> exists e, zeroMemory debug size dest count m = (m, inr e)).
Proof.
  intros F L. destruct (bytes_ok size count F) as (U & P). assert (Z0 : size * count <> 0) by lia.
  repeat split; intros H.
  - unfold copyElementsFromHostToDevice. eapply checks_then; [exact L|exact (host_any m src L)|exact (device_any m dest L)|]. rewrite U. apply copy_error; [exact L|exact Z0|]. rewrite (not_in _ _ _ H). reflexivity.
  - unfold copyElementsFromDeviceToHost. eapply checks_then; [exact L|exact (device_any m src L)|exact (host_any m dest L)|]. rewrite U. apply copy_error; [exact L|exact Z0|]. rewrite (not_in _ _ _ H). reflexivity.
  - unfold copyElementsFromDeviceToDevice. eapply checks_then; [exact L|exact (device_any m src L)|exact (device_any m dest L)|]. rewrite U. apply copy_error; [exact L|exact Z0|].
    destruct H as [H | H]; rewrite (not_in _ _ _ H); [reflexivity|apply andb_false_r].
  - unfold zeroMemory. unfold seqc at 1.
    assert (E : exists r, (if debug then seqc (check (ret (negb (dest =? 0))) NULLPointerException) (fun _ => check (isDeviceMemoryPointer dest) InvalidArgumentException) else ret tt) m = (m, r)).
    { destruct debug; [|eexists; reflexivity]. unfold seqc, check, seqc, ret, throw. destruct (dest =? 0); cbn [negb]; [eexists; reflexivity|]. rewrite (device_pointer m dest L). destruct (on_device m dest); eexists; reflexivity. }
    destruct E as (r & E). rewrite E. destruct r as [x|e]; [|eexists; reflexivity]. exists CUDAException. rewrite U. unfold seqc, cudaMemset. rewrite (nonzero _ Z0), (not_in _ _ _ H).
    unfold throw_on_error, seqc, cudaGetLastError, fail, throw. cbn [last byte allocations]. rewrite (eta m L). reflexivity.
Qed.
Print Assumptions copies_fail.
Example copies_fail_example : snd (copyElementsFromHostToDevice false 4 100 1052 2 two_buffers) = inr CUDAException.
Proof. vm_compute. reflexivity. Qed.

(** Whether a pointer is one to device memory is told correctly if there is no earlier error. *)
Theorem pointers_told m p : last m = cudaSuccess -> sane m ->
  (is_on_device m p -> isDeviceMemoryPointer p m = (m, inl true) /\ isHostMemoryPointer p m = (m, inl false)) /\
  (host_pointer_to m p -> isDeviceMemoryPointer p m = (m, inl false) /\ isHostMemoryPointer p m = (m, inl true)) /\
  isDeviceMemoryPointer 0 m = (m, inl false) /\ isHostMemoryPointer 0 m = (m, inl false).
Proof.
  intros L N. assert (O0 : on_device m 0 = false) by (apply off_device_iff; intros a l I; specialize (N a l I); lia).
  repeat split; rewrite ?(device_pointer m _ L), ?(host_pointer m _ L).
  - rewrite (proj2 (on_device_iff m p) H). reflexivity.
  - rewrite (proj2 (on_device_iff m p) H). rewrite andb_false_r. reflexivity.
  - rewrite (proj2 (off_device_iff m p) (proj2 H)). reflexivity.
  - rewrite (proj2 (off_device_iff m p) (proj2 H)), (nonzero p (proj1 H)). reflexivity.
  - rewrite O0. reflexivity.
Qed.
Print Assumptions pointers_told.
Example pointers_told_example : isDeviceMemoryPointer 1055 two_buffers = (two_buffers, inl true) /\ isDeviceMemoryPointer 1056 two_buffers = (two_buffers, inl false).
Proof. split; reflexivity. Qed.

(** An error of an earlier call makes a pointer to device memory be taken for none, and is forgotten thereby; and if the number of bytes
    exceeds 64 bits, nothing is copied, without an error. *)
Theorem copies_refuted :
  let late := Machine (byte two_buffers) (allocations two_buffers) cudaErrorInvalidValue in
  isDeviceMemoryPointer 1024 late = (two_buffers, inl false) /\
  copyElementsFromDeviceToDevice true 4 1024 2048 1 late = (two_buffers, inr InvalidArgumentException) /\
  copyElementsFromHostToDevice false 8 100 1024 (2 ^ 61) two_buffers = (two_buffers, inl tt).
Proof. repeat split. Qed.
Print Assumptions copies_refuted.
