(** Devices and their addresses (C130). *)
From Coq Require Import String Ascii List ZArith Bool Lia.
From Verif Require Import CuModel StrBase PciModel PciSpec PciProof.
Import ListNotations.
Open Scope Z_scope.

(** The address tells domain, bus and slot, so that devices with different ones have different addresses. *)
Theorem address_tells debug d : 0 <= pciDomainID (props d) < 2 ^ 31 -> 0 <= pciBusID (props d) < 2 ^ 31 -> 0 <= pciDeviceID (props d) < 2 ^ 31 ->
  exists s, getPCIAddressString debug d = inl s /\ read_address s = Some (pciDomainID (props d), pciBusID (props d), pciDeviceID (props d)).
Proof.
  intros A B C. unfold getPCIAddressString, identifier.
  replace (0 <=? pciDomainID (props d)) with true by (symmetry; apply Z.leb_le; lia). replace (0 <=? pciBusID (props d)) with true by (symmetry; apply Z.leb_le; lia).
  replace (0 <=? pciDeviceID (props d)) with true by (symmetry; apply Z.leb_le; lia). cbn [negb]. rewrite andb_false_r. eexists. split; [reflexivity|].
  unfold u32. rewrite !Z.mod_small by lia. unfold read_address.
  destruct (padded_ok 4 (pciDomainID (props d))) as (A1 & A2); [lia|]. destruct (padded_ok 2 (pciBusID (props d))) as (B1 & B2); [lia|]. destruct (padded_ok 2 (pciDeviceID (props d))) as (C1 & C2); [lia|].
  rewrite three_parts by assumption. rewrite A1, B1, C1. reflexivity.
Qed.
Print Assumptions address_tells.
Example address_tells_example : getPCIAddressString true (Device 1 card) = inl "0000:3b:0a"%string.
Proof. vm_compute. reflexivity. Qed.

(** With domains below 65536, and buses and slots below 256, there are four, two and two digits. *)
Theorem address_format debug d : 0 <= pciDomainID (props d) < 65536 -> 0 <= pciBusID (props d) < 256 -> 0 <= pciDeviceID (props d) < 256 ->
  exists s, getPCIAddressString debug d = inl s /\ parts s = [4; 2; 2]%nat.
Proof.
  intros A B C. unfold getPCIAddressString, identifier.
  replace (0 <=? pciDomainID (props d)) with true by (symmetry; apply Z.leb_le; lia). replace (0 <=? pciBusID (props d)) with true by (symmetry; apply Z.leb_le; lia).
  replace (0 <=? pciDeviceID (props d)) with true by (symmetry; apply Z.leb_le; lia). cbn [negb]. rewrite andb_false_r. eexists. split; [reflexivity|].
  unfold u32. rewrite !Z.mod_small by lia. unfold parts.
  destruct (padded_ok 4 (pciDomainID (props d))) as (A1 & A2); [lia|]. destruct (padded_ok 2 (pciBusID (props d))) as (B1 & B2); [lia|]. destruct (padded_ok 2 (pciDeviceID (props d))) as (C1 & C2); [lia|].
  rewrite three_parts by assumption. cbn [map]. rewrite !padded_length; cbn; try lia. reflexivity.
Qed.
Print Assumptions address_format.
Example address_format_example : parts "0000:3b:0a" = [4; 2; 2]%nat.
Proof. vm_compute. reflexivity. Qed.

(** Not so for domains from 65536 on, as virtual machines have them: there are more than four digits. *)
Theorem address_format_refuted : exists d s, getPCIAddressString true d = inl s /\ parts s = [5; 2; 2]%nat.
Proof. exists (Device 0 (Properties 65536 0 0 "" 0)). eexists. split; vm_compute; reflexivity. Qed.
Print Assumptions address_format_refuted.

(** Negative identifiers are refused in debug builds. *)
Theorem address_refused d : pciDomainID (props d) < 0 \/ pciBusID (props d) < 0 \/ pciDeviceID (props d) < 0 ->
  getPCIAddressString true d = inr AssertionException.
Proof.
  intros H. unfold getPCIAddressString, identifier. cbn [andb]. destruct (Z.leb_spec 0 (pciDomainID (props d))); cbn [negb]; [|reflexivity].
  destruct (Z.leb_spec 0 (pciBusID (props d))); cbn [negb]; [|reflexivity]. destruct (Z.leb_spec 0 (pciDeviceID (props d))); cbn [negb]; [lia|reflexivity].
Qed.
Print Assumptions address_refused.
Example address_refused_example : getPCIAddressString true (Device 0 (Properties 0 (-1) 0 "" 0)) = inr AssertionException.
Proof. reflexivity. Qed.

(** A new instance is the active device; the number and the list of devices are those of the system. *)
Theorem devices_known debug w p : pending w = false -> nth_error (devices w) (active w) = Some p ->
  newDevice w = (w, inl (Device (active w) p)) /\
  getDeviceCount debug w = (w, inl (Z.of_nat (List.length (devices w)))) /\
  getCUDADevices w = (w, inl (map (fun p => (name p, totalGlobalMem p)) (devices w))).
Proof.
  intros P A. assert (W : set_pending false w = w) by (unfold set_pending; destruct w; cbn in *; rewrite P; reflexivity). split; [|split].
  - unfold newDevice. unfold seqc at 1, throw_on_error at 1. rewrite P, W. unfold seqc at 1, device_properties. rewrite A. unfold seqc, throw_on_error. rewrite P, W. reflexivity.
  - unfold getDeviceCount, seqc, throw_on_error. rewrite P, W. destruct (devices w) eqn:E; [destruct (active w); discriminate|]. 
    replace (1 <=? Z.of_nat (List.length (p0 :: l))) with true by (symmetry; apply Z.leb_le; cbn [List.length]; lia). rewrite andb_false_r. reflexivity.
  - unfold getCUDADevices, seqc at 1, throw_on_error at 1. rewrite P, W. rewrite collect_ok by (try exact P; lia). rewrite skipn_O, firstn_all. reflexivity.
Qed.
Print Assumptions devices_known.
Example devices_known_example : newDevice node = (node, inl (Device 1 card)) /\ snd (getCUDADevices node) = inl [("First"%string, 4000); ("Some device"%string, 8000000000)].
Proof. split; vm_compute; reflexivity. Qed.

(** Without an active device, there is an exception. *)
Theorem no_device w : nth_error (devices w) (active w) = None -> snd (newDevice w) = inr CUDAException.
Proof.
  intros A. unfold newDevice, seqc at 1, throw_on_error. destruct (pending w); [reflexivity|]. unfold seqc, device_properties. cbn [set_pending devices]. rewrite A. reflexivity.
Qed.
Print Assumptions no_device.
Example no_device_example : snd (newDevice (System [] 0 (fun _ => 0) (fun _ => true) false)) = inr CUDAException.
Proof. reflexivity. Qed.

(** The stack size that was set on the active device is the one that is returned; zero is refused in debug builds, and so are sizes that
    the runtime does not accept, and then the size stays as it is. *)
Theorem stack_size debug d w value : deviceID d = active w -> value <> 0 ->
  (accepted w value = true -> exists w', setStackSizePerThread debug d value w = (w', inl tt) /\ getStackSizePerThread d w' = (w', inl value) /\
     pending w' = pending w /\ devices w' = devices w /\ (forall i, i <> deviceID d -> stack w' i = stack w i)) /\
  (accepted w value = false -> exists w', setStackSizePerThread debug d value w = (w', inr Exception) /\ stack w' = stack w) /\
  setStackSizePerThread true d 0 w = (w, inr InvalidArgumentException).
Proof.
  intros D V. unfold setStackSizePerThread. rewrite (proj2 (Z.eqb_neq value 0) V), andb_false_r. split; [|split].
  - intros ->. eexists. split; [reflexivity|]. unfold getStackSizePerThread. cbn. rewrite Nat.eqb_refl. repeat split.
    intros i H. rewrite <- D. apply Nat.eqb_neq in H. rewrite H. reflexivity.
  - intros ->. eexists. split; reflexivity.
  - reflexivity.
Qed.
Print Assumptions stack_size.
Example stack_size_example :
  let (w, r) := setStackSizePerThread true (Device 1 card) 2048 node in r = inl tt /\ snd (getStackSizePerThread (Device 1 card) w) = inl 2048.
Proof. vm_compute. split; reflexivity. Qed.

(** The stack size is that of the device active at the time of the call, not of the one that the instance represents. After a size was
    refused, the next call that looks for errors fails, though nothing is wrong with it. *)
Theorem stack_size_refuted :
  let one := Device 0 (Properties 0 4 0 "First" 4000) in
  stack (fst (setStackSizePerThread true one 2048 node)) 0 = 1024 /\ stack (fst (setStackSizePerThread true one 2048 node)) 1 = 2048 /\
  let w := fst (setStackSizePerThread true (Device 1 card) 1000000 node) in snd (getDeviceCount true w) = inr CUDAException.
Proof. vm_compute. repeat split. Qed.
Print Assumptions stack_size_refuted.

(** The size of main memory is the number of units times their size, if that is below 2^64. *)
Theorem main_memory mem_unit totalram : 0 <= mem_unit -> 0 <= totalram -> mem_unit * totalram < 2 ^ 64 ->
  getTotalPhysicalMainMemory (Some (mem_unit, totalram)) = inl (mem_unit * totalram) /\ getTotalPhysicalMainMemory None = inr Exception.
Proof. intros A B C. cbn. unfold u64. rewrite Z.mod_small by nia. split; reflexivity. Qed.
Print Assumptions main_memory.
Example main_memory_example : getTotalPhysicalMainMemory (Some (4096, 4194304)) = inl 17179869184.
Proof. vm_compute. reflexivity. Qed.
