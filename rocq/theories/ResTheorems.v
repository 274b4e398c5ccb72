(** C63, C64, C83: device memory and MPI. *)
From Coq Require Import List ZArith Bool Lia Permutation Sorted.
From Verif Require Import CuModel CuProof ResModel ResSpec ResProof MpiProof.
Import ListNotations.
Open Scope Z_scope.

(** C63: after every sequence of calls, and the destruction of the manager, each buffer that was
    obtained has been released exactly once, or is listed in the warning; with automatic freeing
    nothing is left, and nothing else is ever released. *)
Theorem device_memory : forall debug cs r0, all_honest debug cs manager_new r0 ->
  let '(m, r, os) := perform_all debug cs manager_new r0 in
  let '(r', printed) := manager_delete m r in
  exists l, released r' = released r0 ++ l /\ Permutation (l ++ printed) (obtained os) /\ invalid r' = invalid r0 /\
  StronglySorted Z.lt printed /\ (autofree m = true -> printed = []) /\ (autofree m = false -> r' = r).
Proof.
  intros debug cs r0 H. pose proof (steps debug r0 cs manager_new r0 [] (inv_start r0) H) as P.
  destruct (perform_all debug cs manager_new r0) as [[m r] os]. cbn [app] in P. now apply delete_ok.
Qed.
Print Assumptions device_memory.

(** C63: at any time, buffers that have been obtained and not been released can be released; any other
    pointer is rejected, without effect, and the null pointer ignored. *)
Theorem device_memory_free : forall debug cs r0, all_honest debug cs manager_new r0 ->
  let '(m, r, os) := perform_all debug cs manager_new r0 in
  freeMemory debug 0 m r = (m, r, Done) /\
  exists l, released r = released r0 ++ l /\ forall p, p <> 0 ->
  if Nat.ltb (count_occ Z.eq_dec l p) (count_occ Z.eq_dec (obtained os) p)
  then exists m' r', freeMemory debug p m r = (m', r', Done) /\ released r' = released r ++ [p]
  else freeMemory debug p m r = (m, r, Thrown MemoryManagementException).
Proof.
  intros debug cs r0 H. pose proof (steps debug r0 cs manager_new r0 [] (inv_start r0) H) as P.
  destruct (perform_all debug cs manager_new r0) as [[m r] os]. cbn [app] in P. split; [reflexivity|]. now apply free_any.
Qed.
Print Assumptions device_memory_free.

(** C63: an allocation has the size that was asked for; failures are reported, and leave everything as it was. *)
Theorem device_memory_size : forall debug size count p m r, 0 < size < 2 ^ 32 -> 0 < count < 2 ^ 32 -> p <> 0 -> ~ In p (allocatedBuffers m) ->
  allocateMemory debug size count (Some p) m r =
    (Manager (set_insert p (allocatedBuffers m)) (autofree m), Runtime ((p, size * count) :: live r) (released r) (invalid r), Pointer p) /\
  allocateMemory debug size count None m r = (m, r, Thrown MemoryManagementException) /\
  forall answer, allocateMemory debug size 0 answer m r = (m, r, Pointer 0).
Proof.
  intros debug size count p m r Hs Hc N0 Out. unfold allocateMemory. rewrite u32_small by lia.
  unfold u64. rewrite Z.mod_small by nia. unfold allocateMemoryInternal, allocateMemoryInternalUnregistered.
  rewrite (proj2 (Z.eqb_neq (count * size) 0)) by nia. rewrite (proj2 (Z.eqb_neq p 0) N0), andb_false_r, (proj2 (set_count_out p _) Out), andb_false_r.
  rewrite (Z.mul_comm count size). repeat split.
Qed.
Print Assumptions device_memory_size.

(** C63: no pointer is taken for both a host and a device pointer; the null pointer is not a host pointer. *)
Theorem pointer_kinds : forall r p, (isDeviceMemoryPointer r p = true -> isHostMemoryPointer r p = false) /\
  (p <> 0 -> isHostMemoryPointer r p = negb (isDeviceMemoryPointer r p)) /\ isHostMemoryPointer r 0 = false.
Proof.
  intros r p. unfold isHostMemoryPointer. split; [intros ->; now destruct (Z.eqb p 0)|]. split; [|reflexivity].
  intros N0. now rewrite (proj2 (Z.eqb_neq p 0) N0).
Qed.
Print Assumptions pointer_kinds.

(** C83: a device buffer for [count] elements of [size] bytes has room for them, and its memory is
    released on destruction; in fact it is [size] times too large. *)
Theorem device_buffer_room : forall debug size count p r, 0 < size -> 0 < count -> size * count < 2 ^ 32 -> p <> 0 -> ~ In p (map fst (live r)) ->
  exists r', buffer_new debug size count (Some p) r = (r', Pointer p) /\
  live r' = (p, size * (size * count)) :: live r /\ size * count <= size * (size * count) /\
  exists r'', buffer_delete debug p r' = (r'', Done) /\ released r'' = released r ++ [p] /\ live r'' = live r /\ invalid r'' = invalid r.
Proof.
  intros debug size count p r Hs Hc Hm N0 Fr. unfold buffer_new. rewrite (proj2 (Z.eqb_neq count 0)), andb_false_r by lia.
  unfold allocateMemoryUnregistered, u64. rewrite (Z.mod_small (size * count)) by nia. rewrite u32_small by nia. rewrite Z.mod_small by nia.
  unfold allocateMemoryInternalUnregistered. rewrite (proj2 (Z.eqb_neq (size * count * size) 0)) by nia. rewrite (proj2 (Z.eqb_neq p 0) N0), andb_false_r.
  eexists. split; [reflexivity|]. split; [cbn; do 2 f_equal; ring|]. split; [nia|].
  unfold buffer_delete, freeMemoryUnregistered. rewrite (proj2 (Z.eqb_neq p 0) N0).
  rewrite (device_in _ p (size * count * size)) by (cbn; auto; nia). cbn [negb]. rewrite andb_false_r.
  unfold cudaFree. rewrite (proj2 (Z.eqb_neq p 0) N0), (proj2 (is_live_in _ p)) by (cbn; now left).
  eexists. split; [reflexivity|]. cbn [released live invalid filter fst]. rewrite Z.eqb_refl. cbn [negb]. split; [reflexivity|]. split; [|reflexivity].
  clear - Fr. induction (live r) as [|[q n] l IH]; [reflexivity|]. cbn. destruct (Z.eqb_spec q p) as [->|]; cbn.
  - exfalso. apply Fr. now left.
  - f_equal. apply IH. intros H. apply Fr. now right.
Qed.
Print Assumptions device_buffer_room.

(** C83: with more than 2^32 bytes there need not be any room, and this is not reported. *)
Theorem device_buffer_room_refuted : ~ (forall debug size count p r, 0 < size -> 0 < count -> p <> 0 -> ~ In p (map fst (live r)) ->
  match buffer_new debug size count (Some p) r with
  | (r', Pointer q) => exists n, In (q, n) (live r') /\ size * count <= n
  | (_, Done) => False
  | (_, Thrown _) => True
  end).
Proof.
  intros H. specialize (H true 8 (2 ^ 29) 1 (Runtime [] [] 0) ltac:(lia) ltac:(lia) ltac:(lia) ltac:(intros [])).
  vm_compute in H. destruct H as (n & [] & _).
Qed.
Print Assumptions device_buffer_room_refuted.

(** C64: whatever is created and destroyed in whatever order: MPI is initialized once, by the first object,
    and finalized once, when that object is destroyed. *)
Theorem mpi_owner : forall cs, plain_calls cs -> fresh_ids cs [] ->
  exists hs s, mpi_all cs [] untouched = Some (hs, s) /\ inits s = (if created cs then 1 else 0)%nat /\
  finals s = (if first_destroyed cs then 1 else 0)%nat /\ (unused cs -> forbidden s = 0%nat).
Proof. intros cs. apply mpi_before. Qed.
Print Assumptions mpi_owner.

(** C64: if MPI is in use already, the objects leave it alone, even if they are copied. *)
Theorem mpi_not_owner : forall cs, exists hs, mpi_all cs [] running = Some (hs, running).
Proof. intros cs. destruct (mpi_foreign cs [] running) as (hs & E & _); eauto. constructor. Qed.
Print Assumptions mpi_not_owner.

(** C64: a copy of the first object shuts down the program. *)
Theorem mpi_copy_refuted : ~ (forall cs, fresh_ids cs [] -> mpi_all cs [] untouched <> None).
Proof. intros H. apply (H [New 0 true; Copy 1 0; Delete 1; Delete 0]); [cbn; intuition lia|reflexivity]. Qed.
Print Assumptions mpi_copy_refuted.
(** C64: an object cannot be used after the first one has been destroyed. *)
Theorem mpi_use_refuted : ~ (forall cs, plain_calls cs -> fresh_ids cs [] -> forall hs s, mpi_all cs [] untouched = Some (hs, s) -> forbidden s = 0%nat).
Proof.
  intros H. specialize (H [New 0 true; New 1 true; Delete 0; Use 1]). cbn in H.
  specialize (H ltac:(repeat constructor) ltac:(intuition lia) _ _ eq_refl). discriminate H.
Qed.
Print Assumptions mpi_use_refuted.
(** C64: after a failure for lack of thread support, further objects can be created, but not be used. *)
Theorem mpi_threads_refuted : exists hs s, mpi_all [New 0 false; New 1 true; Use 1] [] untouched = Some (hs, s) /\ handle hs 1 = Some false /\ forbidden s = 1%nat.
Proof. do 2 eexists. split; [reflexivity|]. split; reflexivity. Qed.
Print Assumptions mpi_threads_refuted.

(** Three buffers, one of which is freed, one freed twice and one left; meanwhile others use the device. *)
Definition example_calls : list call :=
  [Allocate 8 3 (Some 512); Elsewhere [(4096, 8)]; Allocate 4 10 (Some 1024); Allocate 8 0 (Some 7); Free 512; Free 512; Free 4096; Free 0;
   Allocate 8 1 (Some 512); Allocate 8 1 None].
Example example_honest : all_honest true example_calls manager_new (Runtime [(256, 16)] [] 0).
Proof. vm_compute. intuition congruence. Qed.
Example example_outcomes :
  (let '(m, r, os) := perform_all true example_calls manager_new (Runtime [(256, 16)] [] 0) in (os, released r, manager_delete m r, fst (manager_delete (setAutofree true m) r)))
  = ([Pointer 512; Done; Pointer 1024; Pointer 0; Done; Thrown MemoryManagementException; Thrown MemoryManagementException; Done; Pointer 512; Thrown MemoryManagementException],
     [512], (Runtime [(512, 8); (1024, 40); (4096, 8)] [512] 0, [512; 1024]), Runtime [(4096, 8)] [512; 512; 1024] 0).
Proof. reflexivity. Qed.
Definition mpi_program := [New 3 true; New 5 true; Use 5; New 4 true; Delete 5; Use 3; Delete 3; Delete 4].
Example mpi_program_plain : plain_calls mpi_program /\ fresh_ids mpi_program [].
Proof. split; [repeat constructor|]. cbn. intuition lia. Qed.
Example mpi_program_result : mpi_all mpi_program [] untouched = Some ([], Mpi true true 1 1 0).
Proof. reflexivity. Qed.
