(** Proofs about copies. *)
From Coq Require Import List ZArith Bool Lia.
From Verif Require Import CuModel CpyModel CpySpec.
Import ListNotations.
Open Scope Z_scope.

Lemma on_device_iff m p : on_device m p = true <-> is_on_device m p.
Proof.
  unfold on_device, is_on_device. rewrite existsb_exists. split.
  - intros ((a & l) & H & E). apply andb_true_iff in E. cbn [fst snd] in E. rewrite Z.leb_le, Z.ltb_lt in E. exists a, l. tauto.
  - intros (a & l & H & E). exists (a, l). split; [exact H|]. apply andb_true_iff. cbn [fst snd]. rewrite Z.leb_le, Z.ltb_lt. exact E.
Qed.
Lemma off_device_iff m p : on_device m p = false <-> not_on_device m p.
Proof.
  split.
  - intros H a l I. destruct (Z_lt_dec p a); [lia|]. destruct (Z_le_dec (a + l) p); [lia|].
    assert (on_device m p = true) by (apply on_device_iff; exists a, l; split; [exact I|lia]). congruence.
  - intros H. destruct (on_device m p) eqn:E; [|reflexivity]. apply on_device_iff in E. destruct E as (a & l & I & E). specialize (H a l I). lia.
Qed.
Lemma in_allocation_iff m p n : in_allocation m p n = true <-> device_region m p n.
Proof.
  unfold in_allocation, device_region. rewrite existsb_exists. split.
  - intros ((a & l) & H & E). apply andb_true_iff in E. cbn [fst snd] in E. rewrite !Z.leb_le in E. exists a, l. tauto.
  - intros (a & l & H & E). exists (a, l). split; [exact H|]. apply andb_true_iff. cbn [fst snd]. rewrite !Z.leb_le. exact E.
Qed.
Lemma region_on m p n : 0 < n -> device_region m p n -> on_device m p = true.
Proof. intros N (a & l & H & E). apply on_device_iff. exists a, l. split; [exact H|lia]. Qed.

Lemma eta m : last m = cudaSuccess -> Machine (byte m) (allocations m) cudaSuccess = m.
Proof. destruct m as [b a l]. cbn. intros ->. reflexivity. Qed.
Lemma device_pointer m p : last m = cudaSuccess -> isDeviceMemoryPointer p m = (m, inl (on_device m p)).
Proof.
  intros L. unfold isDeviceMemoryPointer. destruct (on_device m p); unfold seqc, cudaGetLastError.
  - rewrite L. unfold ret. rewrite (eta m L). reflexivity.
  - cbn [last fail byte allocations]. unfold ret. rewrite (eta m L). reflexivity.
Qed.
Lemma host_pointer m p : last m = cudaSuccess -> isHostMemoryPointer p m = (m, inl (negb (p =? 0) && negb (on_device m p))).
Proof.
  intros L. unfold isHostMemoryPointer. destruct (p =? 0); [reflexivity|]. unfold seqc. rewrite (device_pointer m p L). reflexivity.
Qed.
Lemma no_error m : last m = cudaSuccess -> throw_on_error m = (m, inl tt).
Proof. intros L. unfold throw_on_error, seqc, cudaGetLastError. rewrite L. unfold ret. rewrite (eta m L). reflexivity. Qed.
Lemma checks_pass debug src dest s d m : (src =? 0) = false -> (dest =? 0) = false -> s src m = (m, inl true) -> d dest m = (m, inl true) ->
  checks debug src dest s d m = (m, inl tt).
Proof.
  intros A B C D. unfold checks. destruct debug; [|reflexivity]. unfold seqc, check, ret, seqc. rewrite A, B. cbn [negb]. rewrite C, D. reflexivity.
Qed.
Lemma checks_same debug src dest (s d : Z -> call bool) m :
  (exists b, s src m = (m, inl b)) -> (exists b, d dest m = (m, inl b)) ->
  exists r, checks debug src dest s d m = (m, r).
Proof.
  intros (b & A) (b' & B). unfold checks. destruct debug; [|eexists; reflexivity]. unfold seqc, check, ret, seqc, throw.
  destruct (src =? 0); cbn [negb]; [eexists; reflexivity|]. destruct (dest =? 0); cbn [negb]; [eexists; reflexivity|].
  rewrite A. destruct b; [|eexists; reflexivity]. rewrite B. destruct b'; eexists; reflexivity.
Qed.
Lemma write_changed m p n f : last m = cudaSuccess -> changed m (write m p n f) p n f.
Proof.
  intros L. unfold changed, write. cbn. repeat split; [| |exact L].
  - intros i H. replace (p <=? p + i) with true by (symmetry; apply Z.leb_le; lia). replace (p + i <? p + n) with true by (symmetry; apply Z.ltb_lt; lia). cbn.
    f_equal. lia.
  - intros x H. destruct (Z.leb_spec p x); cbn; [|reflexivity]. destruct (Z.ltb_spec x (p + n)); [lia|reflexivity].
Qed.
Lemma bytes_ok size count : fits size count -> u64 (size * count) = size * count /\ 0 < size * count.
Proof. intros (A & B & C). split; [unfold u64; apply Z.mod_small; nia|nia]. Qed.
Lemma nonzero p : p <> 0 -> (p =? 0) = false.
Proof. apply Z.eqb_neq. Qed.
Lemma region_nonzero m p n : sane m -> device_region m p n -> p <> 0.
Proof. intros N (a & l & H & E). specialize (N a l H). lia. Qed.

Lemma to_device debug size src dest count m : fits size count -> sane m -> last m = cudaSuccess ->
  src <> 0 -> not_on_device m src -> device_region m dest (size * count) ->
  exists m', copyElementsFromHostToDevice debug size src dest count m = (m', inl tt) /\ changed m m' dest (size * count) (fun i => byte m (src + i)).
Proof.
  intros F N L H O D. destruct (bytes_ok size count F) as (U & P). pose proof (proj2 (off_device_iff m src) O) as Os. pose proof (region_on m dest _ P D) as Od.
  unfold copyElementsFromHostToDevice. unfold seqc at 1. rewrite checks_pass; cycle 1.
  { apply nonzero. exact H. } { apply nonzero. exact (region_nonzero m _ _ N D). }
  { rewrite host_pointer by exact L. rewrite Os, (nonzero src) by exact H. reflexivity. } { rewrite device_pointer by exact L. rewrite Od. reflexivity. }
  rewrite U. unfold seqc at 1, cudaMemcpy. replace (size * count =? 0) with false by (symmetry; apply Z.eqb_neq; lia).
  rewrite (proj2 (in_allocation_iff m dest _) D), Os. cbn [negb andb]. rewrite no_error by exact L. eexists. split; [reflexivity|]. apply write_changed. exact L.
Qed.
Lemma to_host debug size src dest count m : fits size count -> sane m -> last m = cudaSuccess ->
  dest <> 0 -> not_on_device m dest -> device_region m src (size * count) ->
  exists m', copyElementsFromDeviceToHost debug size src dest count m = (m', inl tt) /\ changed m m' dest (size * count) (fun i => byte m (src + i)).
Proof.
  intros F N L H O D. destruct (bytes_ok size count F) as (U & P). pose proof (proj2 (off_device_iff m dest) O) as Os. pose proof (region_on m src _ P D) as Od.
  unfold copyElementsFromDeviceToHost. unfold seqc at 1. rewrite checks_pass; cycle 1.
  { apply nonzero. exact (region_nonzero m _ _ N D). } { apply nonzero. exact H. }
  { rewrite device_pointer by exact L. rewrite Od. reflexivity. } { rewrite host_pointer by exact L. rewrite Os, (nonzero dest) by exact H. reflexivity. }
  rewrite U. unfold seqc at 1, cudaMemcpy. replace (size * count =? 0) with false by (symmetry; apply Z.eqb_neq; lia).
  rewrite (proj2 (in_allocation_iff m src _) D), Os. cbn [negb andb]. rewrite no_error by exact L. eexists. split; [reflexivity|]. apply write_changed. exact L.
Qed.
Lemma on_the_device debug size src dest count m : fits size count -> sane m -> last m = cudaSuccess ->
  device_region m src (size * count) -> device_region m dest (size * count) ->
  exists m', copyElementsFromDeviceToDevice debug size src dest count m = (m', inl tt) /\ changed m m' dest (size * count) (fun i => byte m (src + i)).
Proof.
  intros F N L S D. destruct (bytes_ok size count F) as (U & P). pose proof (region_on m dest _ P D) as Od. pose proof (region_on m src _ P S) as Os.
  unfold copyElementsFromDeviceToDevice. unfold seqc at 1. rewrite checks_pass; cycle 1.
  { apply nonzero. exact (region_nonzero m _ _ N S). } { apply nonzero. exact (region_nonzero m _ _ N D). }
  { rewrite device_pointer by exact L. rewrite Os. reflexivity. } { rewrite device_pointer by exact L. rewrite Od. reflexivity. }
  rewrite U. unfold seqc at 1, cudaMemcpy. replace (size * count =? 0) with false by (symmetry; apply Z.eqb_neq; lia).
  rewrite (proj2 (in_allocation_iff m dest _) D), (proj2 (in_allocation_iff m src _) S). cbn [negb andb]. rewrite no_error by exact L. eexists. split; [reflexivity|]. apply write_changed. exact L.
Qed.
Lemma zeroes debug size start count m : fits size count -> sane m -> last m = cudaSuccess -> device_region m start (size * count) ->
  exists m', zeroMemory debug size start count m = (m', inl tt) /\ changed m m' start (size * count) (fun _ => 0).
Proof.
  intros F N L D. destruct (bytes_ok size count F) as (U & P). pose proof (region_on m start _ P D) as Od.
  unfold zeroMemory. unfold seqc at 1. assert (E : (if debug then seqc (check (ret (negb (start =? 0))) NULLPointerException) (fun _ => check (isDeviceMemoryPointer start) InvalidArgumentException) else ret tt) m = (m, inl tt)).
  { destruct debug; [|reflexivity]. unfold seqc, check, ret, seqc. rewrite (nonzero start) by exact (region_nonzero m _ _ N D). cbn [negb]. rewrite (device_pointer m start L), Od. reflexivity. }
  rewrite E. rewrite U. unfold seqc at 1, cudaMemset. replace (size * count =? 0) with false by (symmetry; apply Z.eqb_neq; lia).
  rewrite (proj2 (in_allocation_iff m start _) D). rewrite no_error by exact L. eexists. split; [reflexivity|]. apply write_changed. exact L.
Qed.
Lemma in_zrange n i : 0 <= n -> In i (zrange n) <-> 0 <= i < n.
Proof.
  intros N. unfold zrange. rewrite in_map_iff. split.
  - intros (k & <- & H). apply in_seq in H. lia.
  - intros H. exists (Z.to_nat i). split; [lia|]. apply in_seq. lia.
Qed.
Lemma compared debug buffer size host device count m : fits size count -> sane m -> last m = cudaSuccess ->
  host <> 0 -> not_on_device m host -> not_on_device m buffer -> apart host buffer (size * count) -> device_region m device (size * count) ->
  exists m' b, elementMemoryEqualOnHostAndDevice debug buffer size host device count m = (m', inl b) /\
    (b = true <-> forall i, 0 <= i < size * count -> byte m (host + i) = byte m (device + i)) /\
    changed m m' buffer (size * count) (fun i => byte m (device + i)).
Proof.
  intros F N L H Oh Ob A D. destruct (bytes_ok size count F) as (U & P). pose proof (region_on m device _ P D) as Od.
  unfold elementMemoryEqualOnHostAndDevice. unfold seqc at 1. rewrite checks_pass; cycle 1.
  { apply nonzero. exact H. } { apply nonzero. exact (region_nonzero m _ _ N D). }
  { rewrite host_pointer by exact L. rewrite (proj2 (off_device_iff m host) Oh), (nonzero host) by exact H. reflexivity. } { rewrite device_pointer by exact L. rewrite Od. reflexivity. }
  unfold seqc at 1, check, seqc at 1, ret. replace (count =? 0) with false by (symmetry; apply Z.eqb_neq; destruct F; lia). rewrite andb_false_r. cbn [negb].
  rewrite U. unfold seqc at 1, cudaMemcpy. replace (size * count =? 0) with false by (symmetry; apply Z.eqb_neq; lia).
  rewrite (proj2 (in_allocation_iff m device _) D), (proj2 (off_device_iff m buffer) Ob). cbn [negb andb].
  unfold seqc at 1. rewrite no_error by exact L. pose proof (write_changed m buffer (size * count) (fun i => byte m (device + i)) L) as W.
  eexists. eexists. split; [reflexivity|]. split; [|exact W]. destruct W as (W1 & W2 & _). rewrite forallb_forall. split.
  - intros E i I. specialize (E i (proj2 (in_zrange _ i (Z.lt_le_incl _ _ P)) I)). apply Z.eqb_eq in E. rewrite W1 in E by exact I. rewrite W2 in E by (destruct A; lia). exact E.
  - intros E i I. apply in_zrange in I; [|lia]. apply Z.eqb_eq. rewrite W1 by exact I. rewrite W2 by (destruct A; lia). exact (E i I).
Qed.

(** A copy that does not go through. *)
Lemma copy_error m dest src n k : last m = cudaSuccess -> n <> 0 ->
  match k with HostToDevice => in_allocation m dest n && negb (on_device m src) | DeviceToHost => in_allocation m src n && negb (on_device m dest)
             | DeviceToDevice => in_allocation m src n && in_allocation m dest n end = false ->
  seqc (cudaMemcpy dest src n k) (fun _ => throw_on_error) m = (m, inr CUDAException).
Proof.
  intros L N E. unfold seqc, cudaMemcpy. rewrite (nonzero n N), E. unfold throw_on_error, seqc, cudaGetLastError, fail, throw. cbn [last byte allocations]. rewrite (eta m L). reflexivity.
Qed.
Lemma checks_then debug src dest (s d : Z -> call bool) m (k : call unit) e : last m = cudaSuccess ->
  (exists b, s src m = (m, inl b)) -> (exists b, d dest m = (m, inl b)) -> k m = (m, inr e) ->
  exists e', seqc (checks debug src dest s d) (fun _ => k) m = (m, inr e').
Proof.
  intros L A B E. destruct (checks_same debug src dest s d m A B) as (r & H). unfold seqc. rewrite H. destruct r as [a|e']; [rewrite E|]; eexists; reflexivity.
Qed.
Lemma host_any m p : last m = cudaSuccess -> exists b, isHostMemoryPointer p m = (m, inl b).
Proof. intros L. rewrite (host_pointer m p L). eexists. reflexivity. Qed.
Lemma device_any m p : last m = cudaSuccess -> exists b, isDeviceMemoryPointer p m = (m, inl b).
Proof. intros L. rewrite (device_pointer m p L). eexists. reflexivity. Qed.
Lemma not_in m p n : ~ device_region m p n -> in_allocation m p n = false.
Proof. intros H. destruct (in_allocation m p n) eqn:E; [|reflexivity]. apply in_allocation_iff in E. contradiction. Qed.
