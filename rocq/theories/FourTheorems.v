(** Property C89: Fourier-transformed velocities. *)
From Coq Require Import List ZArith Bool Reals Lra Lia Permutation.
From Verif Require Import PyBase VecModel CuModel CuProof FourModel FourSpec FourProof.
Import ListNotations.
Open Scope Z_scope.

(** C89: for a simple fluid, whatever the order of the stores and the previous contents of the buffers, the result is the mean of [exp (i k r) v]
    over all particles, and the kernels store within the buffers; up to a third of [2^32] particles, for which the size of the buffers fits in 32 bits. *)
Theorem fourier_simple : forall (N : nat) (p v : array) (k : vec), (0 < N)%nat -> 3 * Z.of_nat N < 2 ^ 32 ->
  exists f0 stores, (forall fuel, (f0 <= fuel)%nat -> all_writes Simple fuel (Z.of_nat N) p v k = Some stores)
    /\ Forall (fun w => 0 <= fst w < 3 * constituents Simple (Z.of_nat N)) stores
    /\ forall buffers order, Permutation stores order ->
        transformed Simple (Z.of_nat N) buffers order = mean_wave k (map (particle p v) (seq 0 N)).
Proof.
  intros N p v k P S. destruct (all_transform Simple (Z.of_nat N) p v k) as (E & f0 & stores & A & B & C); cbn [group]; rewrite ?Z.div_1_r; try lia.
  cbn [group] in *. rewrite Z.div_1_r in *. exists f0, stores. split; [exact A|]. split; [exact B|]. intros buffers order O. rewrite (C buffers order O). f_equal.
  unfold zrange. rewrite Nat2Z.id, map_map. apply map_ext. intros i. symmetry. apply particle_stored.
Qed.
Print Assumptions fourier_simple.

(** C89: for dumbbells, trimers and chains, it is the mean of [exp (i k r) v] over these, where [r] and [v] are position and velocity of their centres of mass;
    if the particle count plus 512 times the length of a chain does not exceed 32 bits. *)
Theorem fourier_groups : forall (f : kind) (g N : nat) (p v : array) (k : vec),
  (f = Doublets /\ g = 2%nat \/ f = Triplets /\ g = 3%nat \/ f = Chains (Z.of_nat g)) ->
  (0 < g <= N)%nat -> 3 * Z.of_nat (N / g) < 2 ^ 32 -> Z.of_nat N + 512 * Z.of_nat g < 2 ^ 32 ->
  exists f0 stores, (forall fuel, (f0 <= fuel)%nat -> all_writes f fuel (Z.of_nat N) p v k = Some stores)
    /\ Forall (fun w => 0 <= fst w < 3 * constituents f (Z.of_nat N)) stores
    /\ forall buffers order, Permutation stores order ->
        transformed f (Z.of_nat N) buffers order = mean_wave k (centres p v g (N / g)).
Proof.
  intros f g N p v k K P S W. assert (G : group f = Z.of_nat g) by (destruct K as [(-> & ->)|[(-> & ->)| ->]]; reflexivity).
  assert (D : Z.of_nat N / group f = Z.of_nat (N / g)) by (rewrite G, Nat2Z.inj_div; reflexivity).
  destruct (all_transform f (Z.of_nat N) p v k) as (E & f0 & stores & A & B & C); rewrite ?D, ?G; try lia.
  rewrite D in *. exists f0, stores. split; [exact A|]. split; [rewrite E; exact B|]. intros buffers order O. rewrite (C buffers order O). f_equal.
  rewrite <- group_centres. apply map_ext. intros j. rewrite <- G. destruct K as [(-> & _)|[(-> & _)| ->]]; reflexivity.
Qed.
Print Assumptions fourier_groups.

(** C89: a thread block of these launches, where the number of blocks and threads are exchanged, has at most 1024 threads, which is
    the most that the hardware allows. *)
Theorem fourier_launch_size : forall (f : kind) fuel n l, launches fuel n (max_grid f) 512 0 = Some l -> Forall (fun launch => fst launch <= 1024) l.
Proof.
  intros f fuel n l. generalize 0. revert l. induction fuel as [|fuel IH]; intros l w; cbn [launches]; [discriminate|].
  destruct (w <? n); [|intros [= <-]; constructor]. destruct (launches fuel n (max_grid f) 512 _) as [r|] eqn:E; [|discriminate].
  intros [= <-]. constructor; [|apply (IH _ _ E)]. cbn [fst]. assert (max_grid f <= 1024) by (destruct f; cbn; lia).
  destruct (Z.ltb_spec (max_grid f) (u32 (u32 (n - w) / 512 + 1))); lia.
Qed.
Print Assumptions fourier_launch_size.

(** C89: for wave vectors with integer components, what is measured does not change when particles are moved by whole edges of the box. *)
Theorem fourier_periodic : forall (box n : Z * Z * Z) (l : bodies) (moves : list (Z * Z * Z)),
  (let '(x, y, z) := box in x <> 0 /\ y <> 0 /\ z <> 0) -> length moves = length l ->
  let k := wave_vector box (let '(a, b, c) := n in Vec (IZR a) (IZR b) (IZR c)) in
  k = fitting box n /\
  mean_wave k (map (fun p => (moved box (fst p) (fst (snd p)), snd (snd p))) (combine moves l)) = mean_wave k l.
Proof.
  intros box n l moves B L k. assert (E : k = fitting box n).
  { subst k. destruct box as [[x y] z], n as [[a b] c], B as (X & Y & Z'). unfold wave_vector, fitting. cbn [vx vy vz].
    apply vec_ext; field; apply not_0_IZR; assumption. }
  split; [exact E|]. rewrite E. pose proof (wave_moved box n l moves) as W. destruct box as [[x y] z]. apply W; assumption.
Qed.
Print Assumptions fourier_periodic.

(** C89: the wave vector zero gives the velocity of the centre of mass, and opposite wave vectors give conjugate results. *)
Theorem fourier_conjugate : forall (box : Z * Z * Z) (n : vec) (l : bodies),
  wave_vector box (Vec 0 0 0) = Vec 0 0 0 /\
  mean_wave (Vec 0 0 0) l = (let v := snd (centre l) in CVec (Cplx (vx v) 0) (Cplx (vy v) 0) (Cplx (vz v) 0)) /\
  mean_wave (wave_vector box (opposite n)) l = conjugate (mean_wave (wave_vector box n) l).
Proof.
  intros [[x y] z] n l. split; [|split].
  - unfold wave_vector. cbn [vx vy vz]. apply vec_ext; ring.
  - rewrite wave_zero. reflexivity.
  - rewrite <- wave_opposite. f_equal. unfold wave_vector, opposite. cbn [vx vy vz]. apply vec_ext; ring.
Qed.
Print Assumptions fourier_conjugate.

(** Two particles, of which the first is at the origin and the second half a box away: their waves have opposite phases. *)
Example fourier_ex : forall buffers,
  let p : array := fun i => if i =? 3 then 5%R else 0%R in
  let v : array := fun i => if i =? 0 then 4%R else if i =? 3 then 2%R else 0%R in
  exists stores, all_writes Simple 2 2 p v (wave_vector (10, 10, 10) (Vec 1 0 0)) = Some stores /\
  cvx (transformed Simple 2 buffers stores) = Cplx 1 0.
Proof.
  intros buffers p v. eexists. split; [reflexivity|].
  match goal with |- context [transformed Simple 2 buffers ?st] => change (transformed Simple 2 buffers st) with
    (reduce_buffers 2 (fold_left perform_write (flat_map (stores_of (wave_vector (10, 10, 10) (Vec 1 0 0)) (fun j => (stored p j, stored v j))) (zrange 2)) buffers)) end.
  rewrite (transform_stores (wave_vector (10, 10, 10) (Vec 1 0 0)) (fun j => (stored p j, stored v j)) 2); [|lia|lia|apply Permutation_refl].
  unfold mean_wave. cbn [cvx]. unfold average, total, phase. change (zrange 2) with [0; 1]. cbn [map fold_right length INR fst snd stored vx vy vz wave_vector].
  change (p (3 * 0)) with 0%R. change (p (3 * 0 + 1)) with 0%R. change (p (3 * 0 + 2)) with 0%R. change (v (3 * 0)) with 4%R.
  change (p (3 * 1)) with 5%R. change (p (3 * 1 + 1)) with 0%R. change (p (3 * 1 + 2)) with 0%R. change (v (3 * 1)) with 2%R.
  match goal with |- Cplx ((4 * cos ?a + (2 * cos ?b + 0)) / _) ((4 * sin ?a + (2 * sin ?b + 0)) / _) = _ => replace a with 0%R by ring; replace b with PI by field end.
  rewrite cos_0, sin_0, cos_PI, sin_PI. f_equal; field.
Qed.
