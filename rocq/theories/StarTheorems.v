(** Properties of star polymers. *)
From Coq Require Import List ZArith Bool Reals Lra Lia Relations Permutation.
From Verif Require Import PyBase VecBase VecModel VecSpec PartSpec PotModel PotSpec CuModel MdModel SimModel ConcModel StarModel StarSpec StarProof StarMdProof StarPyProof StarClusterProof.
Import ListNotations.
Open Scope Z_scope.

(** C36: particle numbers and places correspond to each other, in both directions, and the
    reported type is that of the place. *)
Theorem star_numbering : forall s, well_formed s ->
  (forall i, particle s i -> exists pl, reported (getParticleStructureIndices s i) = Some pl /\ valid s pl /\ number s pl = i /\
    getParticleType s i = type_of pl) /\
  (forall pl, valid s pl -> particle s (number s pl) /\ reported (getParticleStructureIndices s (number s pl)) = Some pl).
Proof. exact numbering. Qed.
Print Assumptions star_numbering.
(** The particles are numbered in the documented order. *)
Theorem star_numbering_order : forall s, well_formed s ->
  map (fun i => reported (getParticleStructureIndices s i)) (zrange (getParticleCount s)) = map Some (places s).
Proof. exact numbering_order. Qed.
Print Assumptions star_numbering_order.
(** The same for the analysis, which rejects other numbers. *)
Theorem star_numbering_analysis : forall s i, well_formed s ->
  (particle s i -> exists ix, py_getParticleStructureIndices s i = Ok ix /\ reported (getParticleStructureIndices s i) = Some (py_reported ix) /\
    py_getParticleType s i = Ok (getParticleType s i)) /\
  (~ particle s i -> py_getParticleStructureIndices s i = Err IndexError /\ py_getParticleType s i = Err IndexError).
Proof.
  intros s i H. split.
  - intros Hi. destruct (py_indices_eq s i H Hi) as (ix & E & F). exists ix. split; [exact E|]. split; [exact F|exact (py_type_eq s i Hi)].
  - intros N. unfold py_getParticleStructureIndices, py_getParticleType. rewrite (py_out_of_range s i N). split; reflexivity.
Qed.
Print Assumptions star_numbering_analysis.
Example star_numbering_example :
  let s := Structure 2 2 1 true in
  getParticleCount s = 10 /\
  places s = [Core 0; Bead 0 0 0; Tip 0 0; Bead 0 1 0; Tip 0 1; Core 1; Bead 1 0 0; Tip 1 0; Bead 1 1 0; Tip 1 1] /\
  py_getParticleStructureIndices s 9 = Ok (1, Some 1, None) /\ getParticleType s 8 = TArm.
Proof. vm_compute. repeat split. Qed.

(** C37: the bonds of each star form a tree, and there are no others. *)
Theorem star_bonds_tree : forall s, well_formed s ->
  (forall star, 0 <= star < starCount s ->
    connected (bonded s) (members_of_star s star) /\
    length (filter (fun ij => bonded s (fst ij) (snd ij)) (pairs (members_of_star s star))) = Z.to_nat (getParticleCountPerStar s - 1)) /\
  (forall p q, valid s p -> valid s q -> star_of p <> star_of q -> particlesAreBonded s (number s p) (number s q) = Some false).
Proof. exact star_tree. Qed.
Print Assumptions star_bonds_tree.
(** Different particles are bonded if one is next to the other on its way to the core. *)
Theorem star_bonds : forall s p q, well_formed s -> valid s p -> valid s q -> p <> q ->
  exists b, particlesAreBonded s (number s p) (number s q) = Some b /\ particlesAreBonded s (number s q) (number s p) = Some b /\
    (b = true <-> linked s p q).
Proof.
  intros s p q H Vp Vq N. destruct (bonded_places s p q H Vp Vq N) as (b & E & L). exists b. split; [exact E|]. split; [|exact L].
  rewrite <- E. symmetry. apply bonds_symmetric; try assumption; [apply place_number| apply place_number |]; try assumption.
  intros X. apply N. exact (number_inj s p q H Vp Vq X).
Qed.
Print Assumptions star_bonds.
Example star_bonds_example :
  let s := Structure 1 2 2 true in
  map (fun ij => (fst ij, snd ij)) (filter (fun ij => bonded s (fst ij) (snd ij)) (pairs (zrange 7))) =
  [(0, 1); (0, 4); (1, 2); (2, 3); (4, 5); (5, 6)].
Proof. vm_compute. reflexivity. Qed.

(** C38: the analysis finds the same bonds, except that a particle is not bonded to itself,
    a question that the simulation never asks. *)
Theorem star_bonds_agree : forall s i j, well_formed s -> particle s i -> particle s j ->
  (i <> j -> exists b, py_particlesAreBonded s i j = Ok b /\ particlesAreBonded s i j = Some b) /\
  (i = j -> py_particlesAreBonded s i j = Ok false).
Proof. exact py_bonded_eq. Qed.
Print Assumptions star_bonds_agree.
(** It has the same types of particles and the same potentials. *)
Theorem star_potentials_agree : forall s p i j, well_formed s -> analysable p -> particle s i -> particle s j -> i <> j ->
  exists t u, py_getParticleType s i = Ok t /\ py_getParticleType s j = Ok u /\ t = getParticleType s i /\ u = getParticleType s j /\
  (exists w, py_getWCAPotential s p t u = Ok w /\ WCAPotentials (createInteractions p) (getParticleTypeCombinationIndex t u) = Some w) /\
  (bonds_have_potentials s -> bonded s i j = true ->
    exists f, py_getFENEPotential s p t u = Ok f /\ FENEPotentials (createInteractions p) (getParticleTypeCombinationIndex t u) = Some f) /\
  (t = TMagnetic -> u = TMagnetic -> py_getMagneticPotential s p = Ok (magneticPotential (createInteractions p))).
Proof. exact potentials_agree. Qed.
Print Assumptions star_potentials_agree.
(** False where magnetic particles are bound to the core: the simulation has no potential
    for these bonds. *)
Theorem star_potentials_refuted : let s := Structure 1 1 0 true in
  bonded s 0 1 = true /\
  (exists f, py_getFENEPotential s plain (getParticleType s 0) (getParticleType s 1) = Ok f) /\
  FENEPotentials (createInteractions plain) (getParticleTypeCombinationIndex (getParticleType s 0) (getParticleType s 1)) = None.
Proof.
  split; [reflexivity|]. split; [|reflexivity]. eexists. apply py_fene; [|reflexivity].
  repeat split; intros; try exact Rle_0_1; try exact Rlt_0_1; try apply Rle_refl. exists (Vec 0 0 1)%R. split; [reflexivity|]. unfold unit3, dot3. cbn. ring.
Qed.
Print Assumptions star_potentials_refuted.
Example star_potentials_example : analysable plain /\ bonds_have_potentials (Structure 1 3 2 true) /\ bonded (Structure 1 3 2 true) 2 3 = true.
Proof.
  split; [|split; [left; reflexivity|reflexivity]].
  repeat split; intros; try exact Rle_0_1; try exact Rlt_0_1; try apply Rle_refl. exists (Vec 0 0 1)%R. split; [reflexivity|]. unfold unit3, dot3. cbn. ring.
Qed.

Open Scope R_scope.
(** C52: whatever the schedule of the threads, the force buffer ends up with the forces of
    all pairs. *)
Theorem star_force_buffer : forall double s p x m m', well_formed s -> strengths_nonneg p -> zeroed s m ->
  force_kernels double s (createInteractions p) x (zrange (getParticleCount s - 1)) m m' ->
  forall i, particle s i -> stored (buffer m') i = force_on s p (stored x) i.
Proof. exact star_forces. Qed.
Print Assumptions star_force_buffer.
(** These are minus the gradient of the potential energy. *)
Theorem star_force_gradient : forall s p x i, all_defined s p x -> particle s i ->
  minus_gradient (fun d => potential_energy s p (moved_by x i d)) zero3 (force_on s p x i).
Proof. exact force_gradient. Qed.
Print Assumptions star_force_gradient.
(** Their sum vanishes. *)
Theorem star_total_force : forall s p x, sum_over s (force_on s p x) = zero3.
Proof. exact total_force. Qed.
Print Assumptions star_total_force.
(** A step is one of the velocity-Verlet method. *)
Theorem star_md_step : forall double s p dt mass a b, well_formed s -> strengths_nonneg p ->
  md_timestep double s (createInteractions p) dt mass a b ->
  (forall i, particle s i ->
    stored (positions b) i = plus3 (plus3 (stored (positions a) i) (times3 dt (stored (velocities a) i)))
      (times3 (dt * dt / (2 * mass)) (force_on s p (stored (positions a)) i)) /\
    stored (velocities b) i = plus3 (stored (velocities a) i)
      (times3 (dt / (2 * mass)) (plus3 (force_on s p (stored (positions a)) i) (force_on s p (stored (positions b)) i)))) /\
  (forall c, ~ (0 <= c < 3 * getParticleCount s)%Z -> positions b c = positions a c /\ velocities b c = velocities a c).
Proof. exact star_step. Qed.
Print Assumptions star_md_step.
(** Momentum is conserved, and the centre of mass moves uniformly. *)
Theorem star_md_momentum : forall double s p dt mass n a b, well_formed s -> strengths_nonneg p ->
  md_timesteps double s (createInteractions p) dt mass n a b ->
  sum_over s (stored (velocities b)) = sum_over s (stored (velocities a)) /\
  sum_over s (stored (positions b)) = plus3 (sum_over s (stored (positions a))) (times3 (INR n * dt) (sum_over s (stored (velocities a)))).
Proof. exact star_totals. Qed.
Print Assumptions star_md_momentum.
(** The result does not depend on the schedule. *)
Theorem star_md_schedule : forall double s p dt mass n, well_formed s -> strengths_nonneg p -> forall a b c,
  md_timesteps double s (createInteractions p) dt mass n a b -> md_timesteps double s (createInteractions p) dt mass n a c -> b = c.
Proof. exact star_schedules. Qed.
Print Assumptions star_md_schedule.
(** With reversed velocities, the solute retraces its trajectory. *)
Theorem star_md_reversible : forall double s p dt mass n, well_formed s -> strengths_nonneg p -> forall a b c,
  md_timesteps double s (createInteractions p) dt mass n a b -> md_timesteps double s (createInteractions p) dt mass n (turned b) c -> c = turned a.
Proof. exact star_retrace. Qed.
Print Assumptions star_md_reversible.
(** Steps can be made, if there are potentials for all bonds; otherwise no step can. *)
Theorem star_md_possible : forall double s p dt mass n, well_formed s -> strengths_nonneg p -> bonds_have_potentials s ->
  forall a, exists b, md_timesteps double s (createInteractions p) dt mass n a b.
Proof. exact steps_exist. Qed.
Print Assumptions star_md_possible.
Theorem star_md_impossible : forall double s p dt mass a b, well_formed s -> (0 < starCount s)%Z -> (0 < armCountPerStar s)%Z ->
  ~ bonds_have_potentials s -> strengths_nonneg p -> ~ md_timestep double s (createInteractions p) dt mass a b.
Proof. exact no_step. Qed.
Print Assumptions star_md_impossible.
Example star_md_example : well_formed pair_of_beads /\ bonds_have_potentials pair_of_beads /\ strengths_nonneg plain /\
  force_on pair_of_beads plain apart 0 = Vec 30 0 0.
Proof.
  split; [repeat split; cbn; lia|]. split; [now right|]. split; [intros t; exact Rle_0_1|]. exact example_force.
Qed.
Example star_md_impossible_example : well_formed (Structure 1 3 0 true) /\ ~ bonds_have_potentials (Structure 1 3 0 true).
Proof. split; [repeat split; cbn; lia|]. intros [H|H]; cbn in H; [lia|discriminate]. Qed.

(** C41: the potential energy of stars with magnetic particles is the sum over pairs; it is
    refused if one of the terms is not defined. *)
Theorem star_energy : forall s p x, well_formed s -> starCount s = 1%Z -> analysable p -> hasMagneticParticles s = true ->
  (in_range s p x -> py_getPotentialEnergy s p (Some x) = Ok (potential_energy s p x)) /\
  (~ in_range s p x -> py_getPotentialEnergy s p (Some x) = Err ValueError).
Proof.
  intros s p x H H1 A M. split; [exact (energy_ok s p x H H1 A M)|exact (energy_bad s p x H H1 A M)].
Qed.
Print Assumptions star_energy.
(** It cannot be computed without magnetic particles, or for the default orientation. *)
Theorem star_energy_refuted : forall s p x, starCount s = 1%Z ->
  (hasMagneticParticles s = false -> py_getPotentialEnergy s p (Some x) = Err RuntimeError) /\
  (hasMagneticParticles s = true -> dipoleOrientation p = None -> py_getPotentialEnergy s p (Some x) = Err KeyError).
Proof. intros s p x H. split; [exact (energy_none s p x H)|exact (energy_default s p x H)]. Qed.
Print Assumptions star_energy_refuted.
Example star_energy_example : let s := Structure 1 1 0 true in
  well_formed s /\ analysable plain /\ in_range s plain apart.
Proof.
  split; [repeat split; cbn; lia|]. split.
  - repeat split; intros; try exact Rle_0_1; try exact Rlt_0_1; try apply Rle_refl. exists (Vec 0 0 1)%R. split; [reflexivity|]. unfold unit3, dot3. cbn. ring.
  - intros i j Hi Hj L. unfold particle in *. cbn in Hi, Hj. assert (i = 0 /\ j = 1)%Z as [-> ->] by lia. cbn [D sigma plain apart Z.eqb].
    rewrite close_zero_one. split; [lra|]. intros _. rewrite Rabs_pos_eq; lra.
Qed.

(** C40: the clusters of magnetic particles at different positions are the connected
    components, provided that Python's recursion limit permits as many merges as there are
    magnetic particles; the only exception is a violation of that limit, and it is certain if
    the number of merges exceeds the limit. *)
Theorem star_clusters : forall fuel s x cutoff, well_formed s -> hasMagneticParticles s = true -> 0 <= cutoff -> NoDup (magnets s x) ->
  (length (magnets s x) <= fuel + 1)%nat ->
  exists cs, py_getMagneticClusters fuel s (Some x) cutoff = Ok cs /\ components cutoff (magnets s x) cs.
Proof. exact clusters_ok. Qed.
Print Assumptions star_clusters.
Theorem star_clusters_limit : forall fuel s x cutoff, well_formed s -> hasMagneticParticles s = true -> 0 <= cutoff -> NoDup (magnets s x) ->
  (forall cs, py_getMagneticClusters fuel s (Some x) cutoff = Ok cs ->
    components cutoff (magnets s x) cs /\ (length (magnets s x) <= fuel + length cs)%nat) /\
  (forall e, py_getMagneticClusters fuel s (Some x) cutoff = Err e -> e = RecursionError).
Proof. exact clusters_deep. Qed.
Print Assumptions star_clusters_limit.
(** False for particles at the same position: they are not put into the same cluster, and
    some of them get lost. *)
Theorem star_clusters_refuted :
  (forall fuel v cutoff, 0 <= cutoff -> py_getMagneticClusters fuel (Structure 1 2 0 true) (Some (fun _ => v)) cutoff = Ok [[v]; [v]]) /\
  (forall fuel, py_getMagneticClusters (S fuel) trio (Some (fun i => if Z.eqb i 3 then Vec 1 0 0 else Vec 0 0 0)) 1 = Ok [[Vec 0 0 0; Vec 1 0 0]]).
Proof. split; [exact twins_apart|exact twin_lost]. Qed.
Print Assumptions star_clusters_refuted.
Example star_clusters_example : forall x : vecs, magnets trio x = [x 1%Z; x 2%Z; x 3%Z] /\
  NoDup (magnets trio (fun i => Vec (IZR i) 0 0)).
Proof.
  intros x. split; [reflexivity|]. rewrite trio_magnets.
  repeat constructor; cbn [In]; intros H; repeat (destruct H as [H|H]; [injection H; intros; lra|]); exact H.
Qed.

(** C78: initially, a star is spread out in a plane: all particles have different positions,
    bonds have length one, and velocities vanish. *)
Theorem star_initial : forall s h, well_formed s -> starCount s = 1%Z -> (0 < armCountPerStar s)%Z ->
  (forall pl, valid s pl -> initializePositions s h (number s pl) = Some (initial s pl)) /\
  (forall p q, valid s p -> valid s q -> initial s p = initial s q -> p = q) /\
  (forall p q, valid s p -> valid s q -> linked s p q -> length3 (minus3 (initial s p) (initial s q)) = 1) /\
  (forall pl, valid s pl -> initializeVelocities s h (number s pl) = Some zero3).
Proof.
  intros s h H H1 H2. split; [exact (initial_positions s h H H1 H2)|]. split; [exact (fun p q => initial_distinct s p q H H1)|].
  split; [exact (fun p q => initial_bonds s p q H H1)|exact (fun pl => initial_velocities s h pl H)].
Qed.
Print Assumptions star_initial.
(** Without arms, the position of the core is not set; nor are those of further stars. *)
Theorem star_initial_refuted : forall s h, well_formed s ->
  (armCountPerStar s = 0%Z -> initializePositions s h = h) /\
  (forall pl, valid s pl -> star_of pl <> 0%Z -> initializePositions s h (number s pl) = h (number s pl)).
Proof. intros s h H. split; [exact (no_arms s h)|exact (fun pl => other_stars s h pl H)]. Qed.
Print Assumptions star_initial_refuted.
Example star_initial_example : let s := Structure 1 4 2 true in
  valid s (Tip 0 0) /\ linked s (Tip 0 0) (Bead 0 0 1) /\ initial s (Core 0) = Vec 0 0 0 /\ number s (Tip 0 0) = 3%Z.
Proof. cbn. repeat split; try lia. left. reflexivity. Qed.
