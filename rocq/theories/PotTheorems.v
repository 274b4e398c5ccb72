(** Properties of pair potentials. *)
From Coq Require Import ZArith Reals Lra.
From Verif Require Import PyBase VecBase VecModel VecSpec PotModel PotSpec PotProof.
Open Scope R_scope.

(** C53: wherever a potential is defined the force is minus its gradient; the exception is
    the sphere on which the Lennard-Jones potential is cut off. *)
Theorem force_is_minus_gradient : forall p r, defined p r -> ~ at_jump p r -> minus_gradient (energy p) r (force p r).
Proof. exact gradient_holds. Qed.
Print Assumptions force_is_minus_gradient.
(** Two particles exert opposite forces on each other. *)
Theorem forces_opposite : forall p r1 r2, forceOnR1DueToR2 p r1 r2 = times3 (-1) (forceOnR1DueToR2 p r2 r1).
Proof. exact exchange_holds. Qed.
Print Assumptions forces_opposite.
(** The potentials are the documented ones. *)
Theorem potentials_documented : forall p r, defined p r -> documented p r (energy p r).
Proof. exact documented_holds. Qed.
Print Assumptions potentials_documented.
(** The purely repulsive potentials, and their forces, vanish continuously at the cutoff. *)
Theorem cutoff_continuous : forall epsilon sigma d c, 0 < sigma -> 0 <= d -> sixth_root_of_two c ->
  (fades_at (energy (WCA epsilon sigma)) (c * sigma) /\
   fades_at (fun r => length3 (force (WCA epsilon sigma) r)) (c * sigma)) /\
  (fades_at (energy (WCAOffset epsilon sigma d)) (d + c * sigma) /\
   fades_at (fun r => length3 (force (WCAOffset epsilon sigma d) r)) (d + c * sigma)).
Proof.
  intros epsilon sigma d c Hs Hd Hc. rewrite (root_unique c Hc). split.
  - exact (wca_fades epsilon sigma Hs).
  - exact (wcad_fades epsilon sigma d Hs Hd).
Qed.
Print Assumptions cutoff_continuous.
(** The Lennard-Jones potential does not: it jumps unless it happens to be zero there. *)
Theorem cutoff_continuous_refuted : ~ fades_at (energy (LennardJones 0 2 1 1)) 2.
Proof. exact lj_jump_witness. Qed.
Print Assumptions cutoff_continuous_refuted.
Theorem cutoff_jump : forall r_offset r_cut sigma epsilon, 0 <= r_cut ->
  fades_at (energy (LennardJones r_offset r_cut sigma epsilon)) r_cut -> lj_formula epsilon sigma (r_cut - r_offset) = 0.
Proof. exact lj_jump. Qed.
Print Assumptions cutoff_jump.
(** The analysis reports the potentials of the simulation, and rejects everything else. *)
Theorem analysis_potentials : forall p r a, in_analysis p -> argument_for p r a ->
  (accepted p -> inside p r -> py_potential p a = Ok (energy p r)) /\
  (~ (accepted p /\ inside p r) -> py_potential p a = Err ValueError).
Proof.
  intros p r a H Ha. split.
  - intros H0 Hi. exact (analysis_agrees p r a H0 Ha Hi).
  - exact (analysis_outside p r a H Ha).
Qed.
Print Assumptions analysis_potentials.

(** Two particles at distance one: with the purely repulsive potential they repel each
    other, along the line that connects them. *)
Example repulsion_example :
  defined (AdditivePair (WCA 1 1) (FENE 2 0 2)) (Vec 1 0 0) /\ ~ at_jump (AdditivePair (WCA 1 1) (FENE 2 0 2)) (Vec 1 0 0) /\
  forceOnR1DueToR2 (WCA 1 1) (Vec 3 0 0) (Vec 2 0 0) = Vec 24 0 0 /\
  py_potential (FENE 2 0 2) (Number 1) = Ok (-4 * ln (3 / 4)).
Proof.
  split; [|split; [|split]].
  - cbn [defined]. change (length3 (Vec 1 0 0)) with (vmag (Vec 1 0 0)). rewrite unit_mag.
    assert (Vec 1 0 0 <> zero3) by (intros H; injection H; lra).
    repeat split; try assumption; try lra. rewrite !Rabs_pos_eq; lra.
  - cbn. tauto.
  - unfold forceOnR1DueToR2. replace (vsub (Vec 3 0 0) (Vec 2 0 0)) with (Vec 1 0 0) by (unfold vsub; cbn; f_equal; ring).
    cbn [force]. unfold wca_force. replace (vmag2 (Vec 1 0 0)) with 1 by (unfold vmag2, vdot; cbn; ring).
    unfold rleb. destruct (Rle_dec _ _) as [H|H].
    + exfalso. rewrite Rmult_1_r, Rmult_1_r in H. pose proof root3_2. pose proof (root_pos (1 / 3)). nra.
    + unfold vscale. cbn. f_equal; field.
  - cbn. unfold py_fene_init, py_fene_potential, py_length, rleb, rltb.
    destruct (Rle_dec 2 0); [lra|]. cbn. destruct (Rlt_dec 1 0); [lra|]. cbn.
    destruct (Rle_dec 1 _) as [H|H]; [exfalso; lra|].
    f_equal. f_equal; [field|]. f_equal. field.
Qed.
