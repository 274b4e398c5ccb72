(** C133: symbols on the device. *)
From Coq Require Import List ZArith Bool Reals Lia Lra.
From Verif Require Import CuModel SymModel SymSpec SymProof.
Import ListNotations.
Open Scope Z_scope.

(** The size of the box: sizes are stored, and the number of cells is their product if it fits. *)
Theorem box_symbols : forall debug x y z d, healthy d -> 0 < x -> 0 < y -> 0 < z -> x * y * z < 2 ^ 32 ->
  sets (setSimulationBoxSizeSymbols debug x y z) d
    [(mpcSimulationBoxSizeX, x); (mpcSimulationBoxSizeY, y); (mpcSimulationBoxSizeZ, z); (collisionCellCount, x * y * z)] [].
Proof.
  intros debug x y z d H X Y Z P. unfold sets, setSimulationBoxSizeSymbols.
  assert (U : u32 (u32 (x * y) * z) = x * y * z) by (unfold u32; rewrite (Z.mod_small (x * y)) by nia; apply Z.mod_small; nia). rewrite U.
  replace (debug && ((x =? 0) || (y =? 0) || (z =? 0))) with false
    by (destruct debug; cbn; [|reflexivity]; symmetry; rewrite !orb_false_iff, !Z.eqb_neq; lia).
  destruct (set_int_ok mpcSimulationBoxSizeX x d H) as (d1 & E1 & H1 & I1 & R1). rewrite (seqc_ok _ _ _ _ E1).
  destruct (set_int_ok mpcSimulationBoxSizeY y d1 H1) as (d2 & E2 & H2 & I2 & R2). rewrite (seqc_ok _ _ _ _ E2).
  destruct (set_int_ok mpcSimulationBoxSizeZ z d2 H2) as (d3 & E3 & H3 & I3 & R3). rewrite (seqc_ok _ _ _ _ E3).
  destruct (set_int_ok collisionCellCount (x * y * z) d3 H3) as (d4 & E4 & H4 & I4 & R4). rewrite E4.
  rewrite R4, R3, R2, R1, I4, I3, I2, I1. split; [reflexivity|]. split; [exact H4|]. repeat split.
  - intros s v I. cbn in I. repeat (destruct I as [I|I]; [inversion I; subst; reflexivity|]). destruct I.
  - intros s N. cbn in N. destruct s; cbn; tauto.
  - intros s v [].
Qed.
Print Assumptions box_symbols.
Example box_symbols_example :
  ints (fst (setSimulationBoxSizeSymbols true 4 5 6 fresh)) collisionCellCount = 120 /\ snd (setSimulationBoxSizeSymbols true 4 5 6 fresh) = None.
Proof. split; reflexivity. Qed.

(** Not true: the number of cells is the product of the sizes. *)
Theorem cell_count_refuted : exists x y z, unsigned x /\ unsigned y /\ unsigned z /\ 0 < x /\ 0 < y /\ 0 < z /\
  forall debug, snd (setSimulationBoxSizeSymbols debug x y z fresh) = None /\
  ints (fst (setSimulationBoxSizeSymbols debug x y z fresh)) collisionCellCount = 0.
Proof. exists 65536, 65536, 1. unfold unsigned. repeat split; try lia; destruct debug; reflexivity. Qed.
Print Assumptions cell_count_refuted.
Example cell_count_refuted_example : ints (fst (setSimulationBoxSizeSymbols true 2048 2048 1025 fresh)) collisionCellCount = 4194304.
Proof. reflexivity. Qed.

(** Boxes without extent, and time steps of zero, are refused in debug builds; otherwise they are stored. *)
Theorem zero_symbols : forall d x y z, x = 0 \/ y = 0 \/ z = 0 ->
  refuses (setSimulationBoxSizeSymbols true x y z) d InvalidArgumentException /\
  refuses (setMPCStreamingTimestep true 0) d InvalidArgumentException /\
  (healthy d -> sets (setMPCStreamingTimestep false 0) d [] [(streamingTimestep, 0%R)]).
Proof.
  intros d x y z H. split; [|split].
  - unfold refuses, setSimulationBoxSizeSymbols. replace (true && ((x =? 0) || (y =? 0) || (z =? 0))) with true; [cbn; auto|].
    symmetry. cbn. rewrite !orb_true_iff, !Z.eqb_eq. tauto.
  - unfold refuses, setMPCStreamingTimestep. destruct (Req_EM_T 0 0); [cbn; auto|lra].
  - intros G. apply set_real_sets, G.
Qed.
Print Assumptions zero_symbols.
Example zero_symbols_example : refuses (setSimulationBoxSizeSymbols true 4 0 6) fresh InvalidArgumentException.
Proof. apply zero_symbols. auto. Qed.

(** The other symbols. *)
Theorem number_symbols : forall debug d x n, healthy d ->
  (x <> 0%R -> sets (setMPCStreamingTimestep debug x) d [] [(streamingTimestep, x)]) /\
  sets (setSRDCollisionAngleSymbol x) d [] [(srdCollisionAngle, x)] /\
  sets (setMPCParticleCountSymbol n) d [(mpcParticleCount, n)] [] /\
  sets (setSoluteParticleCountSymbol n) d [(soluteParticleCount, n)] [] /\
  sets (setLeesEdwardsSymbols x n) d [] [(leesEdwardsRelativeLayerVelocity, (x * IZR n)%R)].
Proof.
  intros debug d x n H. repeat split; try (apply set_real_sets, H); try (apply set_int_sets, H).
  intros N. unfold sets, setMPCStreamingTimestep. destruct (Req_EM_T x 0); [contradiction|]. rewrite andb_false_r. apply set_real_sets, H.
Qed.
Print Assumptions number_symbols.
Example number_symbols_example : sets (setLeesEdwardsSymbols 2 5) fresh [] [(leesEdwardsRelativeLayerVelocity, (2 * 5)%R)].
Proof. apply number_symbols; [exact false|]. split; [reflexivity|constructor]. Qed.

(** Dumbbells: the frequency, and the cosine and sine of the phase of a time step, which are those of a rotation. *)
Theorem dumbbell_symbols : forall d w t, healthy d ->
  sets (setGaussianDumbbellSymbols w t) d [] [(omega, w); (cos_omegaTimesTimestep, cos (w * t)); (sin_omegaTimesTimestep, sin (w * t))] /\
  let d' := fst (setGaussianDumbbellSymbols w t d) in
  (reals d' cos_omegaTimesTimestep ^ 2 + reals d' sin_omegaTimesTimestep ^ 2 = 1)%R.
Proof.
  intros d w t H.
  assert (A : sets (setGaussianDumbbellSymbols w t) d [] [(omega, w); (cos_omegaTimesTimestep, cos (w * t)); (sin_omegaTimesTimestep, sin (w * t))]).
  { unfold sets, setGaussianDumbbellSymbols.
    destruct (set_real_ok omega w d H) as (d1 & E1 & H1 & I1 & R1). rewrite (seqc_ok _ _ _ _ E1).
    destruct (set_real_ok cos_omegaTimesTimestep (cos (w * t)) d1 H1) as (d2 & E2 & H2 & I2 & R2). rewrite (seqc_ok _ _ _ _ E2).
    destruct (set_real_ok sin_omegaTimesTimestep (sin (w * t)) d2 H2) as (d3 & E3 & H3 & I3 & R3). rewrite E3.
    rewrite R3, R2, R1, I3, I2, I1. split; [reflexivity|]. split; [exact H3|]. repeat split.
    - intros s v [].
    - intros s v I. cbn in I. repeat (destruct I as [I|I]; [inversion I; subst; reflexivity|]). destruct I.
    - intros s N. cbn in N. destruct s; cbn; tauto. }
  split; [exact A|]. unfold sets in A. destruct (setGaussianDumbbellSymbols w t d) as [d' e]. cbn. destruct A as (_ & _ & _ & _ & V & _).
  rewrite (V cos_omegaTimesTimestep (cos (w * t))), (V sin_omegaTimesTimestep (sin (w * t))) by (cbn; auto).
  pose proof (sin2_cos2 (w * t)) as S. unfold Rsqr in S. lra.
Qed.
Print Assumptions dumbbell_symbols.
Example dumbbell_symbols_example : reals (fst (setGaussianDumbbellSymbols 3 0 fresh)) cos_omegaTimesTimestep = 1%R.
Proof. cbn. rewrite Rmult_0_r. apply cos_0. Qed.

(** If the first copy fails, an exception is thrown, and nothing has changed. *)
Theorem failed_symbols : forall debug d x y z t n, next_fails d = true -> 0 < x -> 0 < y -> 0 < z -> t <> 0%R ->
  refuses (setSimulationBoxSizeSymbols debug x y z) d CUDAException /\ refuses (setMPCStreamingTimestep debug t) d CUDAException /\
  refuses (setSRDCollisionAngleSymbol t) d CUDAException /\ refuses (setMPCParticleCountSymbol n) d CUDAException /\
  refuses (setSoluteParticleCountSymbol n) d CUDAException /\ refuses (setLeesEdwardsSymbols t n) d CUDAException /\
  refuses (setGaussianDumbbellSymbols t t) d CUDAException.
Proof.
  intros debug d x y z t n H X Y Z T.
  assert (S : forall a b e, refuses a d e -> refuses (seqc a b) d e).
  { intros a b e. unfold refuses, seqc. destruct (a d) as [d' [f|]]; cbn; intros (E & A & B); [auto|discriminate]. }
  split; [|split; [|split; [|split; [|split; [|split]]]]]; try (apply set_real_fails, H); try (apply set_int_fails, H).
  - unfold refuses, setSimulationBoxSizeSymbols. replace (debug && ((x =? 0) || (y =? 0) || (z =? 0))) with false
      by (destruct debug; cbn; [|reflexivity]; symmetry; rewrite !orb_false_iff, !Z.eqb_neq; lia).
    apply S, set_int_fails, H.
  - unfold refuses, setMPCStreamingTimestep. destruct (Req_EM_T t 0); [contradiction|]. rewrite andb_false_r. apply set_real_fails, H.
  - apply S, set_real_fails, H.
Qed.
Print Assumptions failed_symbols.
Example failed_symbols_example : refuses (setMPCParticleCountSymbol 7) (Device (fun _ => 0) (fun _ => 0%R) false [true]) CUDAException.
Proof. apply (failed_symbols true _ 1 1 1 1); [reflexivity|lia|lia|lia|lra]. Qed.

(** Not true: a call that throws changes nothing. If a later copy fails, the number of cells does not belong to the size of the box; and if an
    error was pending, the first size is stored, and the call throws though no copy failed. *)
Theorem symbols_consistent_refuted :
  (exists d, healthy (fst (setSimulationBoxSizeSymbols true 2 2 2 fresh)) /\
     d = Device (ints (fst (setSimulationBoxSizeSymbols true 2 2 2 fresh))) (fun _ => 0%R) false [false; true] /\
     let (d', e) := setSimulationBoxSizeSymbols true 3 3 3 d in
     e = Some CUDAException /\ ints d' mpcSimulationBoxSizeX = 3 /\ ints d' mpcSimulationBoxSizeY = 2 /\ ints d' collisionCellCount = 8) /\
  (forall n, let (d', e) := setMPCParticleCountSymbol n (Device (fun _ => 0) (fun _ => 0%R) true []) in
     e = Some CUDAException /\ ints d' mpcParticleCount = n).
Proof.
  split.
  - eexists. split; [split; [reflexivity|constructor]|]. split; [reflexivity|]. cbn. repeat split.
  - intros n. cbn. split; reflexivity.
Qed.
Print Assumptions symbols_consistent_refuted.
Example symbols_consistent_refuted_example :
  snd (setSRDCollisionAngleSymbol 1 (Device (fun _ => 0) (fun _ => 0%R) true [])) = Some CUDAException.
Proof. reflexivity. Qed.
