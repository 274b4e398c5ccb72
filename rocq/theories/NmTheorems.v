(** C55, C59, C82: normal modes. *)
From Coq Require Import List ZArith Bool Reals Lia Lra String Ascii Permutation.
From Verif Require Import PyBase StrBase QcBase VecBase VecSpec PartSpec PartProof VtfSpec VtfModel VtfPyModel OtfsModel OtfsSpec DddaModel DddaSpec DddaProof AutocorrSpec AutocorrProof
  CuModel CuProof NmModel NmSpec NmProof NmRunProof NmModeProof NmOverflowProof MsdSpec LagProof.
From Verif Require StarModel.
From Verif Require MsdTheorems MsdProof.
Import ListNotations.
Open Scope R_scope.
Open Scope list_scope.

(** C55: computing the normal coordinates of all chains stores them, chain by chain, and changes
    nothing else. *)
Theorem normal_coordinates : forall N C shift P b units m x, (1 <= N)%nat -> (1 <= C)%nat ->
  let n := Z.of_nat N in let c := Z.of_nat C in
  (3 * c * (n + 1) < 2 ^ 32)%Z -> StarModel.launched c units -> disjoint P (3 * c * n) b (3 * c * (n + 1)) ->
  stored (c * n) m P x ->
  let m' := computeNormalCoordinates units n c P b shift m in
  (forall j i, (j < C)%nat -> (i <= N)%nat ->
     vector_at (fun k => m' (b + k)%Z) (Z.of_nat (j * (N + 1) + i)) = normal_coordinate N shift (chain N x j) i) /\
  (forall a, (a < b \/ b + 3 * c * (n + 1) <= a)%Z -> m' a = m a).
Proof.
  intros N C shift P b units m x HN HC n c H32 U D Hx m'.
  assert (EW : (c * (3 * (n + 1)) = 3 * c * (n + 1))%Z) by ring.
  assert (A : apart n c P b) by (unfold apart; unfold disjoint in D; lia).
  assert (HW : forall a, m' a = if (Z.leb b a && Z.ltb a (b + c * (3 * (n + 1))))%bool then value n P shift m (a - b) else m a).
  { intros a. apply host_writes; try assumption; lia. }
  split.
  - assert (Hh : holds n c shift m' b x).
    { intros k Hk. rewrite HW. destruct (Z.leb_spec b (b + k)), (Z.ltb_spec (b + k) (b + c * (3 * (n + 1)))); try lia. cbn [andb].
      replace (b + k - b)%Z with k by ring. apply (value_element n c P shift); [lia|exact Hk|]. intros a Ha. apply Hx. lia. }
    intros j i Hj Hi. pose proof (holds_vector n c shift ltac:(lia) ltac:(lia) m' b x Hh j i) as E.
    unfold n_, c_, n, c in E. rewrite !Nat2Z.id in E. apply E; lia.
  - intros a Ha. rewrite HW. destruct (Z.leb_spec b a), (Z.ltb_spec a (b + c * (3 * (n + 1)))); try lia; reflexivity.
Qed.
Print Assumptions normal_coordinates.

(** C55: the autocorrelation of a mode is the mean over the chains of the scalar products of their
    coordinates of that mode, whatever the arrays hold. *)
Theorem mode_autocorrelation : forall N C m b b', (1 <= N)%nat -> (1 <= C)%nat ->
  (3 * Z.of_nat C * (Z.of_nat N + 1) < 2 ^ 32)%Z ->
  getAverageNormalCoordinateAutocorrelation m (Z.of_nat N) (Z.of_nat C) b b' =
  Some (map (fun p => rsum (map (fun c => dot3 (vector_at (fun k => m (b + k)%Z) (Z.of_nat (c * (N + 1) + p)))
                                               (vector_at (fun k => m (b' + k)%Z) (Z.of_nat (c * (N + 1) + p)))) (seq 0 C)) / INR C) (seq 0 (N + 1))).
Proof.
  intros N C m b b' HN HC H32.
  pose proof (average_general (Z.of_nat N) (Z.of_nat C) ltac:(lia) ltac:(lia) ltac:(lia) m b b') as E.
  unfold general, n_, c_ in E. rewrite !Nat2Z.id in E. exact E.
Qed.
Print Assumptions mode_autocorrelation.

(** The room of each buffer, counted in numbers of 8 bytes, as allocated by the constructor. *)
Definition buffer_room (N C : nat) : Z := deviceBufferRoom 8 (bufferElementCount (Z.of_nat N) (Z.of_nat C)).
(** Buffers with room for [w] numbers each overlap neither with each other nor with the positions. *)
Definition buffers_disjoint (w : Z) (N C : nat) (P : Z) (count : nat) (snapshots : nat -> Z) : Prop :=
  (forall i, (i < count)%nat -> disjoint P (3 * Z.of_nat C * Z.of_nat N) (snapshots i) w) /\
  (forall i j, (i < count)%nat -> (j < count)%nat -> i <> j -> disjoint (snapshots i) w (snapshots j) w).
Definition all_launched (C : nat) (calls : list ((Z -> R) * list Z)) : Prop := forall call, In call calls -> StarModel.launched (Z.of_nat C) (snd call).

(** C59: the room of the buffers is sufficient. *)
Theorem nm_room : forall N C, (8 * Z.of_nat C * (Z.of_nat N + 1) < 2 ^ 32)%Z -> (3 * Z.of_nat C * (Z.of_nat N + 1) <= buffer_room N C)%Z.
Proof.
  intros N C H. unfold buffer_room, deviceBufferRoom, bufferElementCount. destruct C as [|C]; [cbn; lia|].
  rewrite (u32_small (Z.of_nat N + 1)) by nia. rewrite (u32_small (_ * (_ + 1))) by nia. rewrite u32_small by nia. nia.
Qed.
Print Assumptions nm_room.

(** C59: the autocorrelation between any two measurements that are less
    than [count] apart is available, however many have been taken. *)
Theorem nm_values : forall N C P every count shift snapshots m calls, (1 <= N)%nat -> (1 <= C)%nat ->
  (8 * Z.of_nat C * (Z.of_nat N + 1) < 2 ^ 32)%Z -> every <> 0%nat -> count <> 0%nat ->
  buffers_disjoint (buffer_room N C) N C P count snapshots -> all_launched C calls ->
  exists st, nm_run (Z.of_nat N) (Z.of_nat C) P every count shift snapshots calls (nm_new m) = Some st /\
  forall t T p x y, (t <= T)%nat -> (T - t < count)%nat -> (p <= N)%nat ->
    nth_error (map fst calls) (every * T) = Some x -> nth_error (map fst calls) (every * t) = Some y ->
    getAutocorrelation st t T p = Some (mode_correlation N C shift p x y).
Proof.
  intros N C P every count shift snapshots m calls HN HC H32 He Hc [F1 F2] U. pose proof (nm_room N C H32) as HR.
  destruct (nm_all (Z.of_nat N) (Z.of_nat C) P every count shift snapshots ltac:(lia) ltac:(lia) ltac:(lia) He Hc) with (m := m) (calls := calls) as (st & E & Iv).
  - intros i j Hi Hj Hij. specialize (F2 i j Hi Hj Hij). unfold disjoint in F2. lia.
  - intros i Hi. specialize (F1 i Hi). unfold apart, disjoint in *. lia.
  - apply Forall_forall. exact U.
  - exists st. split; [exact E|]. intros t T p x y HT HtT Hp Ex Ey.
    rewrite (nm_get (Z.of_nat N) (Z.of_nat C) every count shift snapshots) with (l := measured every (map fst calls)); auto.
    + rewrite <- measured_nth in Ex, Ey by exact He. rewrite (nth_error_nth _ _ _ Ex), (nth_error_nth _ _ _ Ey).
      unfold correlation, n_, c_. now rewrite !Nat2Z.id.
    + split; [apply HT|]. apply nth_error_Some. rewrite measured_nth by exact He. congruence.
    + unfold n_. now rewrite Nat2Z.id.
Qed.
Print Assumptions nm_values.

(** C59: what is saved at the end of the runs is read by the analysis under Python 2, and the
    accumulator for each mode and correlation time has been given, once each, the autocorrelations
    of exactly the pairs of measurements of the same run that are that far apart. *)
Theorem nm_analysis : forall N C P every count shift snapshots show float rd, (1 <= N)%nat -> (1 <= C)%nat ->
  (8 * Z.of_nat C * (Z.of_nat N + 1) < 2 ^ 32)%Z -> every <> 0%nat -> count <> 0%nat ->
  buffers_disjoint (buffer_room N C) N C P count snapshots -> prints_as show float rd ->
  forall runs : list (memory * list ((Z -> R) * list Z)),
  (forall run, In run runs -> all_launched C (snd run)) -> (exists run, In run runs /\ snd run <> []) ->
  exists files s,
  Forall2 (fun run file => exists st, nm_run (Z.of_nat N) (Z.of_nat C) P every count shift snapshots (snd run) (nm_new (fst run)) = Some st /\
    nm_save (Z.of_nat N) count show st = Some file) runs files /\
  nma_files false float nma_new files = Ok s /\
  (forall p d, (p <= N)%nat -> (d < count)%nat ->
    let data := flat_map (fun run => lagged (fun x y => rd (mode_correlation N C shift p x y)) d (measured every (map fst (snd run)))) runs in
    nma_get count s (Z.of_nat p) (Z.of_nat d) = Ok (fold_left ddda_add data ddda_new) /\
    answers (block (fold_left ddda_add data ddda_new) 0) data) /\
  (forall p d, (p < 0 \/ Z.of_nat N < p \/ d < 0 \/ Z.of_nat count <= d)%Z -> nma_get count s p d = Err ValueError).
Proof.
  intros N C P every count shift snapshots show float rd HN HC H32 He Hc [F1 F2] HP runs U HE. pose proof (nm_room N C H32) as HR.
  destruct (nma_end_to_end (Z.of_nat N) (Z.of_nat C) P every count shift snapshots ltac:(lia) ltac:(lia) ltac:(lia) He Hc) with (show := show) (float := float) (rd := rd) (runs := runs)
    as (files & s & E1 & E2 & E3 & E4); auto.
  - intros i j Hi Hj Hij. specialize (F2 i j Hi Hj Hij). unfold disjoint in F2. lia.
  - intros i Hi. specialize (F1 i Hi). unfold apart, disjoint in *. lia.
  - intros run c Hr Hcl. exact (U run Hr c Hcl).
  - exists files, s. split; [exact E1|]. split; [exact E2|]. split; [|exact E4]. intros p d Hp Hd data. split.
    + rewrite E3 by lia. rewrite !Nat2Z.id. unfold correlation, n_, c_. rewrite !Nat2Z.id. reflexivity.
    + destruct (stream_correct data) as [L A]. destruct (A 0%nat) as [X _]; [rewrite L; unfold block_count; lia|].
      rewrite block_data_0 in X. exact X.
Qed.
Print Assumptions nm_analysis.

(** Python 3 cannot read any file. *)
Theorem nm_python3_refuted : forall float s file files, nma_files true float s (file :: files) = Err NameError.
Proof. reflexivity. Qed.
Print Assumptions nm_python3_refuted.

(** The constructor asks for buffers of too few elements: in any system, elements beyond the number
    asked for are written. It is only by the surplus of [deviceBufferRoom] that there is room for them. *)
Theorem nm_buffer_count_refuted : forall N C shift P b units, (1 <= N)%nat -> (1 <= C)%nat ->
  let n := Z.of_nat N in let c := Z.of_nat C in
  (3 * c * (n + 1) < 2 ^ 32)%Z -> StarModel.launched c units -> disjoint P (3 * c * n) b (3 * c * (n + 1)) ->
  forall a, (b + bufferElementCount n c <= a < b + 3 * c * (n + 1))%Z ->
  (bufferElementCount n c < 3 * c * (n + 1))%Z /\
  exists m, computeNormalCoordinates units n c P b shift m a <> m a.
Proof.
  intros N C shift P b units HN HC n c H32 U D a Ha. unfold bufferElementCount in *.
  rewrite (u32_small (n + 1)), (u32_small (c * (n + 1))) in * by nia. split; [nia|].
  assert (EW : (c * (3 * (n + 1)) = 3 * c * (n + 1))%Z) by ring.
  assert (A : apart n c P b) by (unfold apart; unfold disjoint in D; lia).
  assert (HW : forall m a, computeNormalCoordinates units n c P b shift m a = if (Z.leb b a && Z.ltb a (b + c * (3 * (n + 1))))%bool then value n P shift m (a - b) else m a).
  { intros m a'. apply host_writes; try assumption; lia. }
  set (v := value n P shift (fun _ => 0) (a - b)).
  exists (fun a' => if Z.eqb a' a then v + 1 else 0). rewrite HW.
  destruct (Z.leb_spec b a), (Z.ltb_spec a (b + c * (3 * (n + 1)))); try nia. cbn [andb]. rewrite Z.eqb_refl.
  rewrite (value_ext n c P shift) with (m' := fun _ => 0); try nia.
  - fold v. lra.
  - intros a' Ha'. destruct (Z.eqb_spec a' a) as [->|]; [|reflexivity]. unfold disjoint in D. nia.
Qed.
Print Assumptions nm_buffer_count_refuted.

(** If the buffers had room just for the elements asked for, the reported values could be wrong, even
    if all of them began at multiples of 512 bytes. *)
Theorem nm_values_requested_refuted : ~ (forall N C P every count shift snapshots m calls, (1 <= N)%nat -> (1 <= C)%nat ->
  (3 * Z.of_nat C * (Z.of_nat N + 1) < 2 ^ 32)%Z -> every <> 0%nat -> count <> 0%nat ->
  buffers_disjoint (bufferElementCount (Z.of_nat N) (Z.of_nat C)) N C P count snapshots -> (forall i, (snapshots i mod 64 = 0)%Z) -> all_launched C calls ->
  exists st, nm_run (Z.of_nat N) (Z.of_nat C) P every count shift snapshots calls (nm_new m) = Some st /\
  forall t T p x y, (t <= T)%nat -> (T - t < count)%nat -> (p <= N)%nat ->
    nth_error (map fst calls) (every * T) = Some x -> nth_error (map fst calls) (every * t) = Some y ->
    getAutocorrelation st t T p = Some (mode_correlation N C shift p x y)).
Proof.
  intros H. destruct (H 1%nat 32%nat 1024%Z 1%nat 2%nat 0 tight_buffers (fun _ => 0) tight_calls) as (st & E & F); clear H; try lia.
  - change (bufferElementCount (Z.of_nat 1) (Z.of_nat 32)) with 64%Z. split; unfold disjoint, tight_buffers; intros; lia.
  - intros i. unfold tight_buffers. now rewrite Z.mul_comm, Z.mod_mul by lia.
  - intros call [<-|[<-|[]]]; apply launched_zrange.
  - destruct tight_result as (st' & E' & G). change (Z.of_nat 1) with 1%Z in E. change (Z.of_nat 32) with 32%Z in E. rewrite E in E'. injection E' as <-.
    rewrite (F 0%nat 1%nat 0%nat (fun _ => 1) (fun _ => 0)) in G; try lia; try reflexivity.
    injection G as G. unfold mode_correlation in G.
    rewrite (map_ext _ (fun _ => 0)) in G.
    + cbn [seq map rsum] in G. rewrite !Rplus_0_r in G. unfold Rdiv in G. rewrite Rmult_0_l in G. lra.
    + intros c. unfold normal_coordinate, chain, vector_at, dot3. cbn [seq map vsum]. unfold plus3, times3, zero3. cbn [vx vy vz]. ring.
Qed.
Print Assumptions nm_values_requested_refuted.

(** For larger systems the computation of the size wraps around, and there need not be any room. *)
Theorem nm_room_refuted : ~ (forall N C, (1 <= N)%nat -> (1 <= C)%nat -> (3 * Z.of_nat C * (Z.of_nat N + 1) < 2 ^ 32)%Z ->
  (0 < buffer_room N C)%Z).
Proof.
  intros H. destruct (Z_of_nat_complete (2 ^ 28) ltac:(lia)) as [C E]. specialize (H 1%nat C ltac:(lia)). unfold buffer_room in H. rewrite <- E in H.
  specialize (H ltac:(lia) eq_refl). discriminate H.
Qed.
Print Assumptions nm_room_refuted.

(** C82: on the host and on the device, normal coordinates are what the documentation says. *)
Theorem normal_coordinate_host : forall i vectors N shift, (0 < N)%nat ->
  host_computeNormalCoordinate i vectors N shift = normal_coordinate N shift (fun n => vectors (n - 1)%nat) i.
Proof. exact host_eq. Qed.
Print Assumptions normal_coordinate_host.
(** C82: the mode 0 is the mean of the vectors. *)
Theorem normal_mode_zero : forall N shift r, normal_coordinate N shift r 0 = times3 (/ INR N) (vsum (map r (seq 1 N))).
Proof. exact mode_zero. Qed.
Print Assumptions normal_mode_zero.
(** C82: with shift -1/2, displacing all vectors leaves the other modes alone, the last mode is zero, and
    the vectors can be recovered from the modes. *)
Theorem normal_modes_shifted : forall N r, (0 < N)%nat ->
  (forall v i, (0 < i <= N)%nat -> normal_coordinate N (- 1 / 2) (fun n => plus3 (r n) v) i = normal_coordinate N (- 1 / 2) r i) /\
  normal_coordinate N (- 1 / 2) r N = zero3 /\
  (forall n, (1 <= n <= N)%nat -> r n =
     plus3 (normal_coordinate N (- 1 / 2) r 0)
       (times3 2 (vsum (map (fun i => times3 (cos (INR i * PI * (INR n + - 1 / 2) / INR N)) (normal_coordinate N (- 1 / 2) r i)) (seq 1 (N - 1)))))).
Proof. intros N r H. split; [intros; now apply mode_invariant|]. split; [now apply mode_last|]. intros n Hn. now apply mode_inversion. Qed.
Print Assumptions normal_modes_shifted.
(** C82: with the default shift 0, this is so only for even modes; odd modes depend on the position of the chain. *)
Theorem normal_modes_default : forall N r v i, (0 < i <= N)%nat ->
  normal_coordinate N 0 (fun n => plus3 (r n) v) i =
  if Nat.even i then normal_coordinate N 0 r i else plus3 (normal_coordinate N 0 r i) (times3 (- / INR N) v).
Proof. exact mode_default. Qed.
Print Assumptions normal_modes_default.
Theorem normal_modes_default_refuted : forall N, (0 < N)%nat ->
  ~ (forall r v i, (0 < i <= N)%nat -> normal_coordinate N 0 (fun n => plus3 (r n) v) i = normal_coordinate N 0 r i).
Proof.
  intros N HN H. specialize (H (fun _ => zero3) (Vec 1 0 0) 1%nat ltac:(lia)). rewrite mode_default in H by lia. cbn [Nat.even] in H.
  apply (f_equal vx) in H. unfold plus3, times3 in H. cbn in H. assert (0 < INR N) by now apply lt_0_INR.
  assert (0 < / INR N) by now apply Rinv_0_lt_compat. lra.
Qed.
Print Assumptions normal_modes_default_refuted.

(** Numbers are printed with their integer parts only. *)
Definition show_part (x : R) : string := str_of_Z (Z.abs (Int_part x)).
Example parts_print : prints_as show_part MsdTheorems.read_integer (fun x => Qcanon.Q2Qc (QArith_base.inject_Z (Z.abs (Int_part x)))).
Proof.
  intros x. unfold MsdTheorems.read_integer, show_part. rewrite Z_of_str_of_Z. split; [reflexivity|].
  split; [apply str_of_Z_nonempty|apply MsdProof.id_no_space; lia].
Qed.
(** 32 chains: every hypothesis of [nm_values] and [nm_analysis] holds, and the two measurements
    have the right autocorrelation. *)
Definition roomy_buffers (i : nat) : Z := (512 * Z.of_nat i)%Z.
Example roomy_fit : buffers_disjoint (buffer_room 1 32) 1 32 1024 2 roomy_buffers /\ all_launched 32 tight_calls.
Proof.
  split; [change (buffer_room 1 32) with 512%Z; split; unfold disjoint, roomy_buffers; intros; lia|].
  intros call [<-|[<-|[]]]; apply launched_zrange.
Qed.
Example roomy_value : exists st, nm_run 1 32 1024 1 2 0 roomy_buffers tight_calls (nm_new (fun _ => 0)) = Some st /\
  getAutocorrelation st 1 1 0 = Some 3 /\ getAutocorrelation st 0 1 0 = Some 0.
Proof.
  destruct (nm_values 1 32 1024 1 2 0 roomy_buffers (fun _ => 0) tight_calls) as (st & E & F); try lia; try apply roomy_fit.
  exists st. split; [exact E|].
  rewrite (F 1%nat 1%nat 0%nat (fun _ => 1) (fun _ => 1)), (F 0%nat 1%nat 0%nat (fun _ => 1) (fun _ => 0)) by (try lia; reflexivity).
  split; f_equal; unfold mode_correlation.
  - rewrite (map_ext _ (fun _ => 3)).
    + cbn [seq map rsum]. rewrite (INR_IZR_INZ 32). cbn. field.
    + intros c. unfold normal_coordinate, chain, vector_at, dot3. cbn [seq map vsum]. unfold plus3, times3, zero3. cbn [vx vy vz INR].
      replace (0 * PI * (1 + 0) / 1) with 0 by field. rewrite cos_0. field.
  - rewrite (map_ext _ (fun _ => 0)).
    + cbn [seq map rsum]. rewrite !Rplus_0_r. unfold Rdiv. apply Rmult_0_l.
    + intros c. unfold normal_coordinate, chain, vector_at, dot3. cbn [seq map vsum]. unfold plus3, times3, zero3. cbn [vx vy vz]. ring.
Qed.
