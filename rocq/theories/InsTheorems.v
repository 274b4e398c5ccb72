(** The instruments of a simulation (C104). *)
From Coq Require Import Qround Bool.
From Verif Require Import QcBase QcLra StrBase PyBase CuModel CfgModel CfgSpec CfgSimModel CfgSimSpec OtfsModel OtfsSpec FlowModel FlowSpec FlowProof FlowTheorems MeasModel MeasSpec MeasProof MeasTheorems InsModel InsSpec InsProof InsCfgProof.
Open Scope list_scope.
Open Scope Qc_scope.

(** C104: which instruments there are, and how they are set up, follows from the configuration. *)
Theorem instruments_constructed : forall neg root hasFluid box m, construct neg root hasFluid box = Done m <-> instruments_given neg root hasFluid box m.
Proof. exact construct_iff. Qed.
Print Assumptions instruments_constructed.
(** New instruments can measure. *)
Theorem instruments_constructed_fresh : forall neg root hasFluid box m, construct neg root hasFluid box = Done m ->
  (forall h, velocityMagnitudeHistogram m = Some h -> h_bins h <> [] /\ h_low h < h_high h) -> fresh box m.
Proof.
  intros neg root hasFluid box m H V. apply construct_iff in H.
  assert (N : no_instruments m -> fresh box m) by (intros ->; repeat split; discriminate).
  destruct H as [(_ & H)|(s & _ & _ & [(_ & H)|(_ & Kh & Kd & Kf & K1 & K2 & K3)])]; [exact (N H)|exact (N H)|]. split; [|split; [|split]]; auto.
  - intros h E. specialize (V h E). rewrite E in Kh. destruct Kh as (n & low & high & _ & _ & _ & ->). cbn [h_bins h_low h_high] in V. destruct V as [V1 V2].
    exists low, high, (Z.to_nat n). split; [intros Z; apply V1; rewrite Z; reflexivity|]. split; [exact V2|reflexivity].
  - intros d E. rewrite E in Kd. destruct Kd as (_ & subs & _ & K). exists subs. exact K.
  - intros f E. rewrite E in Kf. destruct Kf as (_ & subs & per & _ & _ & K). exists subs, per. exact K.
Qed.
Print Assumptions instruments_constructed_fresh.

Definition ex_root : setting Qc :=
  Group [("mpc", Group []);
         ("instrumentation", Group [("densityProfile", Group [("cellSubdivision", Group [("x", Scalar (VInt 2)); ("y", Scalar (VInt 1)); ("z", Scalar (VInt 3))])]);
                                    ("velocityMagnitudeHistogram", Group [("binCount", Scalar (VInt 4)); ("low", Scalar (VFloat 0)); ("high", Scalar (VFloat (qz 2)))]);
                                    ("flowProfile", Group [("sweepCountPerOutput", Scalar (VInt 5))])])]%string.
Definition ex_neg (z : Z) : option Z := None.
Example instruments_constructed_ex :
  match construct ex_neg ex_root true (4, 5, 6)%nat with
  | Done (Instruments (Some h) (Some d) (Some f) 0 0 0) =>
      length (h_bins h) = 4%nat /\ d_subs d = (2, 1, 3)%nat /\ d_shape d = (8, 5, 18)%nat /\ c_subs f = (1, 1, 1)%nat /\ c_per f = 5%nat
  | _ => False
  end /\ construct ex_neg ex_root false (4, 5, 6)%nat = Done nothing.
Proof. vm_compute. repeat split. Qed.
Example instruments_constructed_ex2 :
  construct ex_neg (Group [("instrumentation", Group [("densityProfiles", Group [])])]%string) true (4, 5, 6)%nat = Fails InvalidConfiguration /\
  construct ex_neg (Group [("instrumentation", Group [("densityProfile", Group [("cellSubdivision", Group [("x", Scalar (VInt 0)); ("y", Scalar (VInt 1)); ("z", Scalar (VInt 3))])])])]%string) true (4, 5, 6)%nat
    = Fails InvalidConfiguration.
Proof. vm_compute. auto. Qed.

(** Where particles are, and how fast, is well defined. *)
Theorem instruments_located : forall shear box subs, positive box -> positive subs ->
  (exists where_, locates shear box subs where_ /\ forall time p, FlowModel.in_shape (let '(bx, by_, bz) := box in let '(sx, sy, sz) := subs in (bx * sx, by_ * sy, bz * sz)%nat) (where_ time p) = true) /\
  exists velocity, sees shear box velocity.
Proof.
  intros shear box subs B P. split; [|exists (corrected shear box); apply corrected_sees; exact B].
  exists (place shear box subs). split; [apply place_locates; assumption|]. intros time p. pose proof (place_shape shear box B subs time p P) as H.
  destruct (place shear box subs time p) as [[cx cy] cz], box as [[bx by_] bz], subs as [[sx sy] sz]. unfold in_shape. destruct H as (H1 & H2 & H3).
  apply Nat.ltb_lt in H1, H2, H3. rewrite H1, H2, H3. reflexivity.
Qed.
Print Assumptions instruments_located.

(** No measurement fails, wherever the particles are, and each is counted once. *)
Theorem instruments_measure : forall magnitude shear box mass m l, positive box -> fresh box m ->
  exists m', measure_all magnitude m (map (state shear box mass) l) = Ok m' /\
    measurementCount m' = length l /\ fluidMeasurements m' = length l /\ soluteMeasurements m' = length (filter (fun s => snd s) l) /\
    given (velocityMagnitudeHistogram m') = given (velocityMagnitudeHistogram m) /\ given (densityProfile m') = given (densityProfile m) /\
    given (flowProfile m') = given (flowProfile m).
Proof.
  intros magnitude shear box mass m l B F. destruct (fresh_total magnitude shear mass box B m l F) as (h & d & f & H & D & Fl).
  rewrite (measure_all_ok magnitude shear mass box l m h d f H D Fl). eexists. split; [reflexivity|].
  destruct F as (_ & _ & _ & -> & -> & ->). cbn [measurementCount fluidMeasurements soluteMeasurements velocityMagnitudeHistogram densityProfile flowProfile].
  rewrite !Nat.add_0_r. do 3 (split; [reflexivity|]).
  apply on_ok in H. apply on_ok in D. apply on_ok in Fl. destruct (velocityMagnitudeHistogram m), (densityProfile m), (flowProfile m);
    repeat match goal with X : exists _, _ |- _ => destruct X as (? & _ & ->) | X : _ = None |- _ => rewrite X end; auto.
Qed.
Print Assumptions instruments_measure.

(** The histogram counts the magnitudes of all velocities. *)
Theorem instruments_histogram : forall magnitude shear box mass m l m' low high n, positive box -> fresh box m -> n <> 0%nat -> low < high ->
  measure_all magnitude m (map (state shear box mass) l) = Ok m' -> velocityMagnitudeHistogram m = Some (hist_new low high n) ->
  exists h, velocityMagnitudeHistogram m' = Some h /\
    let v := map (fun p => magnitude (snd p)) (flat_map (fun s => snd (fst s)) l) in
    h_under h = count (fun x => qltb x low) v /\ h_over h = count (fun x => qleb high x) v /\
    h_bins h = map (fun i => count (bin_has low high n i) v) (seq 0 n).
Proof.
  intros magnitude shear box mass m l m' low high n B F N L E H. destruct (fresh_total magnitude shear mass box B m l F) as (h & d & f & H1 & D & Fl).
  rewrite (measure_all_ok magnitude shear mass box l m h d f H1 D Fl) in E. injection E as <-. cbn [velocityMagnitudeHistogram].
  rewrite H in H1. cbn [on] in H1. destruct (@hist_counts low high n (flat_map (vops magnitude) l) N L) as (h' & E & A1 & A2 & A3 & _). rewrite E in H1. injection H1 as <-.
  exists h'. split; [reflexivity|]. rewrite map_flat_map'. auto.
Qed.
Print Assumptions instruments_histogram.

(** The density profile has, for each subdivision, the mass found there per measurement, and altogether the mass of the fluid. *)
Theorem instruments_density : forall magnitude shear box mass m l m' subs d0 where_, positive box -> fresh box m ->
  measure_all magnitude m (map (state shear box mass) l) = Ok m' -> densityProfile m = Some d0 -> dens_new box subs = Ok d0 -> l <> [] ->
  locates shear box subs where_ ->
  exists d, densityProfile m' = Some d /\
    (let '(bx, by_, bz) := box in let '(sx, sy, sz) := subs in
     dens_rows d = map (fun c => let '(x, y, z) := c in (qn x / qn sx, qn y / qn sy, qn z / qn sz, mass * qn (found where_ l c) / qn (length l)))
                     (cells (bx * sx, by_ * sy, bz * sz)%nat)) /\
    qsum (map snd (dens_rows d)) = mass * qn (length (flat_map (fun s => snd (fst s)) l)) / qn (length l).
Proof.
  intros magnitude shear box mass m l m' subs d0 where_ B F E HD N NE LW. destruct (fresh_total magnitude shear mass box B m l F) as (h & d & f & H1 & D & Fl).
  rewrite (measure_all_ok magnitude shear mass box l m h d f H1 D Fl) in E. injection E as <-. cbn [densityProfile].
  rewrite HD in D. cbn [on] in D. destruct (dens_run d0 (flat_map (dops shear mass box (d_subs d0)) l)) as [d1|] eqn:E1; [|discriminate]. cbn [bind] in D. injection D as <-.
  exists d1. split; [reflexivity|]. destruct (dens_new_ok _ _ _ N) as (P & S & _). rewrite S in E1.
  assert (NL : length l <> 0%nat) by (destruct l; [congruence|discriminate]).
  pose proof (@dens_file box subs d0 _ d1 N E1) as R. rewrite fills_dops in R. specialize (R ltac:(lia)).
  assert (W : forall time p, where_ time p = place shear box subs time p).
  { intros time p. apply (place_locates shear box subs B P time p). apply LW. reflexivity. }
  assert (FW : forall c, found where_ l c = found (place shear box subs) l c).
  { intros c. unfold found. f_equal. apply flat_map_ext. intros s. apply filter_ext. intros p. rewrite W. reflexivity. }
  destruct box as [[bx by_] bz], subs as [[sx sy] sz].
  assert (R' : dens_rows d1 = map (fun c => let '(x, y, z) := c in (qn x / qn sx, qn y / qn sy, qn z / qn sz, mass * qn (found where_ l c) / qn (length l)))
    (cells (bx * sx, by_ * sy, bz * sz)%nat)).
  { rewrite R, <- rows_cells. apply flat_map_ext. intros x. apply flat_map_ext. intros y. apply map_ext. intros z.
    rewrite masses_dops, qsum_repeat_, FW. reflexivity. }
  split; [exact R'|]. rewrite R', map_map.
  rewrite (map_ext _ (fun c => mass / qn (length l) * qn (found where_ l c))).
  2:{ intros [[x y] z]. cbn [snd]. field. apply qn_neq0. exact NL. }
  rewrite qsum_map_scale, found_sum; [field; apply qn_neq0; exact NL|apply cells_nodup|].
  intros s p _ _. apply in_cells. rewrite W. pose proof (place_shape shear _ B (sx, sy, sz) (fst (fst s)) (fst p) P) as H.
  destruct (place shear (bx, by_, bz) (sx, sy, sz) (fst (fst s)) (fst p)) as [[cx cy] cz]. unfold in_shape. destruct H as (X1 & X2 & X3).
  apply Nat.ltb_lt in X1, X2, X3. rewrite X1, X2, X3. reflexivity.
Qed.
Print Assumptions instruments_density.

(** C104 as documented is false: the last column is to be the mass density, but times the volume of the subdivisions it adds up to the mass of the fluid
    divided by the number of subdivisions of a collision cell. *)
Theorem instruments_density_refuted : forall magnitude shear box mass m l m' sx sy sz d0, positive box -> fresh box m ->
  measure_all magnitude m (map (state shear box mass) l) = Ok m' -> densityProfile m = Some d0 -> dens_new box (sx, sy, sz) = Ok d0 ->
  mass <> 0 -> flat_map (fun s => snd (fst s)) l <> [] -> (1 < sx * sy * sz)%nat ->
  exists d, densityProfile m' = Some d /\
    qsum (map (fun r => snd r * (1 / (qn sx * qn sy * qn sz))) (dens_rows d)) <> mass * qn (length (flat_map (fun s => snd (fst s)) l)) / qn (length l).
Proof.
  intros magnitude shear box mass m l m' sx sy sz d0 B F E HD N M NE S.
  destruct (dens_new_ok _ _ _ N) as (P & _).
  assert (NL : l <> []) by (intros ->; apply NE; reflexivity).
  destruct (instruments_density magnitude shear box mass m l m' (sx, sy, sz) d0 (place shear box (sx, sy, sz)) B F E HD N NL (place_locates shear box _ B P)) as (d & Hd & _ & Q).
  exists d. split; [exact Hd|].
  rewrite (map_ext _ (fun r => 1 / (qn sx * qn sy * qn sz) * snd r)) by (intros; ring). rewrite <- map_map with (g := fun x => 1 / (qn sx * qn sy * qn sz) * x).
  rewrite qsum_map_scale, map_id, Q. rewrite <- !qn_mul. intros K.
  set (a := mass * qn (length (flat_map (fun s : snapshot => snd (fst s)) l)) / qn (length l)) in *.
  assert (A0 : a <> 0).
  { unfold a. intros Z. assert (LN : length l <> 0%nat) by (destruct l; [congruence|discriminate]). apply qn_neq0 in LN.
    assert (Z2 : mass * qn (length (flat_map (fun s : snapshot => snd (fst s)) l)) = 0).
    { replace (mass * _) with (mass * qn (length (flat_map (fun s : snapshot => snd (fst s)) l)) / qn (length l) * qn (length l)) by (field; exact LN). rewrite Z. ring. }
    apply Qcmult_integral in Z2. destruct Z2 as [Z2|Z2]; [exact (M Z2)|]. revert Z2. apply qn_neq0. destruct (flat_map _ l); [congruence|discriminate]. }
  clearbody a. assert (SN : qn (sx * sy * sz) <> 0) by (apply qn_neq0; lia).
  assert (K2 : a = a * qn (sx * sy * sz)).
  { replace a with (1 / qn (sx * sy * sz) * a * qn (sx * sy * sz)) at 1 by (field; exact SN). rewrite K. reflexivity. }
  assert (K3 : a * (qn (sx * sy * sz) - 1) = 0) by (rewrite K2 at 1; replace (a * qn (sx * sy * sz) * (qn (sx * sy * sz) - 1)) with (a * qn (sx * sy * sz) * qn (sx * sy * sz) - a * qn (sx * sy * sz)) by ring; rewrite <- !K2; ring).
  apply Qcmult_integral in K3. destruct K3 as [K3|K3]; [exact (A0 K3)|].
  assert (K4 : qn (sx * sy * sz) = qn 1) by (rewrite qn_1; replace (qn (sx * sy * sz)) with (qn (sx * sy * sz) - 1 + 1) by ring; rewrite K3; ring).
  apply qn_inj in K4. lia.
Qed.
Print Assumptions instruments_density_refuted.

(** The flow profile has, for each block of measurements and each subdivision, the statistics of the velocities, in the frame of the primary box, of the
    particles that are there. *)
Theorem instruments_flow : forall magnitude shear box mass m l m' subs per f0 where_ velocity, positive box -> fresh box m ->
  measure_all magnitude m (map (state shear box mass) l) = Ok m' -> flowProfile m = Some f0 -> cfp_new box subs per = Ok f0 ->
  locates shear box subs where_ -> sees shear box velocity ->
  exists f, flowProfile m' = Some f /\ length (blocks_in_order f) = block_total per (length l) /\
    forall b B, nth_error (blocks_in_order f) b = Some B -> forall c i, (i < 3)%nat ->
      answers (comp i (B c)) (map (comp i) (velocities_in where_ velocity (in_block per b) l c)).
Proof.
  intros magnitude shear box mass m l m' subs per f0 where_ velocity B F E HF N LW LV. destruct (fresh_total magnitude shear mass box B m l F) as (h & d & f & H1 & D & Fl).
  rewrite (measure_all_ok magnitude shear mass box l m h d f H1 D Fl) in E. injection E as <-. cbn [flowProfile].
  rewrite HF in Fl. cbn [on] in Fl. destruct (frun f0 (flat_map (fops shear box (c_subs f0)) l)) as [f1|] eqn:E1; [|discriminate]. cbn [bind] in Fl. injection Fl as <-.
  exists f1. split; [reflexivity|]. destruct (cfp_new_ok _ _ _ _ N) as (P & S & _). rewrite S in E1.
  destruct (@flow_blocks box subs per f0 _ f1 N E1) as [A1 A2]. rewrite sweeps_all in A1. split; [exact A1|]. intros b Bl HB c i Hi. specialize (A2 b Bl HB c i Hi).
  rewrite recorded_fops in A2. unfold velocities_in.
  rewrite (flat_map_ext _ (fun ns => if in_block per b (fst ns) then map (fun p => corrected shear box (fst (fst (snd ns))) (fst p) (snd p))
    (filter (fun p => FlowModel.cell_eqb c (place shear box subs (fst (fst (snd ns))) (fst p))) (snd (fst (snd ns)))) else [])); [exact A2|].
  intros [n s]. cbn [fst snd]. destruct (in_block per b n); [|reflexivity].
  assert (W : forall time p, where_ time p = place shear box subs time p).
  { intros time p. apply (place_locates shear box subs B P time p). apply LW. reflexivity. }
  assert (V : forall time p v, velocity time p v = corrected shear box time p v).
  { intros time p v. apply (corrected_sees shear box B time p v). apply LV. reflexivity. }
  rewrite (map_ext _ (fun p => corrected shear box (fst (fst s)) (fst p) (snd p))) by (intros; apply V). f_equal. apply filter_ext. intros p. rewrite W. reflexivity.
Qed.
Print Assumptions instruments_flow.

(** Density and flow do not depend on which of its images represents a particle. *)
Theorem instruments_images : forall magnitude shear box mass m l l', positive box -> velocityMagnitudeHistogram m = None ->
  Forall2 (displaced_snapshot shear box) l l' ->
  measure_all magnitude m (map (state shear box mass) l') = measure_all magnitude m (map (state shear box mass) l).
Proof. intros magnitude shear box mass m l l' B H F. apply all_displaced; assumption. Qed.
Print Assumptions instruments_images.
(** The same is false of the histogram of the magnitudes of the velocities, where the velocity is used that includes that of the layer. *)
Theorem instruments_images_refuted : forall magnitude, magnitude (0, 0, 0) = 0 -> magnitude (1, 0, 0) = 1 ->
  exists shear box mass m l l', positive box /\ fresh box m /\ Forall2 (displaced_snapshot shear box) l l' /\
  measure_all magnitude m (map (state shear box mass) l') <> measure_all magnitude m (map (state shear box mass) l).
Proof.
  intros magnitude M0 M1.
  exists 1, (1, 1, 1)%nat, 1, (Instruments (Some (hist_new 0 (qz 2) 2)) None None 0 0 0), [(0, [((0, 0, 0), (0, 0, 0))], false)], [(0, [((0, 1, 0), (1, 0, 0))], false)].
  split; [repeat split; lia|]. split; [|split].
  - split; [|repeat split; discriminate]. intros h [= <-]. exists 0, (qz 2), 2%nat. split; [discriminate|]. split; [reflexivity|]. reflexivity.
  - constructor; [|constructor]. constructor. constructor; [|constructor].
    assert (X : ((0, 1, 0), (1, 0, 0)) = (plus3 (0, 0, 0) (lattice 1 0 (1, 1, 1)%nat 0 1 0), plus3 (0, 0, 0) (qz 1 * (1 * qn (snd (fst (1, 1, 1)%nat))), 0, 0))).
    { cbn [plus3 lattice fst snd]. f_equal; (f_equal; [f_equal|]); apply Qc_is_canon; vm_compute; reflexivity. }
    rewrite X. apply displaced.
  - cbn [map]. unfold measure_all. cbn [fold_res]. unfold measure, measureMPCFluid, state. cbn [mpcFluid shearRate_ particles particleMass fst snd fold_res velocityMagnitudeHistogram densityProfile flowProfile option_map].
    unfold measure_particle. cbn [velocityMagnitudeHistogram on densityProfile flowProfile]. rewrite M0, M1. intros E.
    apply (f_equal (fun r => match r with Ok m => match velocityMagnitudeHistogram m with Some h => h_bins h | None => [] end | Err _ => [] end)) in E.
    vm_compute in E. discriminate E.
Qed.
Print Assumptions instruments_images_refuted.

(** Without a fluid nothing but the solute is measured; fluids need the boundary conditions of Lees and Edwards. *)
Theorem instruments_other : forall magnitude m s,
  (mpcFluid s = None -> measure magnitude m s = Ok (Instruments (velocityMagnitudeHistogram m) (densityProfile m) (flowProfile m) (fluidMeasurements m)
     ((if measuredSolute s then 1 else 0) + soluteMeasurements m) (1 + measurementCount m))) /\
  (forall f, mpcFluid s = Some f -> shearRate_ s = None -> measure magnitude m s = Err UnimplementedException).
Proof.
  intros magnitude m s. unfold measure, measureMPCFluid. split.
  - intros ->. cbn [bind]. unfold measureMPCSolute. destruct (measuredSolute s); reflexivity.
  - intros f -> ->. reflexivity.
Qed.
Print Assumptions instruments_other.

(** A particle in the next layer up, with a shear rate of 1 and at time 2. *)
Definition ex_instruments : instruments :=
  match construct ex_neg ex_root true (4, 5, 6)%nat with Done m => m | Fails _ => nothing end.
Definition ex_magnitude (v : vec) : Qc := let '(x, y, z) := v in (if qltb x 0 then - x else x).
Definition ex_snapshots : list snapshot :=
  [(qz 2, [((qz 1, qz 6, qz 1 / qz 2), (qz 7, 0, 0)); ((0, 0, 0), (1 / qz 4, 0, 0))], true); (qz 3, [((qz 1, 0, qz 6), (qz (-1), 0, 0))], false)].
Example instruments_measure_ex : fresh (4, 5, 6)%nat ex_instruments /\
  match measure_all ex_magnitude ex_instruments (map (state 1 (4, 5, 6)%nat (qz 10)) ex_snapshots) with
  | Ok (Instruments (Some h) (Some d) (Some f) a b c) =>
      h_bins h = [1; 0; 1; 0]%nat /\ h_over h = 1%nat /\ (a, b, c) = (2, 1, 2)%nat /\
      qeqb (d_points d (6, 1, 1)%nat) (qz 10) = true /\ qeqb (d_points d (0, 0, 0)%nat) (qz 10) = true /\ qeqb (d_points d (2, 0, 0)%nat) (qz 10) = true /\
      map (fun B : fblock => (getSampleSize (comp 0 (B (3, 1, 0)%nat)), getSampleSize (comp 0 (B (1, 0, 0)%nat)))) (blocks_in_order f) = [(1, 1)]%nat /\
      map (fun B : fblock => match getSampleMean (comp 0 (B (3, 1, 0)%nat)) with Ok x => qeqb x (qz 2) | Err _ => false end) (blocks_in_order f) = [true]
  | _ => False
  end.
Proof.
  split.
  - apply (instruments_constructed_fresh ex_neg ex_root true). { vm_compute. reflexivity. }
    vm_compute. intros h [= <-]. split; [discriminate|reflexivity].
  - vm_compute. repeat split.
Qed.

(** The files. *)
Section Files.
Variables (histogram_text : hist -> string) (density_text : dens -> string) (flow_text : cfp -> string) (show : Z -> string).
Variables (m : instruments) (fluid solute : option (string -> list (string * string))) (sweeps : Z) (host device started ended : string).
Variables (rngSeed : Z) (gitRevision config_text : string) (exists_ : string -> bool).
Notation files rundir := (save histogram_text density_text flow_text show m fluid solute sweeps host device started ended rngSeed gitRevision config_text exists_ rundir).
Open Scope string_scope.
Notation file_of := (InsSpec.file_of histogram_text density_text flow_text show m fluid solute sweeps host device started ended rngSeed gitRevision config_text exists_).
(** The files that are written: those of the instruments that there are, of the fluid and of the solute, and of the run; a text of the configuration
    that is there already is left alone. *)
Theorem instruments_saved : forall rundir path text, In (path, text) (files rundir) <-> file_of rundir path text.
Proof.
  intros rundir path text.
  assert (MT : metadata show sweeps host device started ended = String.concat "" (map (fun e => fst e ++ ": " ++ snd e ++ String (ascii_of_nat 10) "")
       (let q s := String (ascii_of_nat 34) (s ++ String (ascii_of_nat 34) "") in
        [("numberOfCompletedSweeps", show sweeps); ("executingHost", q host); ("DefaultCUDADevicePCIAddress", q device);
         ("startTimeUTC", q started); ("endTimeUTC", q ended)]))).
  { unfold metadata, quote, line_end. cbn [map String.concat fst snd append]. repeat first [rewrite <- str_app_assoc | progress cbn [append]]. reflexivity. }
  unfold save, saveStaticData. rewrite !in_app_iff, MT. cbn [In]. split.
  - intros [H|[H|[H|[H|[H|[[H|[]]|[[H|[]]|[H|H]]]]]]]].
    + destruct (velocityMagnitudeHistogram m) as [h|] eqn:E; cbn [file_if In] in H; [|contradiction]. destruct H as [[= <- <-]|[]]. apply of_histogram. exact E.
    + destruct (densityProfile m) as [h|] eqn:E; cbn [file_if In] in H; [|contradiction]. destruct H as [[= <- <-]|[]]. apply of_density. exact E.
    + destruct (flowProfile m) as [h|] eqn:E; cbn [file_if In] in H; [|contradiction]. destruct H as [[= <- <-]|[]]. apply of_flow. exact E.
    + assert (X : exists f, fluid = Some f /\ In (path, text) (f rundir)) by (destruct fluid; [eexists; split; [reflexivity|exact H]|contradiction]). destruct X as (f & E & X). eapply of_fluid; eassumption.
    + assert (X : exists f, solute = Some f /\ In (path, text) (f rundir)) by (destruct solute; [eexists; split; [reflexivity|exact H]|contradiction]). destruct X as (f & E & X). eapply of_solute; eassumption.
    + apply (f_equal fst) in H as H1. apply (f_equal snd) in H. cbn [fst snd] in H, H1. subst. apply of_run.
    + injection H as <- <-. apply of_seed.
    + destruct (exists_ (rundir ++ "/config.txt")) eqn:E; cbn [negb In] in H; [contradiction|]. destruct H as [[= <- <-]|[]]. apply of_configuration. exact E.
    + destruct (String.eqb gitRevision "") eqn:E; cbn [negb In] in H; [contradiction|]. destruct H as [[= <- <-]|[]]. apply of_revision. apply String.eqb_neq. exact E.
  - intros [h E|d E|f E|f p' t' E H|f p' t' E H| | |E|E].
    + left. rewrite E. left. reflexivity.
    + right; left. rewrite E. left. reflexivity.
    + do 2 right; left. rewrite E. left. reflexivity.
    + do 3 right; left. rewrite E. exact H.
    + do 4 right; left. rewrite E. exact H.
    + do 5 right; left. left. reflexivity.
    + do 6 right; left. left. reflexivity.
    + do 7 right; left. rewrite E. left. reflexivity.
    + do 8 right. apply String.eqb_neq in E. rewrite E. left. reflexivity.
Qed.
(** At the end of the run the same files are written if a directory has been chosen for that, and none otherwise. *)
Theorem instruments_autosave : forall autosave path text,
  In (path, text) (destruct_ autosave (fun rundir => files rundir)) <-> exists rundir, autosave = Some rundir /\ file_of rundir path text.
Proof.
  intros [rundir|] path text; cbn [destruct_].
  - rewrite instruments_saved. split; [intros H; exists rundir; auto|]. intros (r & [= <-] & H). exact H.
  - split; [contradiction|]. intros (r & H & _). discriminate.
Qed.
End Files.
Print Assumptions instruments_saved.
Print Assumptions instruments_autosave.
Example instruments_saved_ex :
  map fst (save (fun _ => "") (fun _ => "") (fun _ => "") (fun _ => "7") ex_instruments (Some (fun d => [(d ++ "/fluid", "f")])) None 7 "h" "d" "s" "e" 3 "abc" "c"
    (String.eqb "run/config.txt") "run")%string
  = ["run/velocityMagnitudeHistogram.data"; "run/densityProfile.data"; "run/flowProfile.data"; "run/fluid"; "run/metadata.txt"; "run/rngSeed.txt"; "run/git-revision"]%string /\
  map fst (destruct_ (Some "x"%string) (save (fun _ => "") (fun _ => "") (fun _ => "") (fun _ => "7") nothing None None 7 "h" "d" "s" "e" 3 "" "c" (fun _ => false)))%string
  = ["x/metadata.txt"; "x/rngSeed.txt"; "x/config.txt"]%string.
Proof. vm_compute. split; reflexivity. Qed.
