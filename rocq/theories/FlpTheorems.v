(** C118 and C119: plots of flow profiles. *)
From Coq Require Import List ZArith Reals Qreals Lia Lra.
From Verif Require Import QcBase PyBase DictBase OtfsModel OtfsSpec OtfsProof FlowModel FlowSpec FlowProof FlpModel FlpSpec FlpProof.
Import ListNotations.
Open Scope Qc_scope.

(** * C118: the profile and its theory *)

(** The predicted flow is the shear flow at each slice of the box, from the bottom to the top. *)
Theorem shear_profile s own rate shearRate shift : f_sub (p_config s) <> 0%nat ->
  (shearRate = Some (PyFloat rate) \/ shearRate = None /\ own = PyFloat rate) ->
  getAnalyticShearFlowProfileAsFunctionOfY s own shearRate shift =
  Ok (map (fun i => (slice_at (f_sub (p_config s)) shift (Z.of_nat i),
                     shear_flow (qn (f_sizeY (p_config s))) rate (slice_at (f_sub (p_config s)) shift (Z.of_nat i))))
          (seq 0 (f_sizeY (p_config s) * f_sub (p_config s)))).
Proof.
  intros Hs H. unfold getAnalyticShearFlowProfileAsFunctionOfY.
  assert (E : match shearRate with None => own | Some r => r end = PyFloat rate) by (destruct H as [->|[-> ->]]; reflexivity).
  rewrite E. f_equal. apply shear_points_seq; [exact Hs|]. intros x [].
Qed.
Print Assumptions shear_profile.
(** With centred slices it is antisymmetric about the middle of the box. *)
Theorem shear_profile_antisymmetric sub L rate i : (i < L * sub)%nat ->
  shear_flow (qn L) rate (slice_at sub true (Z.of_nat i)) + shear_flow (qn L) rate (slice_at sub true (Z.of_nat (L * sub - 1 - i))) = 0.
Proof. exact (shear_antisymmetric sub L rate i). Qed.
Print Assumptions shear_profile_antisymmetric.
(** A shear rate that is written as an integer is refused. *)
Theorem shear_profile_integer s own z shift :
  getAnalyticShearFlowProfileAsFunctionOfY s own (Some (PyInt z)) shift = Err PyException /\
  getAnalyticShearFlowProfileAsFunctionOfY s (PyInt z) None shift = Err PyException.
Proof. split; reflexivity. Qed.
Print Assumptions shear_profile_integer.

(** The predicted and the measured profile have the same coordinates. *)
Theorem shear_profile_coordinates dat d0 ds s0 s own rate shift ret th : fp_new d0 = Ok s0 -> add_runs s0 ds = Ok s ->
  f_sub (rd_config d0) <> 0%nat ->
  (forall d, In d (d0 :: ds) -> no_blank d) ->
  (forall r, In r (flat_map rows_of (d0 :: ds)) -> row_describes r (dat r)) ->
  getFlowProfileAsFunctionOfY s shift = Ok ret ->
  getAnalyticShearFlowProfileAsFunctionOfY s own (Some (PyFloat rate)) shift = Ok th ->
  forall y, (0 <= y < Z.of_nat (f_sizeY (rd_config d0) * f_sub (rd_config d0)))%Z ->
    dget qeqb th (slice_at (f_sub (rd_config d0)) shift y) <> None /\
    (dget qeqb ret (slice_at (f_sub (rd_config d0)) shift y) <> None <-> exists r, In r (flat_map rows_of (d0 :: ds)) /\ r_y r = y).
Proof.
  intros H0 HA Hs NB RD HR HT y Hy. pose proof (runs_config d0 s0 H0 ds s HA) as HC.
  destruct (@flow_pooled dat d0 ds s0 s shift H0 HA Hs NB RD) as (ret' & E & P). rewrite HR in E. injection E as <-.
  specialize (P y). rewrite (coord_slice _ shift y Hs) in P. split.
  - rewrite (shear_profile s own rate _ shift) in HT by (rewrite ?HC; auto). injection HT as <-. rewrite HC.
    intros N. apply (dget_none qeqb qeqb_spec) in N. apply N. unfold dkeys. rewrite map_map. cbn [fst].
    apply in_map_iff. exists (Z.to_nat y). rewrite Z2Nat.id by lia. split; [reflexivity|]. apply in_seq. lia.
  - destruct (dget qeqb ret _) as [t|]; [split; [intros _; apply P|discriminate]|]. split; [congruence|]. intros X. contradiction.
Qed.
Print Assumptions shear_profile_coordinates.

(** The plot shows the mean velocities along [x] of the profile, and the prediction if it is wanted. *)
Theorem flow_plotted s own rate shift data samples theory : getFlowProfileAsFunctionOfY s shift = Ok data -> holds data samples ->
  (forall y l, In (y, l) samples -> l <> []) -> own = PyFloat rate ->
  exists th, getAnalyticShearFlowProfileAsFunctionOfY s own None shift = Ok th /\
    getMPLAxesForFlowAlongXAsFunctionOfY s own 0 theory shift =
    Ok (mk_drawing (map (fun p => (fst p, mean (snd p))) samples :: (if theory then [th] else [])) None).
Proof.
  intros HD HH N ->. unfold getMPLAxesForFlowAlongXAsFunctionOfY. rewrite HD. cbn [bind].
  rewrite (values_ok data samples HH N). cbn [bind]. unfold getAnalyticShearFlowProfileAsFunctionOfY.
  eexists. split; [reflexivity|]. cbn [bind]. rewrite (proj2 (qeqb_spec 0 0) eq_refl). destruct theory; reflexivity.
Qed.
Print Assumptions flow_plotted.

(** If all slices have equally many data, the shaded region has [k] standard errors of the mean to both sides. *)
Theorem flow_band s own k shift data samples n : getFlowProfileAsFunctionOfY s shift = Ok data -> holds data samples ->
  samples <> [] -> (2 <= n)%nat -> (forall y l, In (y, l) samples -> length l = n) -> 0 < k ->
  getMPLAxesForFlowAlongXAsFunctionOfY s own k false shift =
  Ok (mk_drawing [map (fun p => (fst p, mean (snd p))) samples] (Some (map (fun p => (fst p, error_band k (snd p))) samples))).
Proof.
  intros HD HH NE Hn N Hk. unfold getMPLAxesForFlowAlongXAsFunctionOfY. rewrite HD. cbn [bind].
  assert (N1 : forall y l, In (y, l) samples -> l <> []) by (intros y l I ->; apply N in I; cbn in I; lia).
  rewrite (values_ok data samples HH N1). cbn [bind].
  destruct (qeqb k 0) eqn:Q; [apply qeqb_spec in Q; subst k; exfalso; exact (Qclt_not_eq 0 0 Hk eq_refl)|].
  destruct (qltb k 0) eqn:Q2; [apply qltb_spec in Q2; exfalso; exact (Qclt_not_le _ _ Hk (Qclt_le_weak _ _ Q2))|].
  pose proof (holds_rev _ _ HH) as HR.
  destruct (rev data) as [|[y v] rd] eqn:RD.
  { inversion HR as [E|]. exfalso. apply NE. rewrite <- (rev_involutive samples), <- H. reflexivity. }
  inversion HR as [|a [y' l] b rs [EY AN] HR' E1 E2]; subst. cbn [fst snd] in *.
  assert (I : In (y', l) samples) by (apply in_rev; rewrite <- E2; now left).
  destruct AN as (SZ & _). rewrite SZ, (N _ _ I).
  rewrite (errors_ok _ data samples HH) by (intros y2 l2 I2; rewrite (N _ _ I2); exact Hn). cbn [bind].
  do 2 f_equal. f_equal.
  rewrite (bounds_map k samples (fun l => sqrt (real (variance l)) / sqrt (INR n))%R).
  apply map_ext_in. intros [y2 l2] I2. cbn [fst snd]. unfold error_band. rewrite (N _ _ I2).
  rewrite sqrt_div_pos; [reflexivity| |lia]. apply real_nonneg, variance_pos. rewrite (N _ _ I2). exact Hn.
Qed.
Print Assumptions flow_band.
Theorem flow_band_negative s own k theory shift data samples rate : getFlowProfileAsFunctionOfY s shift = Ok data -> holds data samples ->
  (forall y l, In (y, l) samples -> l <> []) -> own = PyFloat rate -> k < 0 ->
  getMPLAxesForFlowAlongXAsFunctionOfY s own k theory shift = Err PyException.
Proof.
  intros HD HH N -> Hk. unfold getMPLAxesForFlowAlongXAsFunctionOfY. rewrite HD. cbn [bind].
  rewrite (values_ok data samples HH N). cbn [bind]. unfold getAnalyticShearFlowProfileAsFunctionOfY. cbn [bind].
  rewrite (proj2 (qltb_spec k 0) Hk). destruct (qeqb k 0) eqn:Q; [apply qeqb_spec in Q; subst k; exfalso; exact (Qclt_not_eq 0 0 Hk eq_refl)|].
  destruct theory; reflexivity.
Qed.
Print Assumptions flow_band_negative.

(** Two slices with two and with eight data. *)
Definition two_data : list Qc := [qz 1; qz 3].
Definition eight_data : list Qc := [qz 1; qz (-1); qz 1; qz (-1); qz 1; qz (-1); qz 2; qz (-2)].
Definition two_stat : otfs := add_all otfs_new two_data.
Definition eight_stat : otfs := add_all otfs_new eight_data.
Definition ex_slices : profile :=
  mk_profile (mk_fconfig 1 0 2)
    [(0%Z, [(0%Z, [(0%Z, (two_stat, two_stat, two_stat))]); (1%Z, [(0%Z, (eight_stat, eight_stat, eight_stat))])])] [].
Definition ex_samples : list (Qc * list Qc) := [(slice_at 1 true 0, two_data); (slice_at 1 true 1, eight_data)].
Lemma ex_slices_data : exists data, getFlowProfileAsFunctionOfY ex_slices true = Ok data /\ holds data ex_samples.
Proof.
  assert (K : qeqb (yCoord 1 true 1) (yCoord 1 true 0) = false) by (vm_compute; reflexivity).
  pose proof (rep_answers (rep_add_all two_data rep_new)) as A2. pose proof (rep_answers (rep_add_all eight_data rep_new)) as A8. cbn [app] in A2, A8.
  exists [(yCoord 1 true 0, (two_stat, two_stat, two_stat)); (yCoord 1 true 1, (eight_stat, eight_stat, eight_stat))]. split.
  - unfold getFlowProfileAsFunctionOfY, ex_slices, prof_x, prof_y, prof_z. cbn [p_points p_config f_sub fold_res snd fst dget].
    fold two_stat eight_stat.
    cbn [dset dget odflt bind fold_res fst snd]. rewrite !qeqb_refl. cbn [dset dget odflt bind fold_res fst snd].
    unfold otfs3_new, merge3.
    assert (M : forall t, mergeSample otfs_new t = Ok t) by (intros [? ? ?]; reflexivity).
    rewrite !M. cbn [dset dget odflt bind fold_res fst snd]. rewrite ?qeqb_refl. cbn [dset dget odflt bind fold_res fst snd].
    rewrite !K. cbn [dset dget odflt bind fold_res fst snd]. rewrite ?K, ?qeqb_refl. cbn [dset dget odflt bind fold_res fst snd].
    rewrite !M. cbn [bind]. rewrite ?K, ?qeqb_refl. reflexivity.
  - constructor; [|constructor; [|constructor]]; (split; [apply coord_slice; discriminate|assumption]).
Qed.
Example shear_profile_example : getAnalyticShearFlowProfileAsFunctionOfY ex_slices (PyFloat (qz 4)) None true =
  Ok [(slice_at 1 true 0, shear_flow (qn 2) (qz 4) (slice_at 1 true 0)); (slice_at 1 true 1, shear_flow (qn 2) (qz 4) (slice_at 1 true 1))] /\
  qeqb (shear_flow (qn 2) (qz 4) (slice_at 1 true 0)) (qz (-2)) = true /\ qeqb (shear_flow (qn 2) (qz 4) (slice_at 1 true 1)) (qz 2) = true.
Proof.
  split; [|split; vm_compute; reflexivity].
  rewrite (shear_profile ex_slices _ (qz 4) None true); [reflexivity|discriminate|right; split; reflexivity].
Qed.
Definition equal_slices : profile :=
  mk_profile (mk_fconfig 1 0 1) [(0%Z, [(0%Z, [(0%Z, (two_stat, two_stat, two_stat))])])] [].
Example flow_band_example : getMPLAxesForFlowAlongXAsFunctionOfY equal_slices (PyFloat 0) (qz 1) false true =
  Ok (mk_drawing [[(slice_at 1 true 0, mean two_data)]] (Some [(slice_at 1 true 0, error_band (qz 1) two_data)])).
Proof.
  refine (flow_band equal_slices (PyFloat 0) (qz 1) true [(yCoord 1 true 0, (two_stat, two_stat, two_stat))] [(slice_at 1 true 0, two_data)] 2 _ _ _ _ _ _).
  - unfold getFlowProfileAsFunctionOfY, equal_slices, prof_x, prof_y, prof_z. cbn [p_points p_config f_sub fold_res snd fst dget].
    fold two_stat. cbn [dset dget odflt bind fold_res fst snd]. rewrite !qeqb_refl. cbn [dset dget odflt bind fold_res fst snd].
    unfold otfs3_new, merge3.
    assert (M : forall t, mergeSample otfs_new t = Ok t) by (intros [? ? ?]; reflexivity).
    rewrite !M. cbn [dset dget odflt bind fold_res fst snd]. rewrite ?qeqb_refl. reflexivity.
  - constructor; [|constructor]. split; [apply coord_slice; discriminate|]. exact (rep_answers (rep_add_all two_data rep_new)).
  - discriminate.
  - auto.
  - intros y l [E|[]]. injection E as <- <-. reflexivity.
  - apply qltb_spec. vm_compute. reflexivity.
Qed.

(** With different numbers of data, the region is drawn with the number of data of the last slice for all slices. *)
Theorem flow_band_refuted :
  ~ (forall s own k shift data samples d, getFlowProfileAsFunctionOfY s shift = Ok data -> holds data samples ->
       (forall y l, In (y, l) samples -> (2 <= length l)%nat) -> 0 < k ->
       getMPLAxesForFlowAlongXAsFunctionOfY s own k false shift = Ok d ->
       dr_band d = Some (map (fun p => (fst p, error_band k (snd p))) samples)).
Proof.
  intros A. destruct ex_slices_data as (data & HD & HH).
  assert (N : forall y l, In (y, l) ex_samples -> (2 <= length l)%nat).
  { intros y l [E|[E|[]]]; injection E as <- <-; cbn; lia. }
  assert (N1 : forall y l, In (y, l) ex_samples -> l <> []).
  { intros y l I ->. apply N in I. cbn in I. lia. }
  assert (K : 0 < qz 1) by (apply qltb_spec; vm_compute; reflexivity).
  pose proof (A ex_slices (PyFloat 0) (qz 1) true data ex_samples) as A1.
  unfold getMPLAxesForFlowAlongXAsFunctionOfY in A1. rewrite HD in A1. cbn [bind] in A1.
  rewrite (values_ok data ex_samples HH N1) in A1. cbn [bind] in A1.
  replace (qeqb (qz 1) 0) with false in A1 by (vm_compute; reflexivity).
  replace (qltb (qz 1) 0) with false in A1 by (vm_compute; reflexivity).
  pose proof (holds_rev _ _ HH) as HR. destruct (rev data) as [|[y v] rd]; [inversion HR|].
  inversion HR as [|a b c e [EY AN] HR']. cbn [fst snd] in *. destruct AN as (SZ & _).
  rewrite SZ in A1. rewrite (errors_ok _ data ex_samples HH N) in A1. cbn [bind] in A1.
  specialize (A1 _ eq_refl HH N K eq_refl). cbn [dr_band] in A1.
  rewrite (bounds_map (qz 1) ex_samples (fun l => sqrt (real (variance l)) / sqrt (INR (length eight_data)))%R) in A1.
  cbn [ex_samples map fst snd] in A1.
  pose proof (f_equal (fun o : option (list (Qc * (R * R))) => match o with Some ((_, (lo, _)) :: _) => lo | _ => 0%R end) A1) as E1. cbn iota beta in E1.
  assert (V : real (variance two_data) = 2%R).
  { replace (variance two_data) with (qz 2) by (symmetry; apply qeqb_spec; vm_compute; reflexivity). unfold real, Q2R. cbn. lra. }
  assert (K1 : real (qz 1) = 1%R) by (unfold real, Q2R; cbn; lra).
  unfold error_band in E1. cbn [fst] in E1. rewrite V, K1 in E1.
  replace (INR (length eight_data)) with (2 * 4)%R in E1 by (cbn; lra). replace (INR (length two_data)) with 2%R in E1 by (cbn; lra).
  replace (2 / 2)%R with 1%R in E1 by lra. rewrite sqrt_1 in E1. rewrite sqrt_mult in E1 by lra.
  replace 4%R with (2 * 2)%R in E1 by lra. rewrite (sqrt_square 2) in E1 by lra.
  assert (P : (0 < sqrt 2)%R) by (apply sqrt_lt_R0; lra).
  replace (sqrt 2 / (sqrt 2 * 2))%R with (/ 2)%R in E1 by (field; lra). lra.
Qed.
Print Assumptions flow_band_refuted.

(** * C119: arrows *)

(** For each [x] of the first and each key of the second block, there is an arrow with the mean flow of the cell in the
    chosen block and layer, in the middle of the cell. *)
Theorem arrows_shown s first second block id z : nth_error (p_blocks s) 0 = Some first -> nth_error (p_blocks s) 1 = Some second ->
  nth_error (p_blocks s) id = Some block ->
  (forall x y, In x (dkeys first) -> In y (dkeys second) -> exists v u, cell_at block x y z v /\ flows v u) ->
  exists q, showVectorField s id z = Ok q /\
    forall x y v u, In x (dkeys first) -> In y (dkeys second) -> cell_at block x y z v -> flows v u ->
      arrow_at q (qz x + 1 / qz 2) (qz y + 1 / qz 2) u.
Proof.
  intros H0 H1 HB HC. unfold showVectorField, element. rewrite H0, H1, HB. cbn [bind].
  destruct (collect_exists (fun y => collect (fun x => cell_means block x y z) (dkeys first)) (dkeys second)) as (rows & E).
  { intros y Iy. apply collect_exists. intros x Ix. destruct (HC x y Ix Iy) as (v & u & C & F). exists u. apply cell_means_iff. eauto. }
  rewrite E. cbn [bind]. eexists. split; [reflexivity|].
  intros x y v u Ix Iy C F. pose proof (collect_inv _ _ _ E) as EI.
  apply In_nth_error in Ix, Iy. destruct Ix as (i & Ii). destruct Iy as (j & Ij).
  destruct (forall2_nth _ _ _ _ _ EI Ij) as (row & NR & ER). pose proof (collect_inv _ _ _ ER) as RI.
  destruct (forall2_nth _ _ _ _ _ RI Ii) as (u' & NU & EU).
  assert (Q : u' = u).
  { assert (X : cell_means block x y z = Ok u) by (apply cell_means_iff; eauto). congruence. }
  subst u'. exists i, j, row. cbn [qv_x qv_y qv_arrows]. rewrite qz_two.
  repeat split.
  - exact (map_nth_error (fun x => qz x + 1 / (1 + 1)) i (dkeys first) Ii).
  - exact (map_nth_error (fun y => qz y + 1 / (1 + 1)) j (dkeys second) Ij).
  - destruct (dkeys first); [destruct i; discriminate|exact NR].
  - exact NU.
Qed.
Print Assumptions arrows_shown.
(** All arrows are of this kind. *)
Theorem arrows_only s id z q px py u : showVectorField s id z = Ok q -> arrow_at q px py u ->
  exists first second block x y v, nth_error (p_blocks s) 0 = Some first /\ nth_error (p_blocks s) 1 = Some second /\
    nth_error (p_blocks s) id = Some block /\ In x (dkeys first) /\ In y (dkeys second) /\
    px = qz x + 1 / qz 2 /\ py = qz y + 1 / qz 2 /\ cell_at block x y z v /\ flows v u.
Proof.
  unfold showVectorField, element. destruct (nth_error (p_blocks s) 0) as [first|]; [|discriminate]. cbn [bind].
  destruct (nth_error (p_blocks s) 1) as [second|]; [|discriminate]. cbn [bind].
  destruct (nth_error (p_blocks s) id) as [block|]; [|discriminate]. cbn [bind].
  destruct (collect _ (dkeys second)) as [rows|] eqn:E; [|discriminate]. cbn [bind]. intros H. injection H as <-.
  intros (i & j & row & NX & NY & NR & NU). cbn [qv_x qv_y qv_arrows] in *. rewrite nth_error_map in NX, NY.
  destruct (nth_error (dkeys first) i) as [x|] eqn:Ii; [|discriminate]. destruct (nth_error (dkeys second) j) as [y|] eqn:Ij; [|discriminate].
  cbn in NX, NY. injection NX as <-. injection NY as <-.
  assert (NR' : nth_error rows j = Some row) by (destruct (dkeys first); [destruct i; discriminate|exact NR]).
  pose proof (collect_inv _ _ _ E) as EI. destruct (forall2_nth _ _ _ _ _ EI Ij) as (row' & NR2 & ER). rewrite NR' in NR2. injection NR2 as <-.
  pose proof (collect_inv _ _ _ ER) as RI. destruct (forall2_nth _ _ _ _ _ RI Ii) as (u' & NU' & EU). rewrite NU in NU'. injection NU' as <-.
  apply cell_means_iff in EU. destruct EU as (v & C & F).
  exists first, second, block, x, y, v. rewrite qz_two. repeat split; eauto using nth_error_In.
Qed.
Print Assumptions arrows_only.
(** Without two blocks there is nothing to see. *)
Theorem arrows_two_blocks s id z : (length (p_blocks s) < 2)%nat -> showVectorField s id z = Err IndexError.
Proof.
  intros H. unfold showVectorField, element. destruct (p_blocks s) as [|a [|b l]]; cbn in H; try lia; reflexivity.
Qed.
Print Assumptions arrows_two_blocks.

(** Blocks with all cells of a layer of a box. *)
Definition ex_cell (n : Z) : otfs3 := let t := addDatum otfs_new (qz n) in (t, t, t).
Definition ex_block (nx ny : nat) : points otfs3 :=
  map (fun x => (Z.of_nat x, map (fun y => (Z.of_nat y, [(0%Z, ex_cell (Z.of_nat (10 * x + y)))])) (seq 0 ny))) (seq 0 nx).
Definition ex_field (nx ny : nat) : profile := mk_profile (mk_fconfig 1 0 ny) [] [ex_block nx ny; ex_block nx ny].
Example arrows_example :
  match showVectorField (ex_field 2 2) 1 0 with
  | Ok q => List.length (qv_arrows q) = 2%nat /\
      match nth_error (qv_arrows q) 0 with Some [_; (u, _, _)] => qeqb u (qz 10) = true | _ => False end /\
      match nth_error (qv_arrows q) 1 with Some [(u, _, _); _] => qeqb u (qz 1) = true | _ => False end
  | Err _ => False
  end.
Proof. vm_compute. auto. Qed.

(** The rows of arrows are taken from the [x] coordinates: if the box is larger along [y] than along [x], arrows are missing,
    and if it is smaller, nothing is shown. *)
Theorem arrows_all_refuted :
  ~ (forall s block id z q, nth_error (p_blocks s) id = Some block -> (forall b, In b (p_blocks s) -> b = block) ->
       showVectorField s id z = Ok q ->
       forall x y v u, cell_at block x y z v -> flows v u -> arrow_at q (qz x + 1 / qz 2) (qz y + 1 / qz 2) u).
Proof.
  intros A. destruct (showVectorField (ex_field 1 2) 0 0) as [q|] eqn:E; [|vm_compute in E; discriminate].
  specialize (A (ex_field 1 2) (ex_block 1 2) 0%nat 0%Z q eq_refl).
  assert (SB : forall b, In b (p_blocks (ex_field 1 2)) -> b = ex_block 1 2) by (intros b [<-|[<-|[]]]; reflexivity).
  specialize (A SB E 0%Z 1%Z (ex_cell 1) (o_M (addDatum otfs_new (qz 1)), o_M (addDatum otfs_new (qz 1)), o_M (addDatum otfs_new (qz 1)))).
  destruct (arrows_only _ _ _ _ _ _ _ E (A ltac:(eexists; eexists; repeat split; reflexivity) ltac:(cbn; auto)))
    as (f & g & b & x & y & v & F0 & F1 & _ & _ & Iy & _ & PY & _).
  cbn in F1. injection F1 as <-. cbn in Iy. destruct Iy as [<-|[]].
  assert (X : qz 1 = qz 0).
  { replace (qz 1) with (qz 1 + 1 / qz 2 - 1 / qz 2) by ring. rewrite PY. ring. }
  apply qz_inj in X. discriminate.
Qed.
Print Assumptions arrows_all_refuted.
Theorem arrows_wide_refuted :
  ~ (forall s block id z, nth_error (p_blocks s) id = Some block -> (forall b, In b (p_blocks s) -> b = block) ->
       (2 <= length (p_blocks s))%nat ->
       (forall x px y py, dget Z.eqb block x = Some px -> dget Z.eqb px y = Some py -> exists v u, cell_at block x y z v /\ flows v u) ->
       exists q, showVectorField s id z = Ok q).
Proof.
  intros A. destruct (A (ex_field 2 1) (ex_block 2 1) 0%nat 0%Z eq_refl) as (q & E).
  - intros b [<-|[<-|[]]]; reflexivity.
  - cbn. lia.
  - intros x px y py HX HY. cbn in HX.
    assert (C : (x = 0%Z /\ px = [(0%Z, [(0%Z, ex_cell 0)])]) \/ (x = 1%Z /\ px = [(0%Z, [(0%Z, ex_cell 10)])])).
    { destruct (Z.eqb x 0) eqn:X0; [apply Z.eqb_eq in X0; injection HX as <-; left; auto|].
      destruct (Z.eqb x 1) eqn:X1; [apply Z.eqb_eq in X1; injection HX as <-; right; auto|discriminate]. }
    destruct C as [[-> ->]|[-> ->]]; cbn in HY; (destruct (Z.eqb y 0) eqn:Y0; [|discriminate]); apply Z.eqb_eq in Y0; subst y.
    + exists (ex_cell 0), (o_M (addDatum otfs_new (qz 0)), o_M (addDatum otfs_new (qz 0)), o_M (addDatum otfs_new (qz 0))).
      split; [eexists; eexists; repeat split; reflexivity|cbn; auto].
    + exists (ex_cell 10), (o_M (addDatum otfs_new (qz 10)), o_M (addDatum otfs_new (qz 10)), o_M (addDatum otfs_new (qz 10))).
      split; [eexists; eexists; repeat split; reflexivity|cbn; auto].
  - vm_compute in E. discriminate.
Qed.
Print Assumptions arrows_wide_refuted.
