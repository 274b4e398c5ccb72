(** C120, C121: plots of statistics. *)
From Coq Require Import String List ZArith Reals Sorted Permutation Bool Lia.
From Verif Require Import QcBase PyBase DictBase OtfsModel OtfsSpec OtfsProof DddaModel DddaSpec AutocorrModel AutocorrSpec MsdModel NmModel AxsModel AxsSpec AxsProof.
Import ListNotations.
Open Scope string_scope.
Open Scope list_scope.
Open Scope Qc_scope.

(** C120. If no error is to be shown, the means of all samples are drawn in the order of the keys, whatever the treatment of single data. *)
Theorem collection_plot_means : forall c D treatment n, collects c D -> no_empty D -> In treatment ["raise"; "discard"; "warn"; "warnAndDiscard"] ->
  getMPLAxes c (ShowBool false) (ShowBool false) treatment n = Ok (mk_picture (map (fun p => (fst p, mean (snd p))) D) None [] None).
Proof.
  intros c D t n C NE I0.
  assert (IT : is_in t ["raise"; "discard"; "warn"; "warnAndDiscard"] = true).
  { apply existsb_exists. exists t. split; [exact I0|apply String.eqb_refl]. }
  rewrite (axes_ok c D (ShowBool false) (ShowBool false) t n C NE I I ltac:(intros [E _]; discriminate) IT). cbn [shown orb andb negb]. rewrite filter_true. reflexivity.
Qed.
Print Assumptions collection_plot_means.

(** Otherwise single data are an error, drawn without error, or left out. *)
Theorem collection_plot_errors : forall c D showSE showSD n, collects c D -> no_empty D -> valid_show showSE -> valid_show showSD ->
  ~ (showSE = ShowBool true /\ showSD = ShowBool true) -> wants showSE \/ wants showSD ->
  let singles := map fst (filter single D) in
  let others := filter (fun p => negb (single p)) D in
  let warning := if existsb single D then Some singles else None in
  getMPLAxes c showSE showSD "raise" n = (if existsb single D then Err RuntimeError else Ok (picture_of showSE showSD D None)) /\
  getMPLAxes c showSE showSD "warn" n = Ok (picture_of showSE showSD D warning) /\
  getMPLAxes c showSE showSD "discard" n = Ok (picture_of showSE showSD others None) /\
  getMPLAxes c showSE showSD "warnAndDiscard" n = Ok (picture_of showSE showSD others warning).
Proof.
  intros c D a b n C NE V1 V2 NB W. cbv zeta.
  assert (ANY : shown a || shown b = true).
  { apply orb_true_iff. destruct W as [W|W]; [left; apply shown_wants|right; apply shown_wants]; assumption. }
  pose proof (fun t => axes_ok c D a b t n C NE V1 V2 NB) as E. cbv zeta in E. rewrite ANY in E.
  repeat split.
  - rewrite (E "raise" eq_refl). cbn [andb String.eqb Ascii.eqb Bool.eqb is_in existsb orb negb]. rewrite filter_true. reflexivity.
  - rewrite (E "warn" eq_refl). cbn [andb String.eqb Ascii.eqb Bool.eqb is_in existsb orb negb]. rewrite filter_true. reflexivity.
  - rewrite (E "discard" eq_refl). reflexivity.
  - rewrite (E "warnAndDiscard" eq_refl). reflexivity.
Qed.
Print Assumptions collection_plot_errors.

(** Single data are those of which there is only one, and only those have no error. *)
Theorem collection_plot_single : forall k l, (single (k, l) = true <-> exists x, l = [x]) /\
  (forall f x, or_zero f [x] = 0%R) /\ ((2 <= length l)%nat -> or_zero sd l = sqrt (toR (variance l)) /\ or_zero sem l = (sqrt (toR (variance l)) / sqrt (INR (length l)))%R).
Proof.
  intros k l. repeat split.
  - unfold single. cbn [snd]. destruct l as [|x [|y l]]; try discriminate. intros _. exists x. reflexivity.
  - intros (x & ->). reflexivity.
  - destruct l as [|x [|y l]]; cbn [length] in *; try lia. reflexivity.
  - destruct l as [|x [|y l]]; cbn [length] in *; try lia. reflexivity.
Qed.
Print Assumptions collection_plot_single.

(** A sample without data is not drawn. *)
Theorem collection_plot_empty : forall c k s showSE showSD treatment n, In (k, s) c -> getSampleSize s = 0%nat ->
  exists e, getMPLAxes c showSE showSD treatment n = Err e.
Proof.
  intros c k s a b t n I0 Z0. unfold getMPLAxes.
  destruct (check_show a); [|eexists; reflexivity]. destruct (check_show b); [|eexists; reflexivity]. cbn [bind].
  destruct (is_true a && is_true b); [eexists; reflexivity|]. destruct (negb _); [eexists; reflexivity|]. cbv zeta.
  assert (I1 : In (k, s) (Data2DModel.getOrderedData c)) by (apply Data2DProof.isort_in; exact I0).
  set (data := Data2DModel.getOrderedData c) in *. set (disc := _ && is_in t ["discard"; "warnAndDiscard"]).
  assert (E : exists e, means_loop disc data = Err e).
  { clearbody disc. clear -I1 Z0. induction data as [|(k', v) data IH]; [destruct I1|]. cbn [means_loop].
    destruct (Nat.eqb_spec (getSampleSize v) 0) as [E|E]; [eexists; reflexivity|].
    destruct I1 as [E1|I1]; [injection E1 as -> ->; congruence|]. destruct (IH I1) as (e & E2).
    destruct (Nat.eqb _ 1 && disc); [rewrite E2; eexists; reflexivity|]. destruct (getSampleMean v); cbn [bind]; [rewrite E2|]; eexists; reflexivity. }
  destruct E as (e & ->). eexists. reflexivity.
Qed.
Print Assumptions collection_plot_empty.

(** Arguments that are rejected. *)
Theorem collection_plot_arguments : forall c showSE showSD treatment n,
  (showSE = ShowOther -> getMPLAxes c showSE showSD treatment n = Err TypeError) /\
  (valid_show showSE -> showSD = ShowOther -> getMPLAxes c showSE showSD treatment n = Err TypeError) /\
  (forall x, (x <= 0 \/ 1 < x) -> showSE = ShowFloat x \/ (valid_show showSE /\ showSD = ShowFloat x) -> getMPLAxes c showSE showSD treatment n = Err ValueError) /\
  (showSE = ShowBool true -> showSD = ShowBool true -> getMPLAxes c showSE showSD treatment n = Err ValueError) /\
  (valid_show showSE -> valid_show showSD -> ~ In treatment ["raise"; "discard"; "warn"; "warnAndDiscard"] -> getMPLAxes c showSE showSD treatment n = Err ValueError).
Proof.
  intros c a b t n. repeat split.
  - intros ->. reflexivity.
  - intros V ->. unfold getMPLAxes. rewrite (check_show_ok _ V). reflexivity.
  - intros x X H.
    assert (CX : check_show (ShowFloat x) = Err ValueError).
    { cbn. destruct (qleb x 0) eqn:E; [reflexivity|]. destruct X as [X|X]; [apply qleb_spec in X; congruence|]. apply qltb_spec in X. rewrite X. reflexivity. }
    unfold getMPLAxes. destruct H as [-> |[V ->]]; [rewrite CX; reflexivity|]. rewrite (check_show_ok _ V), CX. reflexivity.
  - intros -> ->. reflexivity.
  - intros V1 V2 NI. unfold getMPLAxes. rewrite (check_show_ok _ V1), (check_show_ok _ V2). cbn [bind]. destruct (is_true a && is_true b); [reflexivity|].
    assert (is_in t ["raise"; "discard"; "warn"; "warnAndDiscard"] = false) as ->; [|reflexivity].
    destruct (is_in t _) eqn:E; [|reflexivity]. exfalso. apply NI. apply existsb_exists in E. destruct E as (y & I0 & E). apply String.eqb_eq in E. subst y. exact I0.
Qed.
Print Assumptions collection_plot_arguments.

(** The documentation says that two floating-point numbers are rejected; both regions are drawn instead. *)
Theorem collection_plot_two_regions_refuted : forall c D x y n, collects c D -> no_empty D -> 0 < x -> x <= 1 -> 0 < y -> y <= 1 -> existsb single D = false ->
  exists p, getMPLAxes c (ShowFloat x) (ShowFloat y) "raise" n = Ok p /\ map snd (pi_bands p) = [x; y].
Proof.
  intros c D x y n C NE X1 X2 Y1 Y2 S0.
  destruct (collection_plot_errors c D (ShowFloat x) (ShowFloat y) n C NE (conj X1 X2) (conj Y1 Y2)) as [E _].
  - intros [E _]. discriminate.
  - left. discriminate.
  - rewrite E, S0. eexists. split; reflexivity.
Qed.
Print Assumptions collection_plot_two_regions_refuted.

(** The argument [plotEveryNth] has no effect. *)
Theorem collection_plot_every_nth_refuted : forall c showSE showSD treatment n m,
  getMPLAxes c showSE showSD treatment n = getMPLAxes c showSE showSD treatment m.
Proof. reflexivity. Qed.
Print Assumptions collection_plot_every_nth_refuted.

Definition ex_stat (l : list Z) : otfs := add_all otfs_new (map qz l).
Definition ex_coll : list (Qc * otfs) := [(qz 5, ex_stat [7]%Z); (qz 2, ex_stat [1; 3]%Z)].
Definition ex_data : list (Qc * list Qc) := [(qz 2, map qz [1; 3]%Z); (qz 5, map qz [7]%Z)].
Example ex_collects : collects ex_coll ex_data /\ no_empty ex_data /\ existsb single ex_data = true.
Proof.
  split; [split|split].
  - repeat constructor.
  - exists [(qz 2, ex_stat [1; 3]%Z); (qz 5, ex_stat [7]%Z)]. split; [apply perm_swap|].
    constructor; [|constructor; [|constructor]]; (split; [reflexivity|]); cbn [fst snd]; apply rep_answers; unfold ex_stat, add_all; cbn [map fold_left].
    + apply (rep_add (l := [qz 1])). apply (rep_add (l := [])). apply rep_new.
    + apply (rep_add (l := [])). apply rep_new.
  - intros k [E|[E|[]]]; discriminate.
  - reflexivity.
Qed.
Example ex_axes : getMPLAxes ex_coll (ShowBool true) (ShowFloat (qz 1)) "raise" 1 = Err RuntimeError /\
  match getMPLAxes ex_coll (ShowBool false) (ShowBool false) "raise" 1 with
  | Ok p => forallb (fun q => qeqb (fst (fst q)) (fst (snd q)) && qeqb (snd (fst q)) (snd (snd q))) (combine (pi_line p) [(qz 2, qz 2); (qz 5, qz 7)]) = true
  | Err _ => False
  end.
Proof.
  split.
  - destruct ex_collects as (C & NE & S0).
    destruct (collection_plot_errors _ _ (ShowBool true) (ShowFloat (qz 1)) 1%Z C NE I ltac:(split; [reflexivity|discriminate])) as [E _];
      [intros [_ E]; discriminate|left; discriminate|]. rewrite E, S0. reflexivity.
  - vm_compute. reflexivity.
Qed.

(** C121. The plot of an accumulator shows, for each block that has a variance, the standard error of the mean that its data suggest. *)
Theorem accumulator_plot : forall D show,
  ddda_getMPLAxes (accumulated D) show = Ok (mk_curve
    (map (fun i => (i, block_se D i)) (seq 0 (Nat.log2 (length D))))
    (if show then Some (map (fun i => block_se D i / sqrt (2 * INR (length (block_data D i))))%R (seq 0 (Nat.log2 (length D)))) else None)) /\
  forall i, (i < Nat.log2 (length D) <-> 2 <= length (block_data D i))%nat.
Proof.
  intros D show. split.
  - destruct (Nat.lt_ge_cases (length D) 2) as [L|L]; [|apply ddda_axes_ok, L].
    rewrite ddda_axes_small by exact L. replace (Nat.log2 (length D)) with 0%nat by (destruct D as [|x [|y D]]; cbn in *; try lia; reflexivity). reflexivity.
  - intros i. rewrite DddaProof.block_data_length. split; intros H.
    + assert (0 < length D)%nat by (destruct D; cbn in *; lia). destruct (Nat.log2_spec (length D)) as [A _]; [assumption|].
      apply Nat.div_le_lower_bound; [apply Nat.pow_nonzero; lia|]. rewrite Nat.mul_comm. change (2 * 2 ^ i)%nat with (2 ^ S i)%nat.
      etransitivity; [|exact A]. apply Nat.pow_le_mono_r; lia.
    + assert (P : (2 ^ S i <= length D)%nat).
      { cbn [Nat.pow]. pose proof (Nat.mul_div_le (length D) (2 ^ i) ltac:(apply Nat.pow_nonzero; lia)). nia. }
      apply (Nat.log2_le_pow2 (length D) (S i)) in P; [lia|]. pose proof (Nat.pow_nonzero 2 (S i) ltac:(lia)). lia.
Qed.
Print Assumptions accumulator_plot.

(** The plot of an autocorrelation shows the means of the products for all correlation times for which there are some; with errors only if there are at least two
    products for each, or no data at all. *)
Theorem autocorrelation_plot : forall (A : Type) (mul : A -> A -> Qc) m s (l : list A) show, ac_new A m = Ok s ->
  (show = true -> l = [] \/ (Z.to_nat m + 2 <= length l)%nat) ->
  exists c, ac_getMPLAxes (fold_left (ac_add mul) l s) show = Ok c /\
    draws c show (map (fun N => (Z.of_nat N, lagged mul N l)) (seq 0 (Nat.min (Z.to_nat m + 1) (length l)))).
Proof. exact @ac_axes_ok. Qed.
Print Assumptions autocorrelation_plot.

(** With errors, which are shown unless told otherwise, nothing is drawn as long as there are not more data than correlation times. *)
Theorem autocorrelation_plot_refuted : forall (A : Type) (mul : A -> A -> Qc) m s (l : list A), ac_new A m = Ok s -> l <> [] -> (length l < Z.to_nat m + 2)%nat ->
  ac_getMPLAxes (fold_left (ac_add mul) l s) true = Err RuntimeError.
Proof. exact @ac_axes_short. Qed.
Print Assumptions autocorrelation_plot_refuted.

(** The plot of mean square displacements shows all times; [Ds] are the data by time. *)
Theorem displacement_plot : forall Ds show lines,
  ((forall D, In D Ds -> (needed show <= length D)%nat) ->
   exists c, msd_getMPLAxes (length Ds) (map accumulated Ds) show lines = Ok (c, map (fun l => [fst l; snd l]) lines) /\
     draws c show (map (fun t => (Z.of_nat t, nth (t - 1) Ds [])) (seq 1 (length Ds)))) /\
  (forall D, In D Ds -> (length D < needed show)%nat ->
   exists e, msd_getMPLAxes (length Ds) (map accumulated Ds) show lines = Err e /\ (e = PyException \/ e = RuntimeError) /\ (~ In [] Ds -> e = RuntimeError)).
Proof. exact (fun Ds show lines => conj (msd_axes_ok Ds show lines) (msd_axes_short Ds show lines)). Qed.
Print Assumptions displacement_plot.

(** The plot of the autocorrelation of a normal mode. *)
Theorem normal_mode_plot : forall count s n mode l show, normalModeCount s = Some n -> (mode < n)%nat -> nth_error (measurements s) mode = Some l ->
  ((forall t, (t < count)%nat -> (needed show <= length (column t l))%nat) ->
   exists c, nma_getMPLAxes count s (Z.of_nat mode) show = Ok c /\ draws c show (map (fun t => (Z.of_nat t, column t l)) (seq 0 count))) /\
  (forall t, (t < count)%nat -> (length (column t l) < needed show)%nat ->
   exists e, nma_getMPLAxes count s (Z.of_nat mode) show = Err e /\ (e = PyException \/ e = RuntimeError)).
Proof.
  intros count s n mode l show N M L. split; [exact (nma_axes_ok count s n mode l show N M L)|].
  intros t T H. exact (nma_axes_short count s n mode l show t N M L T H).
Qed.
Print Assumptions normal_mode_plot.

(** Modes that do not exist are rejected. *)
Theorem normal_mode_plot_range : forall count s n mode show, normalModeCount s = Some n -> (mode < 0 \/ Z.of_nat n <= mode)%Z ->
  nma_getMPLAxes count s mode show = Err ValueError.
Proof.
  intros count s n mode show N H. unfold nma_getMPLAxes. rewrite N.
  destruct (Z.ltb_spec mode 0); [reflexivity|]. destruct (Z.leb_spec (Z.of_nat n) mode); [reflexivity|lia].
Qed.
Print Assumptions normal_mode_plot_range.

(** The error that is drawn is unique. *)
Theorem plot_error_unique : forall D e e', best_error D e -> best_error D e' -> e = e'.
Proof.
  intros D e e' (b & B & ->) (b' & B' & ->). f_equal. unfold best_block in *. destruct (qeqb (block_se2 D 0) 0); [congruence|].
  destruct B as [(L & C & M)|(L & M)], B' as [(L' & C' & M')|(L' & M')].
  - destruct (Nat.lt_trichotomy b b') as [H|[H|H]]; [|exact H|]; exfalso; [apply (M' b H C)|apply (M b' H C')].
  - exfalso. apply (M' b L C).
  - exfalso. apply (M b' L' C').
  - congruence.
Qed.
Print Assumptions plot_error_unique.

Example ex_displacements :
  match msd_getMPLAxes 2 (map accumulated [map qz [1; 3]%Z; map qz [4]%Z]) false [((qz 0, qz 1), (qz 2, qz 3))] with
  | Ok (c, ls) => forallb (fun q => Z.eqb (fst (fst q)) (fst (snd q)) && qeqb (snd (fst q)) (snd (snd q))) (combine (cu_points c) [(1%Z, qz 2); (2%Z, qz 4)]) = true /\ length ls = 1%nat
  | Err _ => False
  end /\ msd_getMPLAxes 2 (map accumulated [map qz [1; 3]%Z; map qz [4]%Z]) true [] = Err RuntimeError.
Proof.
  split; [vm_compute; split; reflexivity|].
  destruct (proj2 (displacement_plot [map qz [1; 3]%Z; map qz [4]%Z] true []) (map qz [4]%Z) ltac:(right; left; reflexivity) ltac:(cbn; lia)) as (e & E & _ & R0).
  change 2%nat with (length [map qz [1; 3]%Z; map qz [4]%Z]). rewrite E, R0; [reflexivity|]. intros [H|[H|[]]]; discriminate.
Qed.
Example ex_autocorrelation : exists s, ac_new Qc 1 = Ok s /\
  ac_getMPLAxes (fold_left (ac_add Qcmult) (map qz [1; 2]%Z) s) true = Err RuntimeError /\
  exists c, ac_getMPLAxes (fold_left (ac_add Qcmult) (map qz [1; 2; 3]%Z) s) true = Ok c /\ length (cu_points c) = 2%nat.
Proof.
  eexists. split; [reflexivity|]. split.
  - apply (autocorrelation_plot_refuted Qc Qcmult 1); [reflexivity|discriminate|cbn; lia].
  - destruct (autocorrelation_plot Qc Qcmult 1 _ (map qz [1; 2; 3]%Z) true eq_refl) as (c & E & P & _); [intros _; right; cbn; lia|].
    exists c. split; [exact E|]. rewrite P. reflexivity.
Qed.
Example ex_normal_mode : exists c, nma_getMPLAxes 1 (Analysis [[[qz 1]; [qz 3; qz 4]]] (Some 1%nat)) 0 true = Ok c /\ length (cu_points c) = 1%nat.
Proof.
  destruct (proj1 (normal_mode_plot 1 (Analysis [[[qz 1]; [qz 3; qz 4]]] (Some 1%nat)) 1 0 [[qz 1]; [qz 3; qz 4]] true eq_refl ltac:(lia) eq_refl)) as (c & E & P & _).
  - intros [|t] H; [cbn; lia|lia].
  - exists c. split; [exact E|]. rewrite P. reflexivity.
Qed.
