From Coq Require Import List ZArith Bool Reals Lra Lia String.
From Verif Require Import QcBase PyBase StrBase VecBase VecModel VecSpec PartSpec OtfsSpec DddaModel DddaSpec BondModel ChainModel BondSpec BondProof ChainProof.
Import ListNotations.
Open Scope R_scope.
Open Scope list_scope.

(** C85. Each measurement of a fluid of N trimers adds, for either bond, one value per trimer to each of the files below: the length,
    the squared length, the squares of the components, and the angle between the projection to the plane of x and y and the x axis
    (if there is such an angle); and for the first bond also the product of the x and y components. *)
Theorem trimer_histograms : forall x N k, (k < 2)%nat ->
  let f := trimers_fills x (3 * N) in
  let B := bond x 3 k in
  recorded (bond_dir k ++ "lengthHistogram.data") f = each N (fun i => sqrt (dot3 (B i) (B i)))
  /\ recorded (bond_dir k ++ "lengthSquaredHistogram.data") f = each N (fun i => dot3 (B i) (B i))
  /\ recorded (bond_dir k ++ "XXHistogram.data") f = each N (fun i => vx (B i) * vx (B i))
  /\ recorded (bond_dir k ++ "YYHistogram.data") f = each N (fun i => vy (B i) * vy (B i))
  /\ recorded (bond_dir k ++ "ZZHistogram.data") f = each N (fun i => vz (B i) * vz (B i))
  /\ (k = 0%nat -> recorded (bond_dir k ++ "XYHistogram.data") f = each N (fun i => vx (B i) * vy (B i)))
  /\ Forall2 (fun i a => onto_xy (B i) <> zero3 -> angle_to_x (onto_xy (B i)) a) (seq 0 N)
       (recorded (bond_dir k ++ "angleWithFlowDirectionHistogram.data") f).
Proof.
  intros x N k Hk f B. destruct (trimer_files x N k Hk) as (a & b & c & d & e & g & h). subst f B.
  repeat (split; [assumption|]). rewrite h. apply angles_ok.
Qed.
Print Assumptions trimer_histograms.
Definition example_positions (i : nat) : vec := Vec (INR i * INR i) (INR i) 0.
Example trimer_histograms_example :
  recorded (bond_dir 1 ++ "XXHistogram.data") (trimers_fills example_positions (3 * 2)) = [9; 81].
Proof. destruct (trimer_histograms example_positions 2 1) as (_ & _ & H & _); [lia|]. rewrite H. cbn. repeat f_equal; ring. Qed.

(** C85. For the second bond of trimers, the values recorded as the products of the x and y components of that bond are something else:
    the x component is that of the first bond. *)
Theorem trimer_xy2_refuted :
  ~ (forall x N, recorded (bond_dir 1 ++ "XYHistogram.data") (trimers_fills x (3 * N)) = each N (fun i => vx (bond x 3 1 i) * vy (bond x 3 1 i)))
  /\ (forall x N, recorded (bond_dir 1 ++ "XYHistogram.data") (trimers_fills x (3 * N)) = each N (fun i => vx (bond x 3 0 i) * vy (bond x 3 1 i))).
Proof.
  split; [|exact trimer_xy2]. intros H. specialize (H example_positions 1%nat). change (bond_dir 1 ++ "XYHistogram.data")%string with "harmonicTrimers/bond2/XYHistogram.data"%string in H.
  rewrite trimer_xy2 in H. cbn in H. injection H as H. lra.
Qed.
Print Assumptions trimer_xy2_refuted.

(** C85. The self-diffusion coefficient is measured over consecutive intervals: each begins at the measurement at which the one before ended (the first one at
    the first measurement), and ends at the first measurement at least the configured time later. The point recorded has the time at the beginning,
    and the mean square displacement of the trimers' centres divided by six times the duration. *)
Theorem trimer_self_diffusion : forall T N t x n, 0 < T -> (0 < N)%nat -> (0 < n)%nat -> (forall j, (j < n)%nat -> 0 <= t j) ->
  exists s, waits t n T 0 s
  /\ coefficients (measure_diffusion_all T N (map (fun j => (t j, x j)) (seq 0 n)))
     = map (fun p => (t (fst p), einstein N t (fun j => centre3 (x j)) p)) (neighbours s).
Proof.
  intros T N t x n HT HN Hn Ht. destruct (diffusion_ok T N t x n HT HN Hn Ht) as (s & W & _ & _ & C). exists s. split; assumption.
Qed.
Print Assumptions trimer_self_diffusion.
Example trimer_self_diffusion_example : waits INR 6 2 0 [0; 2; 4]%nat /\ neighbours [0; 2; 4]%nat = [(0, 2); (2, 4)]%nat
  /\ einstein 1 INR (fun j i => Vec (INR j) 0 0) (2, 4)%nat = 1 / 3.
Proof.
  split; [|split; [reflexivity|]].
  - assert (M : forall a b, INR (S a) - INR b = INR a - INR b + 1) by (intros; rewrite S_INR; lra).
    apply waits_next with 2%nat; [lia|cbn; lra|intros k Hk; assert (k = 1)%nat as -> by lia; cbn; lra|].
    apply waits_next with 4%nat; [lia|cbn; lra|intros k Hk; assert (k = 3)%nat as -> by lia; cbn; lra|].
    apply waits_end. intros k Hk. assert (k = 5)%nat as -> by lia. cbn; lra.
  - cbn. unfold average, dot3. cbn. lra.
Qed.
(** There is only one such sequence of intervals. *)
Theorem trimer_intervals_unique : forall T t n i s s', waits t n T i s -> waits t n T i s' -> s = s'.
Proof.
  intros T t n i s s' H. revert s'. induction H as [i H|i j l H H1 H2 W IH]; intros s' W'; inversion W' as [i' G|i' j' l' G G1 G2 V]; subst.
  - reflexivity.
  - exfalso. specialize (H j' G). lra.
  - exfalso. specialize (G j H). lra.
  - assert (j = j') as <-.
    { destruct (Nat.lt_trichotomy j j') as [L|[L|L]]; [|exact L|]; exfalso.
      - specialize (G2 j ltac:(lia)). lra.
      - specialize (H2 j' ltac:(lia)). lra. }
    f_equal. apply IH, V.
Qed.
Print Assumptions trimer_intervals_unique.

(** C85. Dumbbells: one value per dumbbell and file. *)
Theorem dumbbell_histograms : forall x N,
  let f := dumbbells_fills x (2 * N) in
  let B := bond x 2 0 in
  recorded "dumbbellBondLengthHistogram.data" f = each N (fun i => sqrt (dot3 (B i) (B i)))
  /\ recorded "dumbbellBondLengthSquaredHistogram.data" f = each N (fun i => dot3 (B i) (B i))
  /\ recorded "dumbbellBondXHistogram.data" f = each N (fun i => vx (B i))
  /\ recorded "dumbbellBondYHistogram.data" f = each N (fun i => vy (B i))
  /\ recorded "dumbbellBondZHistogram.data" f = each N (fun i => vz (B i))
  /\ recorded "dumbbellBondXXHistogram.data" f = each N (fun i => vx (B i) * vx (B i))
  /\ recorded "dumbbellBondYYHistogram.data" f = each N (fun i => vy (B i) * vy (B i))
  /\ recorded "dumbbellBondZZHistogram.data" f = each N (fun i => vz (B i) * vz (B i))
  /\ recorded "dumbbellBondXYHistogram.data" f = each N (fun i => vx (B i) * vy (B i))
  /\ Forall2 (fun i a => B i <> zero3 -> angle_to_x (B i) a) (seq 0 N) (recorded "dumbbellBondAngleWithFlowDirectionHistogram.data" f)
  /\ Forall2 (fun i a => onto_xy (B i) <> zero3 -> angle_to_x (onto_xy (B i)) a) (seq 0 N)
       (recorded "dumbbellBondXYAngleWithFlowDirectionHistogram.data" f).
Proof.
  intros x N f B. destruct (dumbbell_files x N) as (H1 & H2 & H3 & H4 & H5 & H6 & H7 & H8 & H9 & H10 & H11). subst f B.
  repeat (split; [assumption|]). rewrite H10, H11. split; [|apply angles_ok].
  unfold each. induction (seq 0 N) as [|i l IH]; constructor; [apply angle_ok|exact IH].
Qed.
Print Assumptions dumbbell_histograms.
Example dumbbell_histograms_example :
  recorded "dumbbellBondXYHistogram.data" (dumbbells_fills example_positions (2 * 3)) = [1; 5; 9]
  /\ bond example_positions 2 0 1 <> zero3.
Proof.
  destruct (dumbbell_histograms example_positions 3) as (_ & _ & _ & _ & _ & _ & _ & _ & H & _). rewrite H. split.
  - cbn. repeat f_equal; ring.
  - intros E. apply vec_inj in E. cbn in E. lra.
Qed.

(** C85. The graphs of averages over all dumbbells get the averages of the squared components. *)
Theorem dumbbell_averages_recorded : forall x N, (0 < N)%nat ->
  dumbbells_points x (2 * N) =
  [("dumbbellAverageBondXXVSTime.data", average (each N (fun i => vx (bond x 2 0 i) * vx (bond x 2 0 i))));
   ("dumbbellAverageBondYYVSTime.data", average (each N (fun i => vy (bond x 2 0 i) * vy (bond x 2 0 i))));
   ("dumbbellAverageBondZZVSTime.data", average (each N (fun i => vz (bond x 2 0 i) * vz (bond x 2 0 i))))]%string.
Proof. exact dumbbell_averages. Qed.
Print Assumptions dumbbell_averages_recorded.
Example dumbbell_averages_recorded_example : average (each 2 (fun i => vx (bond example_positions 2 0 i) * vx (bond example_positions 2 0 i))) = 13.
Proof. unfold average, each. cbn. lra. Qed.

(** C85. Rods: the length of each bond. *)
Theorem rod_histogram : forall x N, recorded "gaussianRods/bondLengthHistogram.data" (rods_fills x (2 * N))
  = each N (fun i => sqrt (dot3 (bond x 2 0 i) (bond x 2 0 i))).
Proof. exact rod_file. Qed.
Print Assumptions rod_histogram.
Example rod_histogram_example : recorded "gaussianRods/bondLengthHistogram.data" (rods_fills (fun i => Vec (3 * INR i) (4 * INR i) 0) (2 * 1)) = [5].
Proof.
  rewrite rod_histogram. unfold each. cbn [seq map]. f_equal. unfold bond, minus3, dot3. cbn.
  replace (_ + _ + _) with (5 * 5) by ring. apply sqrt_square. lra.
Qed.

(** C85. Chains: the file has one line per bond of a chain, in order, about the squared lengths of that bond in all chains at all measurements. *)
Theorem chain_bond_lengths : forall xs N m c, chains_new true m = Ok c -> (2 <= N * List.length xs)%nat ->
  exists rs, chains_save (chains_measure_all xs N m c) = Some (rs, Ok tt) /\ List.length rs = (m - 1)%nat /\
  forall p, (p < m - 1)%nat -> good_row p (squared_lengths position squared_distance xs N m p) (nth p rs (Row 0 0 0 0 0 0 false)).
Proof. exact chains_saved. Qed.
Print Assumptions chain_bond_lengths.
Definition example_chains (j : Z) (i : nat) : position := Position (qz (j * Z.of_nat i * Z.of_nat i)) 0%Qc 0%Qc.
Example chain_bond_lengths_example :
  match chains_new true 3 with
  | Ok c => match chains_save (chains_measure_all [example_chains 1; example_chains 2] 2 3 c) with
    | Some (rs, Ok _) => map (fun r => (Nat.eqb (row_size r) 4, qeqb (row_mean r) (Q2Qc (Qmake 250 4)))) rs
      = [(true, qeqb (Q2Qc (Qmake 250 4)) (Q2Qc (Qmake 250 4))); (true, false)]
    | _ => False end
  | Err _ => False
  end.
Proof. vm_compute. reflexivity. Qed.

(** C85. If fewer than two lengths were measured for a bond, for example if a run with a single chain ends after its first measurement, then nothing
    but the header is written, and saving ends with an exception. *)
Theorem chain_save_refuted :
  ~ (forall xs N m c, chains_new true m = Ok c -> exists rs, chains_save (chains_measure_all xs N m c) = Some (rs, Ok tt))
  /\ forall xs N m c, chains_new true m = Ok c -> (N * List.length xs < 2)%nat ->
     chains_save (chains_measure_all xs N m c) = Some ([], Err RuntimeError).
Proof.
  split; [|exact chains_save_fails]. intros H.
  destruct (H [example_chains 1] 1%nat 2%nat (Some [ddda_new]) eq_refl) as (rs & E).
  rewrite (chains_save_fails [example_chains 1] 1 2 (Some [ddda_new])) in E; [discriminate|reflexivity|cbn; lia].
Qed.
Print Assumptions chain_save_refuted.

(** C85. Without the setting nothing is measured and no file is written; with it, chains without bonds are rejected. *)
Theorem chain_configured : forall xs N m,
  (exists c, chains_new false m = Ok c /\ chains_save (chains_measure_all xs N m c) = None)
  /\ ((m < 2)%nat <-> exists e, chains_new true m = Err e).
Proof.
  intros xs N m. split; [apply chains_unconfigured|]. unfold chains_new. destruct (Nat.ltb_spec m 2) as [L|L].
  - split; [eauto|intros _; exact L].
  - split; [lia|intros (e & E); discriminate].
Qed.
Print Assumptions chain_configured.
