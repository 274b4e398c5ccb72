(** C23-C27 and C69: point collections, sign ranges and collections of statistics. *)
From Verif Require Import QcBase PyBase DictBase SortBase OtfsModel OtfsSpec
  Data2DModel Data2DSpec Data2DProof.
Set Implicit Arguments.
Open Scope Qc_scope.

(** C23. *)
Theorem data2d_nearest_point : forall h x,
  (h = [] -> getNearestPoint (build h) x = Err StopIteration) /\
  (h <> [] -> exists p, getNearestPoint (build h) x = Ok p /\ is_nearest h x p).
Proof. exact nearest_ok. Qed.
Print Assumptions data2d_nearest_point.

Example data2d_nearest_point_ex :
  match getNearestPoint (build (map (fun z => (qz z, qz (z * z))) [5; 1; 3; 9]%Z)) (qz 4) with
  | Ok (a, b) => qeqb a (qz 3) && qeqb b (qz 9)
  | Err _ => false
  end = true.
Proof. vm_compute. reflexivity. Qed.

(** C24, evenly spaced points: [m] is the smallest number of steps spanning the
    window; the averages are those of the last [m+1] points, at every position
    that has that many. *)
Theorem data2d_moving_average_even : forall x0 h w y m, 0 < h -> w <= qn m * h ->
  (forall m', (m' < m)%nat -> qn m' * h < w) ->
  forall d n, Permutation d (map (fun k => (x0 + qn k * h, y k)) (seq 0 n)) ->
  getSimpleMovingAverageDict d w
  = map (fun k => (x0 + qn k * h, mean (map y (seq (k - m) (S m))))) (seq m (n - m)).
Proof. exact sma_uniform_mean. Qed.
Print Assumptions data2d_moving_average_even.

Example data2d_moving_average_even_ex :
  0 < 1 /\ qz 2 <= qn 2 * 1 /\ (forall m', (m' < 2)%nat -> qn m' * 1 < qz 2) /\
  length (map (fun k => (qz 3 + qn k * 1, qn k)) (seq 0 5)) = 5%nat.
Proof.
  split; [reflexivity|]. split; [discriminate|]. split; [|reflexivity].
  intros [|[|m']] H; [reflexivity|reflexivity|lia].
Qed.

(** C24, unevenly spaced points: the window is neither the points within the
    window size nor the shortest run spanning it, and a position preceded by
    more than a window's worth of points may be left out. *)
Theorem data2d_moving_average_uneven_refuted :
  let d := build (map (fun z => (qz z, qz z)) [0; 1; 2; 10; 11]%Z) in
  (exists v, dget qeqb (getSimpleMovingAverageDict d (qz 2)) (qz 10) = Some v /\
    v = mean (map qz [1; 2; 10]%Z) /\ v <> mean (map qz [2; 10]%Z) /\ v <> mean (map qz [10]%Z)) /\
  let d2 := build (map (fun z => (qz z, qz z)) [0; 10; 11]%Z) in
  dget qeqb (getSimpleMovingAverageDict d2 (qz 2)) (qz 11) = None.
Proof. exact sma_uneven. Qed.
Print Assumptions data2d_moving_average_uneven_refuted.

(** C25. *)
Theorem data2d_local_maxima : forall h incl x y,
  In (x, y) (getLocalMaxima incl (build h)) <-> is_extremum (fun a b => b < a) incl h x y.
Proof. exact maxima_ok. Qed.
Print Assumptions data2d_local_maxima.
Theorem data2d_local_minima : forall h incl x y,
  In (x, y) (getLocalMinima incl (build h)) <-> is_extremum (fun a b => a < b) incl h x y.
Proof. exact minima_ok. Qed.
Print Assumptions data2d_local_minima.

Example data2d_local_extrema_ex :
  let d := build (combine (map qz [4; 1; 2; 3; 0]%Z) (map qz [1; 7; 2; 5; 3]%Z)) in
  (length (getLocalMaxima true d), length (getLocalMaxima false d),
   length (getLocalMinima true d), length (getLocalMinima false d)) = (2, 2, 3, 1)%nat.
Proof. vm_compute. reflexivity. Qed.

(** C26. *)
Theorem plot_equal_sign_ranges : forall l,
  sign_partition l 0 None (findRangesOfEqualSign l) /\
  forall r, sign_partition l 0 None r -> r = findRangesOfEqualSign l.
Proof.
  exact (fun l => conj (ranges_ok l) (fun r P => sign_partition_unique P (ranges_ok l))).
Qed.
Print Assumptions plot_equal_sign_ranges.

Example plot_equal_sign_ranges_ex :
  findRangesOfEqualSign (map qz [1; 0; -2; -3; 4]%Z) = [((0, 2), true); ((2, 4), false); ((4, 5), true)]%nat.
Proof. vm_compute. reflexivity. Qed.

(** C27. *)
Theorem collection_keep_every_nth : forall (V : Type) (c : list (Qc * V)) (n : Z), NoDup (dkeys c) ->
  ((n <= 0)%Z -> keepOnlyEveryNthDataPoint c n = Err ValueError) /\
  ((0 < n)%Z -> exists c', keepOnlyEveryNthDataPoint c n = Ok c' /\ NoDup (dkeys c') /\
    forall k v, dget qeqb c' k = Some v <->
      dget qeqb c k = Some v /\ ((Z.of_nat (rank c k) + 1) mod n = 0)%Z).
Proof. exact @keep_ok. Qed.
Print Assumptions collection_keep_every_nth.

Example collection_keep_every_nth_ex :
  let c := combine (map qz [4; 1; 2; 3; 0]%Z) [10; 11; 12; 13; 14]%nat in
  NoDup (dkeys c) /\
  match keepOnlyEveryNthDataPoint c 2 with Ok c' => map snd c' = [11; 13]%nat | Err _ => False end.
Proof.
  split; [|vm_compute; reflexivity].
  cbn. repeat constructor; cbn; intros H;
  repeat (destruct H as [H|H]; [apply qz_inj in H; discriminate|]); assumption.
Qed.

(** C69. *)
Theorem collection_add_data : forall dat calls,
  (forall k s, In (k, VStat s) (concat calls) -> holds s (dat s)) ->
  (forall k, ~ In (k, VOther) (concat calls)) ->
  exists c, coll_run [] calls = Ok c /\ forall k,
    (forall s, dget qeqb c k = Some s -> answers s (given dat (concat calls) k)) /\
    (dget qeqb c k = None <-> ~ In k (map fst (concat calls))).
Proof. exact coll_ok. Qed.
Print Assumptions collection_add_data.

Example collection_add_data_ex :
  let t := addDatum (addDatum otfs_new (qz 1)) (qz 2) in
  holds t [qz 1; qz 2] /\
  match coll_run [] [[(qz 5, VNum (qz 3)); (qz 6, VStat t)]; [(qz 5, VStat t)]] with
  | Ok c => map (fun p => getSampleSize (snd p)) c = [3; 2]%nat
  | Err _ => False
  end.
Proof.
  split; [|vm_compute; reflexivity].
  exists [OAdd 0 (qz 1); OAdd 0 (qz 2)]. eexists. exists 0%nat. split; [reflexivity|]. split; reflexivity.
Qed.
