(** Collections of points with errors, their files and plots, and files of static data. *)
From Coq Require Import String Ascii Sorting Permutation Lia.
From Verif Require Import QcBase QcLra PyBase StrBase DictBase SortBase VtfModel VtfPyModel TvcModel EmpModel Data2DModel Data2DSpec Data2DProof EmpSpec EmpProof EmpTheorems MsdSpec RelSpec RelProof PtsModel PtsSpec PtsProof.
Open Scope string_scope.
Open Scope list_scope.
Open Scope Qc_scope.

(** C102: whatever was added, and whenever it was sorted, the tables have one row for each position, with the value given last and the error given last. They are in increasing order
    if this is asked for, and else, if nothing has sorted the points yet, in the order in which positions were first mentioned. *)
Theorem points_table : forall h s, exists rows, rows_of h rows
  /\ getKeysAndValuesAndErrors s (after h) = (map at_x rows, map at_y rows, map snd rows)
  /\ (s = true -> StronglySorted Qclt (map at_x rows))
  /\ (s = false -> Forall (fun r => r <> Sort) h -> map at_x rows = appearing (map fst (values_given h)))
  /\ getData s (after h) = map fst rows
  /\ (rows <> [] -> getKeysAndValues s (after h) = [map at_x rows; map at_y rows]) /\ (rows = [] -> getKeysAndValues s (after h) = [])
  /\ getSize (after h) = length rows.
Proof.
  intros h s. pose proof (good_sort_if h s _ (after_good h)) as G. set (d := sort_if s (after h)) in *.
  exists (map (row_of (perrors d)) (pdata d)).
  assert (X : map at_x (map (row_of (perrors d)) (pdata d)) = map fst (pdata d)) by (rewrite map_map; reflexivity).
  assert (Y : map at_y (map (row_of (perrors d)) (pdata d)) = map snd (pdata d)) by (rewrite map_map; reflexivity).
  split; [apply rows_good, G|]. split; [unfold getKeysAndValuesAndErrors; apply table_ok|].
  split.
  { intros E. rewrite X. pose proof (sorted_if h s E) as S. fold d in S. clear - S. induction S as [|p l S IH F]; [constructor|].
    constructor; [exact IH|]. rewrite Forall_forall in *. intros x I. apply in_map_iff in I. destruct I as (q & <- & I). apply (F q I). }
  split.
  { intros -> F. rewrite X. apply (order_ok h F). }
  split.
  { unfold getData. fold d. rewrite map_map. symmetry. rewrite <- (map_id (pdata d)) at 2. apply map_ext. intros [a b]. reflexivity. }
  rewrite X, Y. unfold getKeysAndValues. fold d. split.
  { destruct (pdata d); [intros N; exfalso; apply N; reflexivity|reflexivity]. }
  split.
  { destruct (pdata d); [reflexivity|discriminate]. }
  rewrite map_length. unfold getSize, d. destruct s; [|reflexivity]. cbn [sort_if pts_sort pdata]. apply Permutation_length, sort_perm_d.
Qed.
Print Assumptions points_table.
Definition h1 : list request := [Add (qz 3) (qz 30) (Some (qz 1)); Add (qz 1) (qz 10) None; Sort; Add (qz 2) (qz 20) (Some (qz 2)); Add (qz 3) (qz 31) None].
Example points_table_ex : getKeysAndValuesAndErrors true (after h1) = ([qz 1; qz 2; qz 3], [qz 10; qz 20; qz 31], [None; Some (qz 2); Some (qz 1)])
  /\ getData false (after h1) = [(qz 1, qz 10); (qz 3, qz 31); (qz 2, qz 20)].
Proof. vm_compute. auto. Qed.

(** C102, refuted: the error reported for a point need not be the one that it was added with; an error stays when the point is given a new value without error. *)
Theorem points_error_refuted : exists h x y e, In (x, y, Some e) (let '(ks, vs, es) := getKeysAndValuesAndErrors true (after h) in combine (combine ks vs) es)
  /\ latest_error h x = None /\ last_value (values_given h) x = Some y.
Proof. exists h1, (qz 3), (qz 31), (qz 1). vm_compute. auto. Qed.
Print Assumptions points_error_refuted.

(** C102: of what is saved, exactly the points without errors are read again. They are returned in increasing order if their positions are still different after printing them. *)
Theorem points_saved : forall str float rd, prints_as str float rd -> forall h s m, exists ps,
  NoDup (map fst ps) /\ (forall x y, In (x, y) ps <-> last_value (values_given h) x = Some y /\ last_value (errors_given h) x = None)
  /\ let qs := filter (at_least m) (map (fun p => (rd (fst p), rd (snd p))) ps) in
     (NoDup (map fst qs) -> exists r, pts_read float m (writeTo str s (after h)) = Ok r /\ Permutation (pdata r) qs /\ increasing (pdata r) /\ perrors r = [])
     /\ (~ NoDup (map fst qs) -> pts_read float m (writeTo str s (after h)) = Err ValueError).
Proof.
  intros str float rd P h s m. pose proof (good_sort_if h s _ (after_good h)) as G. pose proof (read_written str float rd P m s (after h)) as R.
  set (d := sort_if s (after h)) in *. exists (filter (free (perrors d)) (pdata d)). split.
  { destruct G as (N & _). clear - N. unfold dkeys in N. induction (pdata d) as [|p l IH]; [constructor|]. cbn [map] in N. apply NoDup_cons_iff in N. destruct N as [A B].
    cbn [filter]. destruct (free (perrors d) p); [|apply IH, B]. cbn [map]. constructor; [|apply IH, B].
    intros I. apply A. apply in_map_iff in I. destruct I as (q & <- & I). apply filter_In in I. apply in_map, I. }
  split.
  { intros x y. rewrite filter_In, (good_in h d x y G). unfold free. cbn [fst]. destruct G as (_ & _ & _ & E). rewrite E.
    destruct (last_value (errors_given h) x); intuition; discriminate. }
  exact R.
Qed.
Print Assumptions points_saved.
(** C102: with exact printing and without errors, the file has the data. *)
Theorem points_saved_same : forall str float, prints_as str float (fun x => x) -> forall h s, errors_given h = [] ->
  exists r, pts_read float None (writeTo str s (after h)) = Ok r /\ getData false r = getData true (after h).
Proof.
  intros str float P h s E. destruct (points_saved str float _ P h s None) as (ps & N & I & A & _). rewrite at_least_all in A.
  assert (M : map (fun p : Qc * Qc => (fst p, snd p)) ps = ps) by (rewrite <- (map_id ps) at 2; apply map_ext; intros [a b]; reflexivity).
  rewrite M in A. destruct (A N) as (r & R & Q & S & _). exists r. split; [exact R|]. unfold getData. cbn [sort_if pts_sort pdata].
  apply (sorted_points_unique h); [|apply sorted_points_sort]. split; [exact S|]. intros x y. rewrite E in I. cbn [last_value] in I.
  transitivity (In (x, y) ps); [split; apply Permutation_in; [|apply Permutation_sym]; exact Q|]. rewrite I. intuition.
Qed.
Print Assumptions points_saved_same.
Definition tabbed (l : list string) : string := join "009" l.
Example points_saved_ex : writeTo (fun q => str_of_Z (Qround.Qfloor (this q))) true (after h1)
  = text_of_lines [tabbed ["1"; "10"]; tabbed ["2"; "20"; "2"]; tabbed ["3"; "31"; "1"]] ""
  /\ option_map pdata (match pts_read digits_only None (writeTo (fun q => str_of_Z (Qround.Qfloor (this q))) true (after h1)) with Ok r => Some r | Err _ => None end) = Some [(qz 1, qz 10)].
Proof. vm_compute. auto. Qed.
(** C102, refuted: with errors, it has not. *)
Theorem points_saved_refuted : forall str float, prints_as str float (fun x => x) -> forall s, exists h r, getSize (after h) = 1%nat
  /\ pts_read float None (writeTo str s (after h)) = Ok r /\ getSize r = 0%nat.
Proof.
  intros str float P s. exists [Add 0 0 (Some 1)]. destruct (points_saved str float _ P [Add 0 0 (Some 1)] s None) as (ps & N & I & A & _).
  assert (E : ps = []).
  { destruct ps as [|[x y] ps]; [reflexivity|]. exfalso. destruct (proj1 (I x y) (or_introl eq_refl)) as [V W]. cbn in V, W. destruct (qeqb x 0); discriminate. }
  subst ps. destruct A as (r & R & Q & _); [constructor|]. exists r. split; [reflexivity|]. split; [exact R|]. apply Permutation_sym, Permutation_nil in Q. unfold getSize. rewrite Q. reflexivity.
Qed.
Print Assumptions points_saved_refuted.

(** C102: the mean and the root of the mean squared deviation of the values; with no points, a division by zero. *)
Theorem points_mean : forall sqrt h ps, sorted_points h ps ->
  (ps = [] -> getArithmeticMean (after h) = Err ZeroDivisionError /\ getRootMeanSquaredDeviationFromArithmeticMean sqrt (after h) = Err ZeroDivisionError)
  /\ (ps <> [] -> getArithmeticMean (after h) = Ok (mean (map snd ps))
      /\ getRootMeanSquaredDeviationFromArithmeticMean sqrt (after h) = Ok (sqrt (mean_square_deviation (map snd ps)))
      /\ mean_square_deviation (map snd ps) = mean (map sqr (map snd ps)) - sqr (mean (map snd ps))
      /\ 0 <= mean_square_deviation (map snd ps)
      /\ (mean_square_deviation (map snd ps) = 0 <-> forall p, In p ps -> snd p = mean (map snd ps))).
Proof.
  intros sqrt h ps SP. pose proof (sorted_points_unique h _ _ SP (sorted_points_sort h)) as E. pose proof (sort_perm_d (pdata (after h))) as P. rewrite <- E in P.
  unfold getArithmeticMean. rewrite deviation_values, mean_values. split.
  - intros ->. apply Permutation_sym, Permutation_nil in P. rewrite P. auto.
  - intros N. assert (M : forall f, mean (map f (map snd (pdata (after h)))) = mean (map f (map snd ps))).
    { intros f. unfold mean. rewrite !map_length. rewrite (Permutation_length P). f_equal. apply qsum_perm. do 2 apply Permutation_map. exact P. }
    assert (M1 : mean (map snd (pdata (after h))) = mean (map snd ps)).
    { specialize (M (fun y => y)). rewrite !map_id in M. exact M. }
    assert (D : mean_square_deviation (map snd (pdata (after h))) = mean_square_deviation (map snd ps)).
    { unfold mean_square_deviation. rewrite M1. apply M. }
    assert (NE : pdata (after h) <> []). { intros Z. rewrite Z in P. apply Permutation_nil in P. contradiction. }
    assert (NM : map snd ps <> []). { destruct ps; [congruence|discriminate]. }
    assert (L : 0 < qn (length (map snd ps))). { apply qn_pos. destruct (map snd ps); [congruence|cbn; lia]. }
    split; [destruct (pdata (after h)); [contradiction|]; rewrite M1; reflexivity|].
    split; [destruct (pdata (after h)); [contradiction|]; rewrite D; reflexivity|].
    split; [apply deviation_formula, NM|].
    assert (F : Forall (fun y => 0 <= y) (map (fun y => sqr (y - mean (map snd ps))) (map snd ps))).
    { apply Forall_forall. intros y I. apply in_map_iff in I. destruct I as (z & <- & _). apply sqr_nonneg. }
    assert (K : qsum (map (fun y => sqr (y - mean (map snd ps))) (map snd ps)) = qn (length (map snd ps)) * mean_square_deviation (map snd ps)).
    { unfold mean_square_deviation. rewrite mean_sum; [|destruct ps; [congruence|discriminate]]. rewrite (map_length _ (map snd ps)). reflexivity. }
    pose proof (qsum_nonneg _ F) as NN. rewrite K in NN. split.
    { destruct (Qclt_le_dec (mean_square_deviation (map snd ps)) 0) as [H|H]; [|exact H]. exfalso.
      assert (X : qn (length (map snd ps)) * mean_square_deviation (map snd ps) < 0) by qnra. qlra. }
    split.
    + intros Z p I. rewrite Z in K. assert (K0 : qsum (map (fun y => sqr (y - mean (map snd ps))) (map snd ps)) = 0) by (rewrite K; ring).
      apply (qsum_zero _ F) in K0. rewrite Forall_forall in K0. specialize (K0 (sqr (snd p - mean (map snd ps)))).
      assert (Q : sqr (snd p - mean (map snd ps)) = 0). { apply K0. apply in_map_iff. exists (snd p). split; [reflexivity|]. apply in_map, I. }
      unfold sqr in Q. apply Qcmult_integral in Q. destruct Q as [Q|Q]; rewrite <- (Qcplus_0_r (mean (map snd ps))), <- Q; ring.
    + intros A. unfold mean_square_deviation. unfold mean at 1. rewrite map_length.
      replace (map (fun y => sqr (y - mean (map snd ps))) (map snd ps)) with (map (fun _ : Qc => 0) (map snd ps)).
      * rewrite qsum_const. field. intros Z. rewrite Z in L. apply Qclt_not_eq in L. apply L. reflexivity.
      * apply map_ext_in. intros y I. apply in_map_iff in I. destruct I as (p & <- & I). rewrite (A p I). unfold sqr. ring.
Qed.
Print Assumptions points_mean.
Example points_mean_ex : sorted_points [Add (qz 2) (qz 5) None; Add (qz 1) (qz 1) None] [(qz 1, qz 1); (qz 2, qz 5)]
  /\ match getArithmeticMean (after [Add (qz 2) (qz 5) None; Add (qz 1) (qz 1) None]) with Ok m => qeqb m (qz 3) | Err _ => false end = true
  /\ match getRootMeanSquaredDeviationFromArithmeticMean (fun x => x) (after [Add (qz 2) (qz 5) None; Add (qz 1) (qz 1) None]) with Ok m => qeqb m (qz 4) | Err _ => false end = true.
Proof.
  split; [|vm_compute; auto].
  replace [(qz 1, qz 1); (qz 2, qz 5)] with (d2_sort (pdata (after [Add (qz 2) (qz 5) None; Add (qz 1) (qz 1) None]))) by (vm_compute; reflexivity).
  apply sorted_points_sort.
Qed.

(** C102: the average of the moving averages of evenly spaced points. *)
Theorem points_average : forall x0 t w y m, 0 < t -> w <= qn m * t -> (forall m', (m' < m)%nat -> qn m' * t < w) ->
  forall h n, Permutation (build (values_given h)) (map (fun k => (x0 + qn k * t, y k)) (seq 0 n)) ->
  ((n <= m)%nat -> getAverageFromSimpleMovingAverage (after h) w = Err ZeroDivisionError)
  /\ ((m < n)%nat -> getAverageFromSimpleMovingAverage (after h) w = Ok (mean (map (fun k => mean (map y (seq (k - m) (S m)))) (seq m (n - m))))).
Proof.
  intros x0 t w y m T W Wm h n P. rewrite average_after, mean_values. rewrite (@sma_uniform_mean x0 t w y m T W Wm _ n P). split; intros L.
  - replace (n - m)%nat with 0%nat by lia. reflexivity.
  - destruct (n - m)%nat as [|j] eqn:J; [lia|]. rewrite map_map. cbn [map seq]. reflexivity.
Qed.
Print Assumptions points_average.
Example points_average_ex : match getAverageFromSimpleMovingAverage (after (map (fun k => Add (qn k) (qn (k * k)) None) (seq 0 4))) (qz 1) with
  Ok m => qeqb m (qz 19 / qz 6) | Err _ => false end = true.
Proof. vm_compute. reflexivity. Qed.

(** C102: Python 2: the local minima and maxima together, in increasing order; Python 3: an exception. *)
Theorem points_extrema : forall h incl,
  (exists l, getLocalExtrema false incl (after h) = Ok l /\ increasing l
   /\ forall x y, In (x, y) l <-> is_extremum (fun a b => a < b) incl (values_given h) x y \/ is_extremum (fun a b => b < a) incl (values_given h) x y)
  /\ getLocalExtrema true incl (after h) = Err TypeError.
Proof. intros h incl. split; [apply extrema_ok|reflexivity]. Qed.
Print Assumptions points_extrema.
Example points_extrema_ex : getLocalExtrema false false (after (map (fun p => Add (qz (fst p)) (qz (snd p)) None) [(4, 1); (1, 7); (2, 2); (3, 5); (0, 3)]%Z))
  = Ok [(qz 1, qz 7); (qz 2, qz 2); (qz 3, qz 5)].
Proof. vm_compute. reflexivity. Qed.

(** C102: the plot shows, in increasing order, the first of the points and every [n]-th after it. *)
Theorem points_plotted : forall str n h ps, sorted_points h ps ->
  (n <> 0%Z -> plot str n (after h)
    = Ok (text_of_lines (["set terminal wxt persist"; "plot '-' with linespoints notitle"]
           ++ map (fun p => (str (fst p) ++ String "009" (str (snd p)))%string) (measured (Z.abs_nat n) ps)) "e"))
  /\ (n = 0%Z -> ps <> [] -> plot str n (after h) = Err ZeroDivisionError).
Proof.
  intros str n h ps SP. pose proof (sorted_points_unique h _ _ SP (sorted_points_sort h)) as E. unfold plot. rewrite <- E. split.
  - intros N. rewrite (plot_ok str n ps N 0 0 0); [|reflexivity|lia]. cbn [bind]. f_equal. unfold text_of_lines at 2. cbn [app fold_right].
    f_equal. f_equal. f_equal. f_equal. fold (plot_line str). clear. unfold measured. generalize (thin (Z.abs_nat n) 0 ps). intros l. induction l as [|p l IH]; [reflexivity|].
    cbn [map text_of_lines fold_right]. unfold plot_line at 1. rewrite app_assoc_s. cbn [append]. f_equal. f_equal. exact IH.
  - intros -> N. destruct ps as [|[x y] ps]; [congruence|]. reflexivity.
Qed.
Print Assumptions points_plotted.
Example points_plotted_ex : plot (fun q => str_of_Z (Qround.Qfloor (this q))) 2 (after h1)
  = Ok (text_of_lines ["set terminal wxt persist"; "plot '-' with linespoints notitle"; tabbed ["1"; "10"]; tabbed ["3"; "31"]] "e").
Proof. vm_compute. reflexivity. Qed.

(** C103: what a file of static data says about a key is what its last line about it says; if there is none it is a [KeyError]. A line about a key without a number is a [ValueError]. *)
Theorem static_data : forall float text, exists ls rest, text = text_of_lines ls rest /\ Forall one_line ls /\ one_line rest
  /\ ((exists l, In l (file_lines ls rest) /\ states_nonsense float l) -> static_read float text = Err ValueError)
  /\ ((forall l, In l (file_lines ls rest) -> ~ states_nonsense float l) -> exists d, static_read float text = Ok d
      /\ (forall key x, static_get d key = Ok x <->
            exists l1 l l2, file_lines ls rest = l1 ++ l :: l2 /\ states_number float l key x /\ forall k z, In k l2 -> ~ states_number float k key z)
      /\ (forall key, (forall l x, In l (file_lines ls rest) -> ~ states_number float l key x) -> static_get d key = Err KeyError)).
Proof.
  intros float text. destruct (text_split text) as (ls & rest & E & F & O). exists ls, rest. split; [exact E|]. split; [exact F|]. split; [exact O|].
  unfold static_read. rewrite E, keep_all by assumption. change (map _ ls ++ _) with (file_lines ls rest). split.
  - intros B. apply lines_bad, B.
  - intros N. destruct (lines_ok float _ N []) as (d & R & G). exists d. split; [exact R|]. cbn [dget] in G. split.
    + intros key x. rewrite <- said_last_ok. unfold static_get. rewrite G. destruct (said_last float (file_lines ls rest) key); split; intros H; try discriminate H; injection H as ->; reflexivity.
    + intros key A. unfold static_get. rewrite G. destruct (said_last float (file_lines ls rest) key) as [x|] eqn:S; [|reflexivity]. exfalso.
      apply said_last_ok in S. destruct S as (l1 & l & l2 & X & Y & _). apply (A l x); [rewrite X; apply in_or_app; right; left; reflexivity|exact Y].
Qed.
Print Assumptions static_data.
Example static_data_ex :
  (match static_read digits_only (text_of_lines ["# Weissenberg number: 3"; ""; "Weissenberg number:   4 "; "x dumbbell equilibrium length: 5 "] "") with
   | Ok d => (static_get d "weissenbergNumber", static_get d "dumbbellEquilibriumLength", static_get d "lagrangianMultiplierRatio") | Err e => (Err e, Err e, Err e) end)
  = (Ok (qz 4), Ok (qz 5), Err KeyError)
  /\ static_read digits_only (text_of_lines ["Weissenberg number: 3 (say)"] "") = Err ValueError.
Proof. vm_compute. auto. Qed.
