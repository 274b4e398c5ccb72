(** What is drawn, the list of plots, and merged axes: C113 to C115. *)
From Coq Require Import String Ascii Permutation Lia Qround.
From Verif Require Import QcBase PyBase StrBase VtfModel VtfPyModel EmpModel Data2DModel Data2DProof EmpSpec EmpProof PtsSpec PtsProof PloModel PloSpec PloProof PloLineProof PloListProof.
Open Scope string_scope.
Open Scope list_scope.
Open Scope Qc_scope.

(** * The canvas and the list of plots *)
(** C113: the canvas always has exactly the lines of the plots that are shown. *)
Theorem plotter_canvas : forall float fs listdir p, reachable float fs listdir p -> canvas_right p.
Proof. intros float fs listdir p H. apply canvas_inv. eapply reachable_inv, H. Qed.
Print Assumptions plotter_canvas.
(** C113: a plot can be shown and hidden again; all others stay as they are. *)
Theorem plot_toggled : forall float fs listdir p i q, reachable float fs listdir p -> nth_error (plots p) i = Some q -> length (px q) = length (py q) -> sorted_by (selection p) = None ->
  exists p' q', toggleVisibility p i = (p', Ok tt) /\ nth_error (plots p') i = Some q' /\ pshow q' = negb (pshow q)
  /\ px q' = px q /\ py q' = py q /\ plabel q' = plabel q /\ pdict q' = pdict q /\ (forall j, j <> i -> nth_error (plots p') j = nth_error (plots p) j) /\ heap p' = heap p.
Proof.
  intros float fs listdir p i q H Q L S.
  assert (R : forall q' ax, exists p', updatePlotSelector (with_plots (with_canvas p ax) (replace i q' (plots p))) = (p', Ok tt) /\ plots p' = replace i q' (plots p) /\ heap p' = heap p).
  { intros q' ax. destruct (update_unsorted (with_plots (with_canvas p ax) (replace i q' (plots p))) S) as (p' & E & _). exists p'. split; [exact E|].
    pose proof (update_keeps (with_plots (with_canvas p ax) (replace i q' (plots p)))) as U. rewrite E in U. cbn [fst] in U. destruct U as (U1 & U2 & _). auto. }
  assert (N1 : forall q', nth_error (replace i q' (plots p)) i = Some q').
  { intros q'. clear -Q. revert i Q. induction (plots p) as [|a l IH]; intros [|i] Q; try discriminate Q; [reflexivity|]. cbn. apply IH, Q. }
  assert (N2 : forall q' j, j <> i -> nth_error (replace i q' (plots p)) j = nth_error (plots p) j).
  { intros q'. clear. revert i. induction (plots p) as [|a l IH]; intros [|i] [|j] J; try reflexivity; try congruence. cbn. apply IH. congruence. }
  unfold toggleVisibility. rewrite Q. destruct (pshow q) eqn:P; cbn [negb].
  - destruct (plotter_canvas float fs listdir p H) as (ND & PM & W). specialize (W q (nth_error_In _ _ Q)). rewrite P in W. destruct W as (ids & ls & W & _). rewrite W.
    destruct (nth_error_split _ _ Q) as (u & v & E & _).
    destruct (remove_some ids (canvas p) (flat_map owned (u ++ v)) ND) as (ax & A).
    { rewrite PM, E, flat_middle. unfold owned at 1. rewrite W. reflexivity. }
    rewrite A. destruct (R (PlotOf None (px q) (py q) false (plabel q) (pdict q)) ax) as (p' & U & V & X). exists p', (PlotOf None (px q) (py q) false (plabel q) (pdict q)).
    rewrite V. repeat (split; [solve [auto]|]). exact X.
  - destruct (draw_some (plot_dashed p) (canvas p) (px q) (py q) (plabel q) L) as (ax & ids & A). rewrite A.
    destruct (R (PlotOf (Some ids) (px q) (py q) true (plabel q) (pdict q)) ax) as (p' & U & V & X). exists p', (PlotOf (Some ids) (px q) (py q) true (plabel q) (pdict q)).
    rewrite V. repeat (split; [solve [auto]|]). exact X.
Qed.
Print Assumptions plot_toggled.
(** C113: after each of these calls, the list is right. *)
Theorem plotter_list : forall float fs listdir p p',
  (forall x y show lab c, provideData p x y show lab c = (p', Ok tt) -> list_right p')
  /\ (forall path d, provideDataFile float fs p path d = (p', Ok tt) -> list_right p')
  /\ (forall fuel c recursive path, provideDataDirectory float fs listdir fuel c recursive p path = Some (p', Ok tt) -> p' = p \/ list_right p')
  /\ (forall l, hideCharacteristics p l = (p', Ok tt) -> list_right p' /\ hidden p' = hidden p ++ l)
  /\ (forall i, toggleVisibility p i = (p', Ok tt) -> list_right p')
  /\ (forall b, list_right p -> setPlotDashedIfNegative p b = (p', Ok tt) -> columns (selection p') = columns (selection p) /\ cells (selection p') = cells (selection p))
  /\ (forall c a, list_right p -> setSortingCharacteristic p c a = (p', Ok tt) -> list_right p').
Proof.
  intros float fs listdir p p'. split; [|split; [|split; [|split; [|split; [|split]]]]].
  - intros x y show lab c. apply data_right.
  - intros path d. apply file_right.
  - intros fuel c recursive path H. eapply directory_right; [left; reflexivity|exact H].
  - intros l H. split; [eapply update_right, H|]. unfold hideCharacteristics in H. pose proof (update_keeps (Plotter (heap p) (plots p) (canvas p) (plot_dashed p) (y_log p) (hidden p ++ l) (order p) (selection p))) as U.
    rewrite H in U. cbn [fst hidden] in U. tauto.
  - intros i. apply toggle_right.
  - intros b _. unfold setPlotDashedIfNegative, replot. destruct (replot_loop _ _ _) as [[ax l] r]. intros E. injection E as <- _. auto.
  - intros c a L. unfold setSortingCharacteristic. destruct (column_of c (columns (selection p))); [|discriminate]. unfold sortListItems. intros E. injection E as <- _. apply (list_with p); auto.
Qed.
Print Assumptions plotter_list.
Definition ex_first : plotter :=
  fst (provideData (fst (new_dict (fst (new_dict new_plotter [("a", Text "u"); ("b", Text "v")])) [("b", Text "w")])) [0; 1; 1 + 1] [1; - (1); 1] true (Some "first") (Some 1%nat)).
Definition ex_plotter : plotter := fst (provideData ex_first [0] [1] false None (Some 2%nat)).
Example plotter_list_ex : columns (selection ex_plotter) = ["Plotted"; "a"; "b"]
  /\ cells (selection ex_plotter) = [[Shown true; Value (Text "u"); Value (Text "v")]; [Shown false; Nothing; Value (Text "w")]].
Proof. split; reflexivity. Qed.
Example plotter_canvas_ex : map (fun l => length (xdata (snd l))) (lines (canvas ex_plotter)) = [3%nat]
  /\ map (fun l => (length (xdata (snd l)), dashed (snd l), label (snd l))) (lines (canvas (fst (setPlotDashedIfNegative ex_plotter true)))) = [(1%nat, false, Some "first"); (1%nat, true, None); (1%nat, false, None)]
  /\ map (fun l => length (xdata (snd l))) (lines (canvas (fst (toggleVisibility (fst (toggleVisibility ex_plotter 1)) 0)))) = [1%nat].
Proof. repeat split. Qed.
(** C113: the list is sorted by a column of the given name, or there is an exception. *)
Theorem list_sorted : forall p c a,
  (In c (columns (selection p)) -> exists p', setSortingCharacteristic p c a = (p', Ok tt) /\ sorted_column p' c a)
  /\ (~ In c (columns (selection p)) -> setSortingCharacteristic p c a = (p, Err InvalidArgumentException)).
Proof.
  intros p c a. split; intros I; unfold setSortingCharacteristic.
  - destruct (column_found c _ I) as (i & -> & E). unfold sortListItems. assert (L : Nat.leb (length (columns (selection p))) i = false) by (apply Nat.leb_gt, nth_error_Some; congruence).
    rewrite L, andb_false_r. eexists. split; [reflexivity|]. exists i. auto.
  - rewrite (column_missing c _ I). reflexivity.
Qed.
Print Assumptions list_sorted.
(** C113: and it remains so as long as the columns are the same, and the characteristic is not hidden. *)
Theorem list_sorting_kept : forall p p' c a, sorted_column p c a -> (exists i, toggleVisibility p i = (p', Ok tt)) \/ (exists l, hideCharacteristics p l = (p', Ok tt)) \/ (exists x y lab d, provideData p x y false lab (Some d) = (p', Ok tt)) ->
  (In c (hidden p') -> sorted_by (selection p') = None) /\ (~ In c (hidden p') -> columns (selection p') = columns (selection p) -> sorted_column p' c a).
Proof.
  intros p p' c a (i & S & N) H.
  assert (U : exists p0, updatePlotSelector p0 = (p', Ok tt) /\ selection p0 = selection p).
  { destruct H as [[j H]|[[l H]|(x & y & lab & d & H)]].
    - unfold toggleVisibility in H. destruct (nth_error (plots p) j) as [q|]; [|discriminate]. destruct (negb (pshow q)).
      + destruct (draw _ _ _ _ _) as [ax [ids|e]]; [|discriminate]. eexists. split; [exact H|reflexivity].
      + destruct (plines q) as [ids|]; [|discriminate]. destruct (remove_lines ids (canvas p)) as [ax [u|e]]; [|discriminate]. eexists. split; [exact H|reflexivity].
    - eexists. split; [exact H|reflexivity].
    - eexists. split; [exact H|reflexivity]. }
  destruct U as (p0 & U & E). pose proof (update_keeps p0) as K. rewrite U in K. cbn [fst] in K. destruct K as (_ & _ & _ & _ & K & _). rewrite <- E in S, N.
  pose proof (update_sort _ _ _ _ _ U S N) as V. rewrite K. split; intros M.
  - apply mem_iff in M. rewrite M in V. exact V.
  - intros C. apply mem_not in M. rewrite M in V. exists i. split; [exact V|]. rewrite C, <- E. exact N.
Qed.
Print Assumptions list_sorting_kept.
Example list_sorted_ex : exists p, setSortingCharacteristic ex_plotter "b" false = (p, Ok tt) /\ sorted_by (selection p) = Some (2%nat, false)
  /\ sorted_by (selection (fst (toggleVisibility p 1))) = Some (2%nat, false) /\ sorted_by (selection (fst (hideCharacteristics p ["b"]))) = None.
Proof. eexists. split; [reflexivity|]. repeat split. Qed.
(** C113: hiding one characteristic changes by which other one the list is sorted. *)
Theorem list_sorting_refuted : ~ (forall p p' c d a l, reachable (fun _ => None) (fun _ => None) (fun _ => None) p -> sorted_column p c a -> hideCharacteristics p l = (p', Ok tt) -> ~ In c l -> ~ In c (hidden p) ->
  sorted_column p' d a -> d = c).
Proof.
  intros H. set (p0 := fst (new_dict new_plotter [("a", Text "u"); ("b", Text "v")])).
  destruct (provideData p0 [] [] false None (Some 1%nat)) as [p1 [[]|e]] eqn:E1; [|discriminate E1].
  destruct (setSortingCharacteristic p1 "a" true) as [p2 [[]|e]] eqn:E2; [|cbv in E1; injection E1 as <-; discriminate E2].
  destruct (hideCharacteristics p2 ["Plotted"]) as [p3 [[]|e]] eqn:E3; [|cbv in E1; injection E1 as <-; cbv in E2; injection E2 as <-; discriminate E3].
  assert (R : reachable (fun _ => None) (fun _ => None) (fun _ => None) p2) by (eapply reach_sort; [eapply reach_data; [apply reach_dict, reach_new|exact E1]|exact E2]).
  pose proof (H p2 p3 "a" "b" true ["Plotted"] R) as K. clear H R.
  cbv in E1. injection E1 as <-. cbv in E2. injection E2 as <-. specialize (K ltac:(exists 1%nat; split; reflexivity) E3 ltac:(intros [X|[]]; discriminate X) ltac:(intros [])).
  cbv in E3. injection E3 as <-. discriminate K. exists 1%nat. split; reflexivity.
Qed.
Print Assumptions list_sorting_refuted.
(** C113: or there is an exception that the documentation does not mention, and afterwards every change of the list fails. *)
Theorem list_hiding_refuted : ~ (forall p l, reachable (fun _ => None) (fun _ => None) (fun _ => None) p -> exists p', hideCharacteristics p l = (p', Ok tt)).
Proof.
  intros H. set (p0 := fst (new_dict new_plotter [("a", Text "u"); ("b", Text "v")])).
  destruct (provideData p0 [] [] false None (Some 1%nat)) as [p1 [[]|e]] eqn:E1; [|discriminate E1].
  destruct (provideData p1 [] [] false None (Some 1%nat)) as [p2 [[]|e]] eqn:E2; [|cbv in E1; injection E1 as <-; discriminate E2].
  destruct (setSortingCharacteristic p2 "b" true) as [p3 [[]|e]] eqn:E3; [|cbv in E1; injection E1 as <-; cbv in E2; injection E2 as <-; discriminate E3].
  assert (R : reachable (fun _ => None) (fun _ => None) (fun _ => None) p3) by (eapply reach_sort; [eapply reach_data; [eapply reach_data; [apply reach_dict, reach_new|exact E1]|exact E2]|exact E3]).
  destruct (H p3 ["a"] R) as (p4 & K). cbv in E1. injection E1 as <-. cbv in E2. injection E2 as <-. cbv in E3. injection E3 as <-. discriminate K.
Qed.
Print Assumptions list_hiding_refuted.
Example list_hiding_stuck : let p := fst (hideCharacteristics (fst (setSortingCharacteristic ex_plotter "b" true)) ["a"]) in
  snd (hideCharacteristics (fst (setSortingCharacteristic ex_plotter "b" true)) ["a"]) = Err IndexError
  /\ snd (toggleVisibility p 0) = Err OutOfBoundsException /\ snd (hideCharacteristics p ["b"]) = Err OutOfBoundsException.
Proof. repeat split. Qed.
(** C113: a new order of the characteristics is not shown until the list changes. *)
Theorem list_order_refuted : ~ (forall p l, list_right p -> list_right (setCharacteristicsOrder p l)).
Proof.
  intros H. assert (R : list_right ex_plotter) by (apply (data_right ex_first [0] [1] false None (Some 2%nat)); reflexivity). destruct (H ex_plotter ["b"; "a"] R) as (_ & _ & O & _).
  specialize (O "b" "a"). destruct O as (u & v & E & N & _).
  - exists [], ["a"]. split; [reflexivity|]. split; [intros []|discriminate].
  - right. right. left. reflexivity.
  - right. left. reflexivity.
  - cbn in E. destruct u as [|x [|y u]]; try discriminate E. injection E as <- <- _. apply N. right. left. reflexivity.
Qed.
Print Assumptions list_order_refuted.
Example list_order_later : columns (selection (fst (hideCharacteristics (setCharacteristicsOrder ex_plotter ["b"; "a"]) []))) = ["b"; "a"; "Plotted"].
Proof. reflexivity. Qed.

(** * Lines *)
(** C114: points are drawn as solid lines where they are not negative, and as dashed lines with the opposite sign where they are, in one colour and with one label. *)
Theorem dashed_if_negative : forall ax x y lab,
  (forall ax' ids, plotDashedIfNegative ax x y lab = (ax', Ok ids) -> exists ls, depicts true x y lab ls /\ length ids = length ls /\ lines ax' = lines ax ++ combine ids ls)
  /\ (length x = length y -> exists ax' ids, plotDashedIfNegative ax x y lab = (ax', Ok ids)).
Proof.
  intros ax x y lab. split; [|apply (draw_some true ax x y lab)]. intros ax' ids H. destruct (dash_adds ax x y lab ax' ids H) as (ls & D & A). exists ls. split; [exact D|].
  destruct A as (A & -> & _). split; [apply seq_length|exact A].
Qed.
Print Assumptions dashed_if_negative.
Example dashed_if_negative_ex : map (fun l => (map this (xdata (snd l)), map this (ydata (snd l)), dashed (snd l), label (snd l)))
    (lines (fst (plotDashedIfNegative (Axes [] 0 0) [0; 1; 1 + 1; 1 + 1 + 1] [1; 0; - (1); 1] (Some "u"))))
  = [([0%Q; 1%Q], [1%Q; 0%Q], false, Some "u"); ([2%Q], [1%Q], true, None); ([3%Q], [1%Q], false, None)]%list.
Proof. vm_compute. reflexivity. Qed.
(** C114: the band of errors is around the absolute values; each value needs an error. *)
Theorem error_bands : forall d y errors,
  ((length y <= length errors)%nat -> exists l, error_band false d y errors = Ok l /\ length l = length y
     /\ forall i v e, nth_error y i = Some v -> nth_error errors i = Some e -> nth_error l i = Some (absolute v - e, absolute v + e))
  /\ ((length errors < length y)%nat -> forall logY, error_band logY d y errors = Err IndexError).
Proof.
  intros d y. induction y as [|v y IH]; intros errors.
  - split; [|cbn; lia]. intros _. exists []. split; [reflexivity|]. split; [reflexivity|]. intros i v e N. destruct i; discriminate N.
  - destruct errors as [|e errors]; [split; [cbn; lia|reflexivity]|]. destruct (IH errors) as [A B]. split; intros L; cbn [length] in L.
    + destruct (A ltac:(lia)) as (l & E & M & N). cbn [error_band]. rewrite E. cbn [bind]. exists (error_bounds false d v e :: l). split; [reflexivity|]. split; [cbn; congruence|].
      intros [|i] v' e' Y Z; cbn in *; [injection Y as <-; injection Z as <-; rewrite bounds_abs; reflexivity|]. apply N; assumption.
    + intros logY. cbn [error_band]. rewrite (B ltac:(lia)). reflexivity.
Qed.
Print Assumptions error_bands.
(** C114: for a logarithmic scale, bounds below zero are replaced. *)
Theorem error_bands_log : forall d v e lower upper, error_bounds true d v e = (lower, upper) ->
  lower = (if Qclt_le_dec (absolute v - e) 0 then d else absolute v - e) /\ upper = (if Qclt_le_dec (absolute v + e) 0 then d else absolute v + e).
Proof.
  intros d v e lower upper H. assert (E : error_bounds true d v e = let (l, u) := error_bounds false d v e in (if qltb l 0 then d else l, if qltb u 0 then d else u)).
  { unfold error_bounds. destruct (qltb v 0); reflexivity. }
  rewrite bounds_abs in E. rewrite E in H. injection H as <- <-. assert (X : forall w, (if qltb w 0 then d else w) = if Qclt_le_dec w 0 then d else w).
  { intros w. destruct (Qclt_le_dec w 0) as [W|W]; [apply qltb_spec in W|apply qltb_false in W]; rewrite W; reflexivity. }
  auto.
Qed.
Print Assumptions error_bands_log.
(** C114: but a bound that is zero stays, which a logarithmic scale cannot show. *)
Theorem error_bands_log_refuted : ~ (forall d v e lower upper, 0 < d -> 0 <= e -> error_bounds true d v e = (lower, upper) -> 0 < lower).
Proof. intros H. specialize (H 1 1 1 _ _ eq_refl ltac:(discriminate) eq_refl). discriminate H. Qed.
Print Assumptions error_bands_log_refuted.
Example error_bands_ex : match error_band true 1 [1 + 1; - (1 + 1); 1] [1; 1; 1 + 1] with Ok l => map (fun q => (this (fst q), this (snd q))) l = [(1%Q, 3%Q); (1%Q, 3%Q); (1%Q, 3%Q)] | _ => False end.
Proof. vm_compute. reflexivity. Qed.
(** C114: a slider shows the greatest multiple of the step that is not above the position. *)
Theorem slider_value : forall step v, (0 < step)%Z -> exists k, discreteValue step v = (k * step)%Z /\ qz (k * step) <= v /\ v < qz ((k + 1) * step).
Proof.
  intros step v S. exists (Qfloor (this (v / qz step))). split; [reflexivity|]. assert (P : 0 < qz step) by (unfold qz, Qclt; cbn [this Q2Qc]; rewrite !Qreduction.Qred_correct; unfold Qlt, inject_Z; cbn [Qnum Qden]; lia).
  assert (D : v = v / qz step * qz step) by (field; intros E; rewrite E in P; discriminate P).
  pose proof (Qfloor_le (this (v / qz step))) as A. pose proof (Qlt_floor (this (v / qz step))) as B. set (k := Qfloor (this (v / qz step))) in *.
  assert (A' : qz k <= v / qz step) by (unfold Qcle, qz; cbn [this Q2Qc]; rewrite Qreduction.Qred_correct; exact A).
  assert (B' : v / qz step < qz (k + 1)) by (unfold Qclt, qz; cbn [this Q2Qc]; rewrite Qreduction.Qred_correct; exact B).
  rewrite D. set (w := v / qz step) in *. clearbody w. clear D A B.
  assert (M : forall a, qz (a * step) = qz a * qz step) by (intros a; apply Qc_is_canon; unfold qz; cbn [this Q2Qc Qcmult]; rewrite !Qreduction.Qred_correct; reflexivity).
  rewrite !M. split; [apply Qcmult_le_compat_r; [exact A'|apply Qclt_le_weak, P]|apply Qcmult_lt_compat_r; assumption].
Qed.
Print Assumptions slider_value.
Theorem slider_steps : forall step, slider step = Ok step <-> (0 < step)%Z.
Proof. intros step. unfold slider. destruct (Z.leb_spec step 0); split; intros H'; try discriminate; auto; lia. Qed.
Print Assumptions slider_steps.
Example slider_value_ex : map (discreteValue 5) [qz 12; qz 15; qz (-1); qz 49 / qz 10] = [10; 15; -5; 0]%Z /\ slider 0 = Err ValueError.
Proof. vm_compute. auto. Qed.

(** * Merged axes *)
(** C115: the merged axes have all lines, in order; if each source has a legend with one text for each line, each line keeps its text; titles and labels are those of the sources, without repetition. *)
Theorem axes_merged : forall set_order axesList texts, (forall l, Permutation (set_order l) l) -> Forall2 fully_labelled axesList texts ->
  exists c ts xs ys, mergeAxes set_order axesList = Ok c /\ chart_lines c = flat_map chart_lines axesList /\ fully_labelled c (concat texts)
  /\ title c = String.concat " | " ts /\ NoDup ts /\ (forall t, In t ts <-> In t (map title axesList))
  /\ xlabel c = String.concat " | " xs /\ NoDup xs /\ (forall t, In t xs <-> In t (map xlabel axesList))
  /\ ylabel c = String.concat " | " ys /\ NoDup ys /\ (forall t, In t ys <-> In t (map ylabel axesList)).
Proof.
  intros set_order axesList texts P F.
  assert (U : forall l, NoDup (unique set_order l) /\ forall t, In t (unique set_order l) <-> In t l).
  { intros l. unfold unique. specialize (P (nodup string_dec l)). split; [eapply Permutation_NoDup; [symmetry; exact P|apply NoDup_nodup]|].
    intros t. rewrite <- (nodup_In string_dec l t). split; apply Permutation_in; [exact P|symmetry; exact P]. }
  unfold mergeAxes. rewrite collect_ok by (induction F as [|a t l ts [A _] F IH]; constructor; [congruence|exact IH]). cbn [bind].
  assert (E : flat_map (fun a => match legend a with Some t => map snd t | None => [] end) axesList = concat texts /\ length (concat texts) = length (flat_map chart_lines axesList)).
  { induction F as [|a t l ts [A B] F [IH1 IH2]]; [auto|]. cbn [flat_map concat]. rewrite A, IH1, !app_length, IH2, B. split; [|reflexivity]. f_equal. rewrite <- B. apply combine_snd. }
  destruct E as [E L]. rewrite E. eexists _, _, _, _. split; [reflexivity|]. cbn [chart_lines title xlabel ylabel]. split; [reflexivity|]. split; [split; [reflexivity|exact L]|].
  split; [reflexivity|]. split; [apply U|]. split; [apply U|]. split; [reflexivity|]. split; [apply U|]. split; [apply U|]. split; [reflexivity|]. split; apply U.
Qed.
Print Assumptions axes_merged.
Definition ex_chart (n : nat) (t : string) (l : option (list (nat * string))) : chart := Chart (repeat ([], []) n) t "x" "y" l.
Example axes_merged_ex : mergeAxes (fun l => l) [ex_chart 2 "A" (Some [(0%nat, "a"); (1%nat, "b")]); ex_chart 1 "B" (Some [(0%nat, "c")])] = Ok (ex_chart 3 "A | B" (Some [(0%nat, "a"); (1%nat, "b"); (2%nat, "c")])).
Proof. reflexivity. Qed.
(** C115: axes without a legend cannot be merged. *)
Theorem axes_unmerged : forall set_order axesList a, In a axesList -> legend a = None -> mergeAxes set_order axesList = Err AttributeError.
Proof. intros set_order axesList a I N. unfold mergeAxes. rewrite (collect_fails axesList a I N). reflexivity. Qed.
Print Assumptions axes_unmerged.
(** C115: if a line is missing in a legend, the texts of lines after it are given to the wrong lines. *)
Theorem axes_labels_refuted : ~ (forall set_order a b c i t, mergeAxes set_order [a; b] = Ok c -> labels_line b i t -> labels_line c (length (chart_lines a) + i) t).
Proof.
  intros H. destruct (H (fun l => l) (ex_chart 2 "A" (Some [(1%nat, "a")])) (ex_chart 1 "B" (Some [(0%nat, "b")])) (ex_chart 3 "A | B" (Some [(0%nat, "a"); (1%nat, "b")])) 0%nat "b" eq_refl) as (l & L & I).
  - exists [(0%nat, "b")]. split; [reflexivity|left; reflexivity].
  - injection L as <-. destruct I as [I|[I|[]]]; discriminate I.
Qed.
Print Assumptions axes_labels_refuted.
