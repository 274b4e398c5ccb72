(** Property C100: predictions for dumbbells in shear flow, and the plot that compares them to runs. *)
From Coq Require Import String.
From Verif Require Import PyBase VecBase InitModel InitSpec InitProof InitTheorems DumModel DumSpec DumProof.
From Coq Require Import Reals ZArith List Bool Sorted Lra Psatz Permutation Lia.
Import ListNotations.
Open Scope string_scope.
Open Scope list_scope.
Open Scope R_scope.
Ltac decimals := unfold Q2R in *; cbn [QArith_base.Qnum QArith_base.Qden] in *.

(** C100: for every Weissenberg number there is exactly one ratio of multipliers that is at least 1;
    it grows with the shear rate. *)
Theorem dumbbell_ratio : forall Wi, exists mu, 1 <= mu /\ multiplier_ratio Wi mu /\ (forall mu', 1 <= mu' -> multiplier_ratio Wi mu' -> mu' = mu)
  /\ forall Wi' mu', Rabs Wi < Rabs Wi' -> 1 <= mu' -> multiplier_ratio Wi' mu' -> mu < mu'.
Proof.
  intros Wi. destruct (root_exists Wi) as [mu [A B]]. exists mu. split; [exact A|]. split; [exact B|]. split.
  - intros mu' A' B'. destruct (Req_dec Wi 0) as [->|N]; [rewrite (ratio_at_zero mu A B); apply ratio_at_zero; assumption|]. eapply ratio_unique; eassumption.
  - intros Wi' mu' L A' B'. destruct (Rlt_le_dec mu mu') as [|C]; [assumption|]. exfalso. unfold multiplier_ratio in *.
    assert (Wi * Wi < Wi' * Wi') by (apply Rsqr_lt_abs_1 in L; exact L).
    assert (mu' * mu' * (mu' - 1) <= mu * mu * (mu - 1)); [|lra]. apply Rmult_le_compat; [apply Rmult_le_pos; lra|lra|apply Rmult_le_compat; lra|lra].
Qed.
Print Assumptions dumbbell_ratio.

(** C100: the Python function returns that ratio, if the real root comes first among the roots that
    numpy finds, as the C++ function does; otherwise it raises RuntimeError. *)
Theorem dumbbell_ratio_python : forall roots Wi x y z, roots (-1) 0 (- Wi * Wi / 6) = [x; y; z] -> roots_of (-1) 0 (- Wi * Wi / 6) [x; y; z] ->
  (Wi = 0 -> ratio_python roots Wi = Ok 1) /\
  (Wi <> 0 -> snd x = 0 -> exists mu, ratio_python roots Wi = Ok mu /\ 1 < mu /\ multiplier_ratio Wi mu /\
     forall cubic_root, multiplier_ratio Wi (cubic_root (-1) 0 (- Wi * Wi / 6)) -> lagrangianMultiplierRatio cubic_root Wi = mu) /\
  (Wi <> 0 -> snd x <> 0 -> ratio_python roots Wi = Err RuntimeError).
Proof.
  intros roots Wi x y z E H. assert (E' : roots (-1) 0 (- Wi * Wi / 6.0) = [x; y; z]) by (replace 6.0 with 6 by lra; exact E).
  split; [intros ->; unfold ratio_python; destruct (Req_EM_T 0 0); [reflexivity|contradiction]|].
  assert (U : forall N : Wi <> 0, ratio_python roots Wi = if isreal x then if isreal y then Err RuntimeError else if isreal z then Err RuntimeError else Ok (fst x) else Err RuntimeError).
  { intros N. unfold ratio_python. destruct (Req_EM_T Wi 0); [contradiction|]. rewrite E'. cbn [length Nat.eqb negb map]. destruct (isreal x), (isreal y), (isreal z); reflexivity. }
  assert (Rt : forall N : Wi <> 0, snd x = 0 -> multiplier_ratio Wi (fst x)) by (intros N S; pose proof (real_root _ _ _ _ H S); unfold multiplier_ratio; lra).
  split.
  - intros N S. pose proof (Rt N S) as M. pose proof (ratio_above_one _ _ N M) as G. exists (fst x). split; [|split; [exact G|split; [exact M|]]].
    + assert (P : snd y <> 0 /\ snd z <> 0).
      { destruct H as [x' [y' [z' [Q [A [B C]]]]]]. injection Q as <- <- <-. destruct x as [a b], y as [p q], z as [r s]. unfold cadd, cmul in *. cbn [fst snd] in *. subst b. injection A as A1 A2. injection B as B1 B2.
        assert (s = - q) by lra. subst s. assert (r = 1 - a - p) by lra. subst r.
        assert (q <> 0); [|split; lra]. intros ->. assert (K : a * (1 - a) + p * (1 - a - p) = 0) by (rewrite <- B1; ring).
        assert (4 * (a * (1 - a) + p * (1 - a - p)) <= (1 - a) * (1 + 3 * a)); [|assert ((1 - a) * (1 + 3 * a) < 0) by nra; lra].
        assert (0 <= (2 * p - (1 - a)) * (2 * p - (1 - a))) by apply Rle_0_sqr. lra. }
      rewrite U by exact N. unfold isreal. destruct (Req_EM_T (snd x) 0); [|contradiction]. destruct (Req_EM_T (snd y) 0); [tauto|]. destruct (Req_EM_T (snd z) 0); [tauto|]. reflexivity.
    + intros cubic K. unfold lagrangianMultiplierRatio. destruct (Req_EM_T Wi 0); [contradiction|]. eapply ratio_unique; eassumption.
  - intros N S. rewrite U by exact N. unfold isreal. destruct (Req_EM_T (snd x) 0); [contradiction|]. reflexivity.
Qed.
Print Assumptions dumbbell_ratio_python.
(** A function that finds the real root first: there is one. *)
Definition some_roots (a b c : R) : list (R * R) :=
  let mu := proj1_sig (root_exists (sqrt (- c * 6))) in
  let s := sqrt (mu * (mu - 1) - (mu - 1) * (mu - 1) / 4) in [(mu, 0); ((1 - mu) / 2, s); ((1 - mu) / 2, - s)].
Example real_first_ex : real_first some_roots.
Proof.
  intros Wi N. unfold some_roots. set (W := sqrt (- (- Wi * Wi / 6) * 6)). destruct (root_exists W) as [mu [A B]]. cbn [proj1_sig]. eexists _, _, _. split; [reflexivity|]. split; [|reflexivity].
  assert (P : 0 <= Wi * Wi) by apply Rle_0_sqr. assert (WW : W * W = Wi * Wi) by (unfold W; rewrite sqrt_sqrt; lra). unfold multiplier_ratio in B. rewrite WW in B.
  set (s := sqrt _). assert (S : s * s = mu * (mu - 1) - (mu - 1) * (mu - 1) / 4) by (apply sqrt_sqrt; nra).
  eexists _, _, _. split; [reflexivity|]. unfold cadd, cmul. cbn [fst snd].
  split; [f_equal; lra|]. split; [f_equal; [|ring]|f_equal; [|ring]].
  - replace (mu * ((1 - mu) / 2) - 0 * s + (mu * ((1 - mu) / 2) - 0 * - s) + ((1 - mu) / 2 * ((1 - mu) / 2) - s * - s)) with (mu * (1 - mu) + (1 - mu) * (1 - mu) / 4 + s * s) by field. rewrite S. field.
  - replace ((mu * ((1 - mu) / 2) - 0 * s) * ((1 - mu) / 2) - (mu * s + 0 * ((1 - mu) / 2)) * - s) with (mu * ((1 - mu) * (1 - mu) / 4 + s * s)) by field. rewrite S. lra.
Qed.

(** C100: the predictions.  In units of l^2 / 3, <x^2> + <y^2> + <z^2> = 3 at every shear rate, where
    <z^2> = <y^2>; <y^2> decreases with the shear rate from 1 and <x^2> grows from 1, below 3; the
    alignment angle is that of the tensor of <x^2>, <y^2> and <x y>; the bonds that the simulation
    starts with have these components. *)
Theorem dumbbell_predictions : forall Wi mu, 1 <= mu -> multiplier_ratio Wi mu ->
  components Wi (prediction_xx Wi mu) (prediction_yy mu) /\
  prediction_xx Wi mu + 2 * prediction_yy mu = 3 /\ 0 < prediction_yy mu <= 1 /\ 1 <= prediction_xx Wi mu < 3 /\
  (forall l, l <> 0 -> Wi <> 0 -> prediction_tan Wi mu = 2 * prediction_xy l Wi mu / (l * l / 3 * (prediction_xx Wi mu - prediction_yy mu))) /\
  (forall cubic_root l, lagrangianMultiplierRatio cubic_root Wi = mu -> let d := perfect_displacement cubic_root l Wi in
     vx d * vx d = l * l / 3 * prediction_xx Wi mu /\ vy d * vy d = l * l / 3 * prediction_yy mu /\ vz d * vz d = l * l / 3 * prediction_yy mu) /\
  forall Wi' mu', Rabs Wi < Rabs Wi' -> 1 <= mu' -> multiplier_ratio Wi' mu' -> prediction_yy mu' < prediction_yy mu /\ prediction_xx Wi mu < prediction_xx Wi' mu'.
Proof.
  assert (Sum : forall Wi mu, 1 <= mu -> multiplier_ratio Wi mu -> prediction_xx Wi mu = 3 - 2 * prediction_yy mu).
  { intros Wi mu A B. unfold prediction_xx, prediction_yy. unfold multiplier_ratio in B. replace (Wi * Wi) with (6 * (mu * mu * mu - mu * mu)) by lra. decimals. field. lra. }
  assert (Pos : forall mu, 1 <= mu -> 0 < prediction_yy mu <= 1).
  { intros mu A. unfold prediction_yy. replace (1.0 / mu) with (/ mu) by (decimals; field; lra). split; [apply Rinv_0_lt_compat; lra|]. rewrite <- Rinv_1. apply Rinv_le_contravar; lra. }
  intros Wi mu A B. pose proof (Sum Wi mu A B) as S. pose proof (Pos mu A) as P.
  split. { exists mu. split; [exact A|]. split; [exact B|]. unfold prediction_xx, prediction_yy. split; decimals; field; lra. }
  split; [lra|]. split; [exact P|]. split; [lra|]. split; [|split].
  - intros l L N. rewrite S. unfold prediction_tan, prediction_xy, prediction_yy. pose proof (ratio_above_one _ _ N B) as G. unfold multiplier_ratio in B.
    replace (l * l / 3 * (3 - 2 * (1.0 / mu) - 1.0 / mu)) with (l * l * (mu - 1) / mu) by (decimals; field; lra).
    assert (Q : Wi * Wi = 6 * (mu * mu) * (mu - 1)) by lra.
    replace (2 * (Wi / (4 * mu * mu * (1.5 / (l * l)))) / (l * l * (mu - 1) / mu)) with (2 * mu * (Wi * Wi / (6 * (mu * mu) * (mu - 1))) / Wi) by (decimals; field; repeat split; lra).
    rewrite <- Q. decimals. field. lra.
  - intros cubic l E. cbn [perfect_displacement vx vy vz]. unfold perfect_displacement. rewrite E. cbv zeta. cbn [vx vy vz].
    assert (Q : 0 <= l * l / (3 * mu)) by (apply Rmult_le_pos; [apply Rle_0_sqr|]; left; apply Rinv_0_lt_compat; lra).
    assert (Q2 : 0 <= 1 + Wi * Wi / (2 * mu * mu)) by (apply Rplus_le_le_0_compat; [lra|]; apply Rmult_le_pos; [apply Rle_0_sqr|]; left; apply Rinv_0_lt_compat; nra).
    rewrite (sqrt_sqrt (_ * _)) by (apply Rmult_le_pos; assumption). rewrite (sqrt_sqrt (l * l / (3 * mu))) by exact Q. unfold prediction_xx, prediction_yy. repeat split; decimals. all: field; lra. 
  - intros Wi' mu' L A' B'. destruct (dumbbell_ratio Wi) as [m [M1 [M2 [M3 M4]]]]. assert (mu = m) by (apply M3; assumption). subst m. specialize (M4 Wi' mu' L A' B').
    rewrite (Sum Wi' mu' A' B'), S. assert (prediction_yy mu' < prediction_yy mu); [|lra]. unfold prediction_yy. unfold Rdiv. replace 1.0 with 1 by lra. rewrite !Rmult_1_l. apply Rinv_lt_contravar; [apply Rmult_lt_0_compat; lra|exact M4].
Qed.
Print Assumptions dumbbell_predictions.
Example dumbbell_predictions_ex : multiplier_ratio (sqrt 24) 2 /\ prediction_yy 2 = 1 / 2 /\ prediction_xx (sqrt 24) 2 = 2.
Proof. split; [apply multiplier_ratio_ex|]. unfold prediction_xx, prediction_yy. rewrite sqrt_sqrt by lra. split; lra. Qed.

(** C100: the relaxation time without shear is positive exactly if the beads are small enough for
    the bond; it is proportional to l^2 if hydrodynamic interactions are neglected. *)
Theorem dumbbell_relaxation_time : forall l D radius, 0 < l -> 0 < D ->
  (radius * sqrt (6 / PI) < l -> 0 < zeroShearRelaxationTime l D radius /\ (0 <= radius -> l * l / (6 * D) <= zeroShearRelaxationTime l D radius)) /\
  (l < radius * sqrt (6 / PI) -> zeroShearRelaxationTime l D radius < 0) /\ zeroShearRelaxationTime l D 0 = l * l / (6 * D).
Proof.
  intros l D r L P. unfold zeroShearRelaxationTime. set (q := sqrt (6 / PI)). assert (Q : 0 < q) by (apply sqrt_lt_R0, Rdiv_lt_0_compat; [lra|apply PI_RGT_0]). clearbody q.
  assert (X : r / l * q = r * q / l) by (field; lra). rewrite X.
  assert (N : 0 < l * l) by (apply Rmult_lt_0_compat; lra).
  split; [|split].
  - intros H. assert (Y : r * q / l < 1) by (apply Rmult_lt_reg_r with l; [lra|]; unfold Rdiv; rewrite Rmult_assoc, Rinv_l by lra; lra).
    split; [apply Rdiv_lt_0_compat; [exact N|apply Rmult_lt_0_compat; lra]|].
    intros R0. assert (Z : 0 <= r * q / l) by (apply Rmult_le_pos; [apply Rmult_le_pos; lra|]; left; apply Rinv_0_lt_compat; lra).
    unfold Rdiv at 1 2. apply Rmult_le_compat_l; [lra|]. apply Rinv_le_contravar; [apply Rmult_lt_0_compat; lra|]. rewrite <- (Rmult_1_r (6 * D)) at 2. apply Rmult_le_compat_l; lra.
  - intros H. assert (Y : 1 < r * q / l) by (apply Rmult_lt_reg_r with l; [lra|]; unfold Rdiv; rewrite Rmult_assoc, Rinv_l by lra; lra).
    clear X. set (y := r * q / l) in *. clearbody y. replace (l * l / (6 * D * (1 - y))) with (- (l * l / (6 * D * (y - 1)))) by (field; repeat split; lra).
    apply Ropp_lt_gt_0_contravar, Rdiv_lt_0_compat; [exact N|apply Rmult_lt_0_compat; lra].
  - field. lra.
Qed.
Print Assumptions dumbbell_relaxation_time.
(** C100: the multiplier itself. *)
Theorem dumbbell_multiplier : forall cubic_root l rate tau, l <> 0 ->
  (rate * tau <> 0 -> multiplier_ratio (rate * tau) (cubic_root (-1) 0 (- (rate * tau) * (rate * tau) / 6))) ->
  lagrangianMultiplier cubic_root l 0 tau = 3 / (2 * l * l) /\
  exists mu, 1 <= mu /\ multiplier_ratio (rate * tau) mu /\ lagrangianMultiplier cubic_root l rate tau = mu * (3 / (2 * l * l)).
Proof.
  intros cubic l rate tau L H. unfold lagrangianMultiplier, zeroShearLagrangianMultiplier, weissenbergNumber. split.
  - unfold lagrangianMultiplierRatio. destruct (Req_EM_T (0 * tau) 0) as [_|N]; [decimals; field; exact L|exfalso; apply N; ring].
  - exists (lagrangianMultiplierRatio cubic (rate * tau)). unfold lagrangianMultiplierRatio. destruct (Req_EM_T (rate * tau) 0) as [E|N].
    + rewrite E. unfold multiplier_ratio. split; [lra|]. split; [lra|]. decimals; field; exact L.
    + split; [left; eapply ratio_above_one; [exact N|apply H, N]|]. split; [apply H, N|]. decimals; field; exact L.
Qed.
Print Assumptions dumbbell_multiplier.
Example dumbbell_multiplier_ex : exists cubic_root : R -> R -> R -> R, multiplier_ratio (sqrt 24 * 1) (cubic_root (-1) 0 (- (sqrt 24 * 1) * (sqrt 24 * 1) / 6)).
Proof. exists (fun _ _ _ => 2). rewrite Rmult_1_r. apply multiplier_ratio_ex. Qed.

(** C100: for runs of the present format, every pair of curves shows the measurements under the
    same conditions, in units of l^2 / 3, from the smallest Weissenberg number to the largest; the
    theoretical curves have 1000 points over the same range. *)
Lemma theory_samples roots Wis : real_first roots -> exists xs ys, theory_curves roots Wis = Ok (xs, ys) /\ map fst xs = Wis /\ map fst ys = Wis /\
  (forall p, In p xs -> exists yy, components (fst p) (snd p) yy) /\ (forall p, In p ys -> exists xx, components (fst p) xx (snd p)).
Proof.
  intros F. induction Wis as [|Wi Wis IH]; [exists [], []; repeat split; auto; intros p []|]. destruct IH as [xs [ys [E [A [B [C D]]]]]].
  assert (M : exists mu, ratio_python roots Wi = Ok mu /\ 1 <= mu /\ multiplier_ratio Wi mu).
  { destruct (Req_dec Wi 0) as [->|N]; [exists 1; split; [unfold ratio_python; destruct (Req_EM_T 0 0); [reflexivity|contradiction]|]; unfold multiplier_ratio; split; lra|].
    destruct (F Wi N) as [x [y [z [H1 [H2 H3]]]]]. destruct (dumbbell_ratio_python roots Wi x y z H1 H2) as [_ [K _]]. destruct (K N H3) as [mu [K1 [K2 [K3 _]]]]. exists mu. split; [exact K1|]. split; [lra|exact K3]. }
  destruct M as [mu [M1 [M2 M3]]]. destruct (dumbbell_predictions Wi mu M2 M3) as [P _]. cbn [theory_curves]. rewrite M1, E. cbn [bind fst snd].
  eexists _, _. split; [reflexivity|]. cbn [map fst]. rewrite A, B. split; [reflexivity|]. split; [reflexivity|]. split; intros p [<-|I]; eauto.
Qed.
Lemma linspace_nth lo hi n i : (i < n)%nat -> nth_error (linspace lo hi n) i = Some (lo + INR i * ((hi - lo) / INR (n - 1))).
Proof. intros L. unfold linspace. rewrite nth_error_map. rewrite (nth_error_nth' _ 0%nat) by (rewrite seq_length; exact L). rewrite seq_nth by exact L. reflexivity. Qed.
Lemma sampled_of l lo hi n (f : R -> R -> Prop) : map fst l = linspace lo hi n -> (forall p, In p l -> f (fst p) (snd p)) -> sampled n lo hi f l.
Proof.
  intros E F. assert (L : length l = n) by (apply (f_equal (@length R)) in E; unfold linspace in E; rewrite !map_length, seq_length in E; exact E). split; [exact L|].
  intros i p H. assert (I : (i < n)%nat) by (rewrite <- L; apply nth_error_Some; congruence). split; [|apply F; eapply nth_error_In; exact H].
  assert (K : nth_error (map fst l) i = Some (fst p)) by (rewrite nth_error_map, H; reflexivity). rewrite E, linspace_nth in K by exact I. injection K as <-. unfold Rdiv. rewrite Rmult_assoc. reflexivity.
Qed.
Theorem dumbbell_curves : forall str str_int roots rs ms, real_first roots -> rs <> [] -> Forall2 measured rs ms ->
  exists c xs ys, bond_script str str_int roots (map RegularRun rs) = Ok (c, (xs, ys)) /\
    (forall n, exists l, in_order l (filter (fun m => String.eqb (title str str_int m) n) ms) /\
       curve c ("<x^2>" ++ n)%string = map (fun m => (m_Wi m, m_xx m)) l /\ curve c ("<y^2>" ++ n)%string = map (fun m => (m_Wi m, m_yy m)) l) /\
    exists lo hi, In lo (map m_Wi ms) /\ In hi (map m_Wi ms) /\ (forall m, In m ms -> lo <= m_Wi m <= hi) /\
      sampled 1000 lo hi (fun Wi xx => exists yy, components Wi xx yy) xs /\ sampled 1000 lo hi (fun Wi yy => exists xx, components Wi xx yy) ys.
Proof.
  intros str str_int roots rs ms F NE H. unfold bond_script. rewrite (read_measured rs ms [] H). cbn [bind].
  destruct (series_curves str str_int ms) as [c [E C]]. rewrite E. cbn [bind].
  assert (NM : ms <> []) by (intros ->; inversion H; congruence).
  destruct (sort_rows (fold_left appended ms [])) as [|first rest] eqn:Q.
  { exfalso. pose proof (rows_last str ms (0, []) NM) as [I _]. rewrite Q in I. cbn in I. destruct ms as [|m ms']; [congruence|].
    assert (J : In (m_Wi m) (map fst (sort_rows (fold_left appended (m :: ms') [])))) by (apply (Permutation_in _ (Permutation_sym (Permutation_map fst (sort_perm _)))), fold_keys; left; left; reflexivity).
    rewrite Q in J. destruct J. }
  destruct (rows_first str ms first rest Q) as [A1 A2]. destruct (rows_last str ms first NM) as [B1 B2]. rewrite Q in B1, B2.
  destruct (theory_samples roots (linspace (fst first) (fst (last (first :: rest) first)) 1000) F) as [xs [ys [T1 [T2 [T3 [T4 T5]]]]]].
  rewrite T1. cbn [bind]. exists c, xs, ys. split; [reflexivity|]. split.
  - intros n. exists (series str str_int ms n). split; [apply series_order|apply C].
  - exists (fst first), (fst (last (first :: rest) first)). split; [exact A1|]. split; [exact B1|]. split; [intros m I; split; [apply A2, I|apply B2, I]|].
    split; apply sampled_of; assumption.
Qed.
Print Assumptions dumbbell_curves.
(** Two runs under the same conditions, the faster one first. *)
Definition run_ex (rate xx : R) : regular := Regular (Ok xx) (Ok 1) "random" (Some 3) 2 rate None 0 (Err OSError) (Err OSError) (Err OSError) None.
Definition measurement_ex (rate xx : R) : measurement := Measurement (rate * 2) (3 / (3 * 3) * 1 * xx) (3 / (3 * 3) * 1 * 1) 3 "random" None.
Example dumbbell_curves_ex : Forall2 measured [run_ex 5 6; run_ex 1 4] [measurement_ex 5 6; measurement_ex 1 4] /\
  forall str str_int, title str str_int (measurement_ex 5 6) = title str str_int (measurement_ex 1 4) /\ in_order [measurement_ex 1 4; measurement_ex 5 6] [measurement_ex 5 6; measurement_ex 1 4].
Proof.
  assert (M : forall rate xx, measured (run_ex rate xx) (measurement_ex rate xx)) by (intros; exists xx, 1, 3; split; [repeat split|reflexivity]).
  split; [repeat constructor; apply M|]. intros str str_int. split; [reflexivity|]. split.
  - repeat constructor. cbn. lra.
  - intros w. cbn [filter]. unfold is_Wi. cbn [m_Wi measurement_ex]. destruct (Req_EM_T (1 * 2) w) as [A|A], (Req_EM_T (5 * 2) w) as [B|B]; try reflexivity. exfalso. lra.
Qed.

(** C100: the script fails for every run of the former format, although it has code to read them:
    with NameError, since two of the variables have no values, or, if the data files are missing,
    with ValueError, which is not among the exceptions handled. *)
Theorem dumbbell_former_refuted : forall str str_int roots rs ms r Wi l xx yy rest, Forall2 measured rs ms -> former_run r Wi l xx yy ->
  bond_script str str_int roots (map RegularRun rs ++ RegularRun r :: rest) = Err match r_xx r with Ok _ => NameError | Err _ => ValueError end.
Proof.
  intros str str_int roots rs ms r Wi l xx yy rest H [A [B [C D]]]. unfold bond_script. rewrite read_runs_app, (read_measured rs ms [] H). cbn [bind read_runs]. unfold readRegularData, read_locals, old_style.
  destruct A as [A|[[x [y [A1 A2]]] A3]]; [rewrite A; reflexivity|]. rewrite A1, A2, A3, B, C, D. reflexivity.
Qed.
Print Assumptions dumbbell_former_refuted.
Example dumbbell_former_ex : former_run (Regular (Ok 1) (Ok 1) "random" None 2 1 None 0 (Ok (2, 3)) (Ok 4) (Ok 1) None) 2 3 4 1 /\
  former_run (Regular (Err ValueError) (Err ValueError) "random" None 2 1 None 0 (Ok (2, 3)) (Ok 4) (Ok 1) None) 2 3 4 1.
Proof. split; (split; [|repeat split]); [right; split; [exists 1, 1; split; reflexivity|reflexivity]|left; reflexivity]. Qed.
(** C100: it also fails for all sets of runs with a quick one, since their points lack the entries
    that the title needs. *)
Theorem dumbbell_quick_refuted : forall str str_int roots runs q, In (QuickRun q) runs ->
  (forall d, In d runs -> match d with RegularRun r => exists m, measured r m | QuickRun q => quick_run q | NoRun => False end) ->
  bond_script str str_int roots runs = Err KeyError.
Proof.
  intros str str_int roots runs q I F. unfold bond_script. destruct (read_fine str runs [] F) as [t [E [_ Q]]]. rewrite E. cbn [bind].
  destruct (Q (ex_intro _ q I)) as [p [P1 P2]]. rewrite (add_rows_bad str str_int (sort_rows t) [] p); [reflexivity|apply sort_in, P1|]. unfold named, curve_name. rewrite P2. reflexivity.
Qed.
Print Assumptions dumbbell_quick_refuted.

(** What is read from a quick run, with a bond of length 3: its rate is in thousandths, and its values are the means over the snapshots, in units of l^2 / 3. *)
Theorem dumbbell_quick_point : forall q n data,
  (q_rate q = Some n -> q_xx q <> [] -> q_yy q <> [] -> exists p, readQuickAndDirtyGPUData q data = Ok (append_point (n / 1000 * 26.8164398539) p data) /\
     p_xx p = fold_right Rplus 0 (q_xx q) / INR (length (q_xx q)) / 3 /\ p_yy p = fold_right Rplus 0 (q_yy q) / INR (length (q_yy q)) / 3 /\ p_l p = 3 /\ p_initial p = "random" /\ p_streaming p = None) /\
  (q_rate q = None -> readQuickAndDirtyGPUData q data = Err NameError) /\
  (q_rate q <> None -> q_xx q = [] \/ q_yy q = [] -> readQuickAndDirtyGPUData q data = Err ZeroDivisionError).
Proof.
  assert (FL : forall l a, fold_left Rplus l a = a + fold_right Rplus 0 l).
  { induction l as [|x l IH]; intros a; cbn [fold_left fold_right]; [lra|]. rewrite IH. lra. }
  assert (M : forall l, l <> [] -> mean_of l = Ok (fold_right Rplus 0 l / INR (length l))).
  { intros l N. unfold mean_of. rewrite FL, Rplus_0_l. destruct l; [congruence|reflexivity]. }
  intros q n data. unfold readQuickAndDirtyGPUData. split; [|split].
  - intros -> X Y. cbv zeta. rewrite (M _ X), (M _ Y). cbn [bind]. replace (n / 1000.0) with (n / 1000) by (decimals; lra).
    eexists. split; [reflexivity|]. cbn [p_xx p_yy p_l p_initial p_streaming]. split; [decimals; lra|]. split; [decimals; lra|]. repeat split.
  - intros ->. reflexivity.
  - intros N H. destruct (q_rate q) as [r|]; [|congruence]. cbv zeta. destruct (q_xx q) as [|x xs]; [reflexivity|]. destruct H as [H| ->]; [discriminate|]. rewrite M by discriminate. reflexivity.
Qed.
Print Assumptions dumbbell_quick_point.
Example dumbbell_quick_ex : quick_run (Quick (Some 5) [1; 2] [1; 1]).
Proof. repeat split; discriminate. Qed.
