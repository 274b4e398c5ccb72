(** Model of the predictions for Gaussian dumbbells, and of the script
    Analysis/plotMeanSquareBondComponents.py, which compares them to the results of runs.
    Real numbers stand for floating-point numbers.  What the script reads from files is given: the
    averages of the data files and histograms, the settings, the static data.  How numbers are
    printed is given by a function.  Only the data handed to gnuplot is modelled. *)
From Coq Require Import String.
From Verif Require Import PyBase InitModel.
From Coq Require Import Reals ZArith List Bool.
Import ListNotations.
Open Scope string_scope.
Open Scope list_scope.
Open Scope R_scope.

(** ** src/OpenMPCD/AnalyticQuantitiesGaussianDumbbell.cpp *)

(** include/OpenMPCD/AnalyticQuantitiesGaussianDumbbell.hpp l.31-34. *)
Definition zeroShearLagrangianMultiplier (l : R) : R := 1.5 / (l * l).
(** src/OpenMPCD/AnalyticQuantitiesGaussianDumbbell.cpp l.12-19; [cubic_root] is the root that the
    GNU Scientific Library computes. *)
Definition lagrangianMultiplier (cubic_root : R -> R -> R -> R) (l shearRate zeroShearRelaxationTime : R) : R :=
  let lambda_0 := zeroShearLagrangianMultiplier l in
  let mu := lagrangianMultiplierRatio cubic_root (weissenbergNumber shearRate zeroShearRelaxationTime) in
  lambda_0 * mu.
(** src/OpenMPCD/AnalyticQuantitiesGaussianDumbbell.cpp l.21-32. *)
Definition zeroShearRelaxationTime (l D R_H : R) : R :=
  let denominator1 := 6 * D in
  let denominator2 := 1 - R_H / l * sqrt (6 / PI) in
  l * l / (denominator1 * denominator2).

(** ** Analysis/MPCDAnalysis/DumbbellUtilities.py *)

(** DumbbellUtilities.py l.15: numpy.isreal. *)
Definition isreal (z : R * R) : bool := if Req_EM_T (snd z) 0 then true else false.
(** DumbbellUtilities.py l.4-18: getLagrangianMultiplicatorRatioFromWeissenbergNumber; [roots] is
    numpy.roots, for the coefficients after the first, which is 1. *)
Definition ratio_python (roots : R -> R -> R -> list (R * R)) (Wi : R) : result R :=
  if Req_EM_T Wi 0 then Ok 1
  else
    let r := roots (-1) 0 (- Wi * Wi / 6.0) in
    if negb (Nat.eqb (length r) 3) then Err RuntimeError
    else if negb match map isreal r with [true; false; false] => true | _ => false end then Err RuntimeError
    else match r with z :: _ => Ok (fst z) | [] => Err IndexError end.

(** ** The theoretical curves *)

(** plotMeanSquareBondComponents.py l.208. *)
Definition prediction_xx (Wi mu : R) : R := 1.0 / mu * (1 + Wi * Wi / (2.0 * mu * mu)).
(** plotMeanSquareBondComponents.py l.209. *)
Definition prediction_yy (mu : R) : R := 1.0 / mu.
(** plotDumbbellXYCorrelation.py l.30, 45. *)
Definition prediction_xy (l Wi mu : R) : R := let lambda_0 := 1.5 / (l * l) in Wi / (4 * mu * mu * lambda_0).
(** plotDumbbellAlignment.py l.58. *)
Definition prediction_tan (Wi mu : R) : R := 2.0 * mu / Wi.
(** numpy.linspace as called in plotMeanSquareBondComponents.py l.206, for more than one point. *)
Definition linspace (first last : R) (steps : nat) : list R :=
  map (fun i => first + INR i * ((last - first) / INR (steps - 1))) (seq 0 steps).
(** plotMeanSquareBondComponents.py l.204-211: the two curves. *)
Fixpoint theory_curves (roots : R -> R -> R -> list (R * R)) (Wis : list R) : result (list (R * R) * list (R * R)) :=
  match Wis with
  | [] => Ok ([], [])
  | Wi :: Wis =>
    do mu <- ratio_python roots Wi;
    do r <- theory_curves roots Wis;
    Ok ((Wi, prediction_xx Wi mu) :: fst r, (Wi, prediction_yy mu) :: snd r)
  end.

(** ** Analysis/plotMeanSquareBondComponents.py *)

(** What the script finds in a directory with config.txt (plotMeanSquareBondComponents.py l.22-103):
    the averages of dumbbellAverageBondXXVSTime.data and -YYVSTime.data (l.30-34), the settings (l.40-58, where [None]
    is one that is missing), the static data (l.61-64), the means of the histograms (l.68-72), and
    the first line of git-revision (l.76). *)
Record regular := Regular {
  r_xx : result R; r_yy : result R;
  r_positions : string; r_length : option R; r_tau : R; r_rate : R; r_streaming : option bool; r_steps : Z;
  r_static : result (R * R); r_hist_xx : result R; r_hist_yy : result R;
  r_revision : option string }.
(** What it finds in a directory with run.sh only (plotMeanSquareBondComponents.py l.107-154): the number in the line
    with mpc_cuda_hybrid, and the values in stdout.log. *)
Record quick := Quick { q_rate : option R; q_xx : list R; q_yy : list R }.
(** A directory (plotMeanSquareBondComponents.py l.23, 108, 177). *)
Inductive rundir := RegularRun (r : regular) | QuickRun (q : quick) | NoRun.
(** A point (plotMeanSquareBondComponents.py l.93-101, 146-152); the last two entries of the
    dictionary are missing for quick runs. *)
Record point := Point { p_xx : R; p_yy : R; p_l : R; p_initial : string; p_streaming : option (bool * Z) }.
(** The dictionary [data] (plotMeanSquareBondComponents.py l.160). *)
Definition table := list (R * list point).
(** plotMeanSquareBondComponents.py l.90-93: appending a point. *)
Fixpoint append_point (Wi : R) (p : point) (data : table) : table :=
  match data with
  | [] => [(Wi, [p])]
  | (k, ps) :: r => if Req_EM_T k Wi then (k, ps ++ [p]) :: r else (k, ps) :: append_point Wi p r
  end.
(** The variables after the try statement in plotMeanSquareBondComponents.py l.29-72; the one for
    analyticalStreaming and mdStepCount is unbound after l.60-72. *)
Record locals := Locals { v_Wi : R; v_l : R; v_xx : R; v_yy : R; v_initial : string; v_streaming : option (bool * Z) }.
(** plotMeanSquareBondComponents.py l.60-72: the handler. *)
Definition old_style (r : regular) : result locals :=
  do s <- r_static r;
  do xx <- r_hist_xx r;
  do yy <- r_hist_yy r;
  Ok (Locals (fst s) (snd s) xx yy "relaxed" None).
(** plotMeanSquareBondComponents.py l.29-72.  The handler is for IOError and OSError, which are
    the same here, and OldStyleConfig. *)
Definition read_locals (r : regular) : result locals :=
  match (do xx <- r_xx r; do yy <- r_yy r; Ok (xx, yy)) with
  | Err OSError => old_style r
  | Err e => Err e
  | Ok (xx, yy) =>
    match r_length r with
    | None => old_style r
    | Some l =>
      let Wi := r_rate r * r_tau r in
      let streaming := match r_streaming r with
        | Some true => (true, 0%Z)
        | Some false => (false, r_steps r)
        | None => (true, 0%Z)
        end in
      Ok (Locals Wi l xx yy (r_positions r) (Some streaming))
    end
  end.
(** plotMeanSquareBondComponents.py l.77: the revision with a mistake. *)
Definition bad_revision : string := "c80019d3fd5b78b760eba9b021ec3d200f0440f7".
(** plotMeanSquareBondComponents.py l.22-103: readRegularData, for a directory with config.txt. *)
Definition readRegularData (r : regular) (data : table) : result table :=
  do v <- read_locals r;
  let factor := match r_revision r with Some s => if String.eqb s bad_revision then 2 else 1 | None => 1 end in
  let yscale := 3.0 / (v_l v * v_l v) in
  match v_streaming v with
  | None => Err NameError
  | Some s => Ok (append_point (v_Wi v) (Point (v_xx v * factor * yscale) (v_yy v * factor * yscale) (v_l v) (v_initial v) (Some s)) data)
  end.
(** plotMeanSquareBondComponents.py l.139: the mean of the first values. *)
Definition mean_of (l : list R) : result R := if Nat.eqb (length l) 0 then Err ZeroDivisionError else Ok (fold_left Rplus l 0 / INR (length l)).
(** plotMeanSquareBondComponents.py l.107-154: readQuickAndDirtyGPUData, for a directory with
    run.sh; [q_xx] and [q_yy] are the values collected in l.128-137. *)
Definition readQuickAndDirtyGPUData (q : quick) (data : table) : result table :=
  match q_rate q with
  | None => Err NameError
  | Some n =>
    let shearRate := n / 1000.0 in
    let tau_0 := 26.8164398539 in
    let Wi := shearRate * tau_0 in
    let l := 3 in
    do xx <- mean_of (q_xx q);
    do yy <- mean_of (q_yy q);
    let yscale := 3.0 / (l * l) in
    Ok (append_point Wi (Point (xx * yscale) (yy * yscale) l "random" None) data)
  end.
(** plotMeanSquareBondComponents.py l.172-177: the loop over the directories. *)
Fixpoint read_runs (runs : list rundir) (data : table) : result table :=
  match runs with
  | [] => Ok data
  | d :: runs =>
    do data <- match d with RegularRun r => readRegularData r data | QuickRun q => readQuickAndDirtyGPUData q data | NoRun => Err PyException end;
    read_runs runs data
  end.
(** sorted(data.items()) in plotMeanSquareBondComponents.py l.181; keys are different. *)
Fixpoint insert_row (p : R * list point) (l : table) : table :=
  match l with
  | [] => [p]
  | q :: r => if Rlt_dec (fst p) (fst q) then p :: q :: r else q :: insert_row p r
  end.
(** plotMeanSquareBondComponents.py l.181. *)
Definition sort_rows (l : table) : table := fold_right insert_row [] l.

Section Curves.
(** How numbers are printed (plotMeanSquareBondComponents.py l.183, 188). *)
Variable str : R -> string.
Variable str_int : Z -> string.
(** plotMeanSquareBondComponents.py l.183-188: the name of the curve. *)
Definition curve_name (p : point) : result string :=
  match p_streaming p with
  | None => Err KeyError
  | Some (analyticalStreaming, mdStepCount) =>
    let curveName := (", l=" ++ str (p_l p) ++ ", " ++ p_initial p)%string in
    Ok (if analyticalStreaming then curveName ++ ", AS" else curveName ++ ", MD " ++ str_int mdStepCount ++ " steps")%string
  end.
(** The dictionary gnuplotData (plotMeanSquareBondComponents.py l.180). *)
Definition curves := list (string * list (R * R)).
(** plotMeanSquareBondComponents.py l.196-197: a line is added to a curve. *)
Fixpoint add_line (name : string) (x : R * R) (c : curves) : curves :=
  match c with
  | [] => []
  | (k, l) :: r => if String.eqb k name then (k, l ++ [x]) :: r else (k, l) :: add_line name x r
  end.
(** plotMeanSquareBondComponents.py l.183-197: a point is added to its two curves. *)
Definition add_point (Wi : R) (p : point) (c : curves) : result curves :=
  do name <- curve_name p;
  let nameXX := ("<x^2>" ++ name)%string in
  let nameYY := ("<y^2>" ++ name)%string in
  let c := if existsb (fun q => String.eqb (fst q) nameXX) c then c else c ++ [(nameXX, []); (nameYY, [])] in
  Ok (add_line nameYY (Wi, p_yy p) (add_line nameXX (Wi, p_xx p) c)).
(** plotMeanSquareBondComponents.py l.182-197: the points with a Weissenberg number. *)
Fixpoint add_points (Wi : R) (ps : list point) (c : curves) : result curves :=
  match ps with [] => Ok c | p :: ps => do c <- add_point Wi p c; add_points Wi ps c end.
(** plotMeanSquareBondComponents.py l.181-197: the rows in order. *)
Fixpoint add_rows (t : table) (c : curves) : result curves :=
  match t with [] => Ok c | (Wi, ps) :: t => do c <- add_points Wi ps c; add_rows t c end.
(** plotMeanSquareBondComponents.py l.172-211: the curves of the data, and those of the theory. *)
Definition bond_script (roots : R -> R -> R -> list (R * R)) (runs : list rundir) : result (curves * (list (R * R) * list (R * R))) :=
  do data <- read_runs runs [];
  let rows := sort_rows data in
  do c <- add_rows rows [];
  match rows with
  | [] => Err IndexError
  | first :: _ =>
    do t <- theory_curves roots (linspace (fst first) (fst (last rows first)) 1000);
    Ok (c, t)
  end.
End Curves.
