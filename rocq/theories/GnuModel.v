(** Scripts that send gnuplot a command with its data: Analysis/{compareSelfDiffusionCoefficientMeasurementTimes,plotMeanSquareBondLengths,plotDumbbellAlignment,plotDumbbellXYCorrelation}.py.
    Simplifications: exact arithmetic; [sqrt], printing and reading numbers, and the ratio of Lagrangian multipliers (modelled in DumModel.v) are parameters; configuration files can be read and
    have the settings that are asked for, except where the scripts check this; dictionaries keep the order of insertion, as the scripts' do or as they are sorted; only the text that gnuplot is sent is modelled. *)
From Coq Require Import String Ascii.
From Verif Require Import QcBase PyBase StrBase DictBase VtfModel VtfPyModel EmpModel Data2DModel PtsModel.
Open Scope string_scope.
Open Scope list_scope.
Open Scope Qc_scope.

(** The end of a line, "\n" (plotMeanSquareBondLengths.py l.46). *)
Definition eol : string := String "010" "".
(** Exceptions as the interpreter sees them; [NoEntry] is an [IOError] (EmpiricalDistribution.py l.7-8). *)
Definition raised {A} (o : EmpModel.outcome A) : result A :=
  match o with Done a => Ok a | Failed NoEntry => Err OSError | Failed (Failure e) => Err e end.

(** ** Curves by a first key, points by a second key *)
Section Tables.
Variables (K V : Type) (keqb : K -> K -> bool).
(** compareSelfDiffusionCoefficientMeasurementTimes.py l.24-32, plotMeanSquareBondLengths.py l.38-43: a point is set. *)
Definition put (data : list (K * list (K * V))) (curve x : K) (v : V) : list (K * list (K * V)) :=
  let data := match dget keqb data curve with None => dset keqb data curve [] | Some _ => data end in
  match dget keqb data curve with
  | Some points => dset keqb data curve (dset keqb points x v)
  | None => data
  end.
(** compareSelfDiffusionCoefficientMeasurementTimes.py l.50-58, plotMeanSquareBondLengths.py l.50-58: the loop over the curves, with the variable [first]. *)
Fixpoint plot_items (item : K -> string) (first : bool) (command : string) (curves : list (K * list (K * V))) : string :=
  match curves with
  | [] => command
  | (k, _) :: r => plot_items item false (command ++ (if first then "plot " else ", ") ++ item k)%string r
  end.
(** compareSelfDiffusionCoefficientMeasurementTimes.py l.41-42, plotMeanSquareBondLengths.py l.67-68: the rows of a curve. *)
Definition rows_text (row : K -> V -> string) (points : list (K * V)) : string :=
  fold_left (fun text p => (text ++ row (fst p) (snd p) ++ eol)%string) points "".
(** compareSelfDiffusionCoefficientMeasurementTimes.py l.61-63, plotMeanSquareBondLengths.py l.66-70: the data of all curves. *)
Definition blocks_text (row : K -> V -> string) (curves : list (K * list (K * V))) : string :=
  fold_left (fun text c => (text ++ rows_text row (snd c) ++ "e" ++ eol)%string) curves "".
End Tables.
Arguments put {K V} keqb _ _ _ _.
Arguments plot_items {K V} item first command curves.
Arguments rows_text {K V} row points.
Arguments blocks_text {K V} row curves.

Section Gnu.
(** The files (Utilities.py l.31-51, StaticData.py l.5); [math.sqrt] (plotMeanSquareBondLengths.py l.43), [str] (l.68), [float] (Utilities.py l.88-90). *)
Variable fs : filesystem.
Variable sqrt : Qc -> Qc.
Variable str : Qc -> string.
Variable float : string -> option Qc.

Section Keys.
(** Settings, compared and printed as Python does, and the one of the given name in a run's configuration (plotMeanSquareBondLengths.py l.29-33). *)
Variable K : Type.
Variable keqb : K -> K -> bool.
Variable str_key : K -> string.
Variable value : string -> string -> K.

(** ** compareSelfDiffusionCoefficientMeasurementTimes.py *)

(** compareSelfDiffusionCoefficientMeasurementTimes.py l.15-34: the loop over the runs. *)
Fixpoint compare_loop (rundirs : list string) (points : list (K * list (K * (Qc * Qc)))) : result (list (K * list (K * (Qc * Qc)))) :=
  match rundirs with
  | [] => Ok points
  | rundir :: r =>
    let measurementTime := value rundir "instrumentation.selfDiffusionCoefficient.measurementTime" in
    let shearRate := value rundir "boundaryConditions.shearRate" in
    do data <- raised (readValuePairsFromFile float fs (rundir ++ "/selfDiffusionCoefficient.data")%string None);
    do mean <- getArithmeticMean (Points data []);
    do deviation <- getRootMeanSquaredDeviationFromArithmeticMean sqrt (Points data []);
    compare_loop r (put keqb points measurementTime shearRate (mean, deviation))
  end.
(** compareSelfDiffusionCoefficientMeasurementTimes.py l.42. *)
Definition compare_row (shearRate : K) (values : Qc * Qc) : string := (str_key shearRate ++ " " ++ str (fst values) ++ " " ++ str (snd values))%string.
(** compareSelfDiffusionCoefficientMeasurementTimes.py l.58. *)
Definition compare_item (measurementTime : K) : string := ("'-' using 1:2:3 with yerrorbars title '" ++ str_key measurementTime ++ "'")%string.
(** compareSelfDiffusionCoefficientMeasurementTimes.py l.10-69: what gnuplot is sent; [None] if only the usage is printed. *)
Definition compare_script (args : list string) : result (option string) :=
  match args with
  | [] => Ok None
  | _ =>
    do points <- compare_loop args [];
    let command := ("set terminal wxt persist" ++ eol ++ "set xlabel 'shear rate'" ++ eol ++ "set ylabel 'self-diffusion coefficient'" ++ eol)%string in
    let command := plot_items compare_item true command points in
    Ok (Some (command ++ eol ++ blocks_text compare_row points)%string)
  end.

(** ** plotMeanSquareBondLengths.py *)

(** plotMeanSquareBondLengths.py l.25-43: the loop over the runs. *)
Fixpoint lengths_loop (rundirs : list string) (data : list (K * list (K * Qc))) : result (list (K * list (K * Qc))) :=
  match rundirs with
  | [] => Ok data
  | rundir :: r =>
    let shearRate := value rundir "boundaryConditions.shearRate" in
    let springConstant := value rundir "mpc.fluid.harmonicTrimers.springConstant1" in
    let springConstant2 := value rundir "mpc.fluid.harmonicTrimers.springConstant2" in
    if negb (keqb springConstant springConstant2) then Err ValueError else
    do rr <- raised (readValuePairsFromFile float fs (rundir ++ "/harmonicTrimers/bond1/lengthSquaredHistogram.data")%string None);
    do mean <- sample_mean rr;
    if qltb mean 0 then Err ValueError else
    lengths_loop r (put keqb data springConstant shearRate (sqrt mean))
  end.
(** plotMeanSquareBondLengths.py l.68. *)
Definition length_row (shearRate : K) (rmsLength : Qc) : string := (str_key shearRate ++ " " ++ str rmsLength)%string.
(** plotMeanSquareBondLengths.py l.58. *)
Definition length_item (springConstant : K) : string := ("'-' with linespoints title 'Data k=" ++ str_key springConstant ++ "'")%string.
(** plotMeanSquareBondLengths.py l.60-61. *)
Definition theory_items (command : string) (theoryCurves : list (string * string)) : string :=
  fold_left (fun command c => (command ++ ", '-' with lines title 'Theory k=" ++ fst c ++ "'")%string) theoryCurves command.
(** plotMeanSquareBondLengths.py l.72-75: the loop over the theory's files. *)
Fixpoint theory_blocks (gnuplotData : string) (theoryCurves : list (string * string)) : result string :=
  match theoryCurves with
  | [] => Ok gnuplotData
  | (_, filename) :: r =>
    match fs filename with
    | None => Err OSError
    | Some text => theory_blocks (gnuplotData ++ text ++ "e" ++ eol)%string r
    end
  end.
(** "--theory=" (plotMeanSquareBondLengths.py l.18-19). *)
Definition theory_flag : string := "--theory=".
(** plotMeanSquareBondLengths.py l.15-23: the theory and the runs that the arguments ask for. *)
Definition length_arguments (args : list string) : result (list (string * string) * list string) :=
  match args with
  | arg :: r =>
    if String.prefix theory_flag arg then
      match StrBase.split "," (String.substring (String.length theory_flag) (String.length arg - String.length theory_flag) arg) with
      | [springConstant; filename] => Ok ([(springConstant, filename)], r)
      | _ => Err ValueError
      end
    else Ok ([], args)
  | [] => Ok ([], [])
  end.
(** plotMeanSquareBondLengths.py l.11-82: what gnuplot is sent; [None] if only the usage is printed. *)
Definition length_script (args : list string) : result (option string) :=
  match args with
  | [] => Ok None
  | _ =>
    do ta <- length_arguments args;
    let (theoryCurves, rundirs) := ta in
    do data <- lengths_loop rundirs [];
    let command := ("set terminal wxt persist" ++ eol ++ "set xlabel 'Shear Rate'" ++ eol ++ "set ylabel 'Root Mean Square Bond Length'" ++ eol)%string in
    let command := plot_items length_item true command data in
    let command := (theory_items command theoryCurves ++ eol)%string in
    do gnuplotData <- theory_blocks (blocks_text length_row data) theoryCurves;
    Ok (Some (command ++ gnuplotData)%string)
  end.
End Keys.

(** ** plotDumbbellAlignment.py and plotDumbbellXYCorrelation.py *)

(** The settings, with whether they are there (plotDumbbellAlignment.py l.23-25), and [getLagrangianMultiplicatorRatioFromWeissenbergNumber] (l.57). *)
Variable setting : string -> string -> Qc * bool.
Variable ratio : Qc -> result Qc.
(** StaticData.py l.2-7. *)
Definition static_data (rundir : string) : result (list (string * Qc)) :=
  match fs (rundir ++ "/static_data.txt")%string with Some text => static_read float text | None => Err OSError end.
(** plotDumbbellAlignment.py l.21-32. *)
Definition weissenberg (rundir : string) : result Qc :=
  let tau_0 := setting rundir "mpc.fluid.dumbbell.zeroShearRelaxationTime" in
  if snd tau_0 then Ok (fst (setting rundir "boundaryConditions.shearRate") * fst tau_0)
  else do staticData <- static_data rundir; static_get staticData "weissenbergNumber".
(** plotDumbbellAlignment.py l.18-42: the loop over the runs. *)
Fixpoint alignment_loop (rundirs : list string) (data : list (Qc * Qc)) : result (list (Qc * Qc)) :=
  match rundirs with
  | [] => Ok data
  | rundir :: r =>
    do Wi <- weissenberg rundir;
    if has_key data Wi then Err RuntimeError else
    do align <- raised (alignment float fs rundir);
    do tmp <- getTan2Chi align;
    let tmp := if qltb tmp 0 then tmp * - (1) else tmp in
    alignment_loop r (dset qeqb data Wi tmp)
  end.
(** plotDumbbellAlignment.py l.46-47, plotDumbbellXYCorrelation.py l.32-33: a line per value. *)
Definition values_text (data : list (Qc * Qc)) : string :=
  fold_left (fun text p => (text ++ str (fst p) ++ String "009" "" ++ str (snd p) ++ eol)%string) (sort_pairs data) "".
(** [numpy.linspace] as called in plotDumbbellAlignment.py l.56 and plotDumbbellXYCorrelation.py l.43. *)
Definition linspace (first last : Qc) (steps : nat) : list Qc := map (fun i => first + qn i * ((last - first) / qn (steps - 1))) (seq 0 steps).
(** The loops plotDumbbellAlignment.py l.56-59, plotDumbbellXYCorrelation.py l.43-46; the function prints a prediction. *)
Fixpoint theory_text (prediction : Qc -> Qc -> string) (Wis : list Qc) (text : string) : result string :=
  match Wis with
  | [] => Ok text
  | Wi :: r => do mu <- ratio Wi; theory_text prediction r (text ++ str Wi ++ String "009" "" ++ prediction Wi mu ++ eol)%string
  end.
(** plotDumbbellAlignment.py l.51-59, plotDumbbellXYCorrelation.py l.38-46: the theory between the smallest and the largest Weissenberg number. *)
Definition theory_between (prediction : Qc -> Qc -> string) (data : list (Qc * Qc)) : result string :=
  match sort_pairs data with
  | [] => Err IndexError
  | p :: l => theory_text prediction (linspace (fst p) (fst (last (p :: l) p)) 100) ""
  end.
(** plotDumbbellAlignment.py l.58; the argument is a number of numpy, with which a division by zero gives infinity. *)
Definition tan_prediction (Wi mu : Qc) : string := if qeqb Wi 0 then "inf" else str (qz 2 * mu / Wi).
(** plotDumbbellAlignment.py l.12-77. *)
Definition alignment_script (args : list string) : result (option string) :=
  match args with
  | [] => Ok None
  | _ =>
    do data <- alignment_loop args [];
    let gnuplotData := values_text data in
    do gnuplotTheory <- theory_between tan_prediction data;
    let command := ("set terminal wxt persist" ++ eol ++ "set log" ++ eol ++ "set xlabel 'Wi'" ++ eol ++ "set ylabel 'abs(tan(2 chi))'" ++ eol)%string in
    let command := (command ++ "plot '-' with linespoints title 'Data', " ++ "'-' with lines title 'Theory'" ++ eol)%string in
    Ok (Some (command ++ gnuplotData ++ "e" ++ eol ++ gnuplotTheory ++ "e")%string)
  end.
(** plotDumbbellXYCorrelation.py l.17-26: the loop over the runs, with the last static data. *)
Fixpoint xy_loop (rundirs : list string) (static : list (string * Qc)) (data : list (Qc * Qc)) : result (list (string * Qc) * list (Qc * Qc)) :=
  match rundirs with
  | [] => Ok (static, data)
  | rundir :: r =>
    do staticData <- static_data rundir;
    do Wi <- static_get staticData "weissenbergNumber";
    if has_key data Wi then Err RuntimeError else
    do xy <- raised (readValuePairsFromFile float fs (rundir ++ "/dumbbellBondXYHistogram.gnuplot")%string None);
    do mean <- sample_mean xy;
    xy_loop r staticData (dset qeqb data Wi mean)
  end.
(** plotDumbbellXYCorrelation.py l.11-61. *)
Definition xy_script (args : list string) : result (option string) :=
  match args with
  | [] => Ok None
  | _ =>
    do sd <- xy_loop args [] [];
    let (staticData, data) := sd in
    do l <- static_get staticData "dumbbellEquilibriumLength";
    if qeqb (l * l) 0 then Err ZeroDivisionError else
    let lambda_0 := qz 3 / qz 2 / (l * l) in
    let gnuplotData := values_text data in
    do gnuplotTheory <- theory_between (fun Wi mu => str (Wi / (qz 4 * mu * mu * lambda_0))) data;
    let command := ("set terminal wxt persist" ++ eol ++ "set log x" ++ eol ++ "set xlabel 'Wi'" ++ eol ++ "set ylabel '<Rx Ry>'" ++ eol)%string in
    Ok (Some (command ++ "plot '-' with linespoints notitle " ++ eol ++ gnuplotData ++ "e")%string)
  end.
End Gnu.
