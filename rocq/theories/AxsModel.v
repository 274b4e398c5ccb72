(** Model of the plots of statistics: [getMPLAxes] in
    Analysis/MPCDAnalysis/{OnTheFlyStatisticsCollection,OnTheFlyStatisticsDDDA,Autocorrelation,LogicalEntityMeanSquareDisplacement,NormalModeAutocorrelation}.py.
    Simplifications: exact numbers; keys of a collection are numbers; of matplotlib only the points, the error bars and the bounds of shaded
    regions are modelled, and that lists of different lengths raise a [ValueError]; labels are left out. *)
From Coq Require Import String List ZArith Reals Qreals Bool.
From Verif Require Import QcBase PyBase DictBase OtfsModel DddaModel AutocorrModel Data2DModel MsdModel NmModel.
Import ListNotations.
Open Scope string_scope.
Open Scope list_scope.
Open Scope Qc_scope.

(** Exact numbers as real numbers, of which roots are taken (OnTheFlyStatistics.py l.179). *)
Definition toR (x : Qc) : R := Q2R (this x).
(** OnTheFlyStatistics.py l.167-179. *)
Definition standardDeviation (s : otfs) : result R := do v <- getSampleVariance s; Ok (sqrt (toR v)).
(** OnTheFlyStatistics.py l.182-189. *)
Definition standardError (s : otfs) : result R := do d <- standardDeviation s; Ok (d / sqrt (INR (getSampleSize s)))%R.

(** * Collections *)

(** An argument that is a [bool], a [float], or of another type, e.g. an integer (OnTheFlyStatisticsCollection.py l.154-168). *)
Inductive show := ShowBool (b : bool) | ShowFloat (x : Qc) | ShowOther.
(** OnTheFlyStatisticsCollection.py l.154-160 and l.162-168. *)
Definition check_show (s : show) : result unit :=
  match s with
  | ShowOther => Err TypeError
  | ShowBool _ => Ok tt
  | ShowFloat x => if qleb x 0 then Err ValueError else if qltb 1 x then Err ValueError else Ok tt
  end.
(** The truth value, and whether it is unequal to [False] (OnTheFlyStatisticsCollection.py l.182, 206, 224, 235). *)
Definition shown (s : show) : bool :=
  match s with ShowBool b => b | ShowFloat x => negb (qeqb x 0) | ShowOther => true end.
(** Whether it is of type [bool] and true (OnTheFlyStatisticsCollection.py l.170-172, 244-248). *)
Definition is_true (s : show) : bool := match s with ShowBool b => b | _ => false end.
(** [x in l] for strings (OnTheFlyStatisticsCollection.py l.177, 183, 212, 218). *)
Definition is_in (x : string) (l : list string) : bool := existsb (String.eqb x) l.

(** What is drawn, and the keys in the warning that is printed (OnTheFlyStatisticsCollection.py l.214-217, 251-269). *)
Record picture := mk_picture {
  pi_line : list (Qc * Qc);
  pi_bars : option (list R);
  pi_bands : list (list (R * R) * Qc);
  pi_warning : option (list Qc) }.

(** OnTheFlyStatisticsCollection.py l.195-204: [values] and [singularSampleKeys]. *)
Fixpoint means_loop (discard : bool) (data : list (Qc * otfs)) : result (list Qc * list Qc) :=
  match data with
  | [] => Ok ([], [])
  | (key, value) :: r =>
    if Nat.eqb (getSampleSize value) 0 then Err AssertionError
    else if Nat.eqb (getSampleSize value) 1 && discard then
      do p <- means_loop discard r; let (values, singular) := p in Ok (values, key :: singular)
    else
      do m <- getSampleMean value;
      do p <- means_loop discard r;
      let (values, singular) := p in
      Ok (m :: values, if Nat.eqb (getSampleSize value) 1 then key :: singular else singular)
  end.
(** OnTheFlyStatisticsCollection.py l.219-220. *)
Fixpoint del_loop (data : list (Qc * otfs)) (singular : list Qc) : list (Qc * otfs) :=
  match singular with [] => data | key :: r => del_loop (ddel qeqb data key) r end.
(** OnTheFlyStatisticsCollection.py l.225-232 and l.236-241. *)
Fixpoint errors_loop (error : otfs -> result R) (data : list (Qc * otfs)) : result (list R) :=
  match data with
  | [] => Ok []
  | (_, value) :: r =>
    if Nat.eqb (getSampleSize value) 1 then do es <- errors_loop error r; Ok (0%R :: es)
    else do e <- error value; do es <- errors_loop error r; Ok (e :: es)
  end.
(** The bounds of a shaded region (OnTheFlyStatisticsCollection.py l.253-269). *)
Definition band (s : show) (values : list Qc) (errors : list R) : list (list (R * R) * Qc) :=
  match s with
  | ShowFloat alpha => [(map (fun p => (toR (fst p) - snd p, toR (fst p) + snd p)%R) (combine values errors), alpha)]
  | _ => []
  end.
(** OnTheFlyStatisticsCollection.py l.107-271.  [plotEveryNth] is not used. *)
Definition getMPLAxes (c : list (Qc * otfs)) (showSE showSD : show) (treatment : string) (plotEveryNth : Z) : result picture :=
  do _ <- check_show showSE;
  do _ <- check_show showSD;
  if is_true showSE && is_true showSD then Err ValueError else
  if negb (is_in treatment ["raise"; "discard"; "warn"; "warnAndDiscard"]) then Err ValueError else
  let any := shown showSE || shown showSD in
  let discard := any && is_in treatment ["discard"; "warnAndDiscard"] in
  let data := getOrderedData c in
  do p <- means_loop discard data;
  let (values, singular) := p in
  if any && (String.eqb treatment "raise" && negb (Nat.eqb (length singular) 0)) then Err RuntimeError else
  let warning := if any && (is_in treatment ["warn"; "warnAndDiscard"] && negb (Nat.eqb (length singular) 0)) then Some singular else None in
  let data := if discard then del_loop data singular else data in
  do es <- (if shown showSE then errors_loop standardError data else Ok []);
  do ds <- (if shown showSD then errors_loop standardDeviation data else Ok []);
  let bars := if is_true showSE then Some es else None in
  let bars := if is_true showSD then Some ds else bars in
  if negb (Nat.eqb (length data) (length values)) then Err ValueError else
  Ok (mk_picture (combine (map fst data) values) bars (band showSE values es ++ band showSD values ds) warning).

(** * Accumulators *)

(** A curve with optional error bars (OnTheFlyStatisticsDDDA.py l.519, Autocorrelation.py l.214). *)
Record curve X Y := mk_curve { cu_points : list (X * Y); cu_bars : option (list R) }.
Arguments mk_curve {X Y} _ _.
Arguments cu_points {X Y} _.
Arguments cu_bars {X Y} _.

(** OnTheFlyStatisticsDDDA.py l.243-265. *)
Definition blockStandardError (d : ddda) (i : nat) : result R :=
  if Nat.ltb (maxBlockID d) i then Err ValueError else
  do h <- hasBlockVariance d i;
  if negb h then Err RuntimeError else standardError (block d i).
(** OnTheFlyStatisticsDDDA.py l.269-302. *)
Definition blockStandardErrorDeviation (d : ddda) (i : nat) : result R :=
  if Nat.ltb (maxBlockID d) i then Err ValueError else
  do h <- hasBlockVariance d i;
  if negb h then Err RuntimeError else
  do se <- blockStandardError d i;
  Ok (se / sqrt (2 * INR (getSampleSize (block d i))))%R.
(** OnTheFlyStatisticsDDDA.py l.502-507 and l.514-517: the loops over the blocks. *)
Fixpoint blocks_loop (d : ddda) (f : nat -> result R) (ids : list nat) : result (list (nat * R)) :=
  match ids with
  | [] => Ok []
  | i :: r =>
    do h <- hasBlockVariance d i;
    if negb h then blocks_loop d f r else
    do v <- f i; do vs <- blocks_loop d f r; Ok ((i, v) :: vs)
  end.
(** OnTheFlyStatisticsDDDA.py l.476-524; the argument is a [bool]. *)
Definition ddda_getMPLAxes (d : ddda) (show : bool) : result (curve nat R) :=
  let ids := seq 0 (maxBlockID d + 1) in
  do points <- blocks_loop d (blockStandardError d) ids;
  do bars <- (if show then do l <- blocks_loop d (blockStandardErrorDeviation d) ids; Ok (Some (map snd l)) else Ok None);
  Ok (mk_curve points bars).

(** OnTheFlyStatisticsDDDA.py l.378-399. *)
Definition optimalStandardError (d : ddda) : result R :=
  do b <- optimalBlockID d; blockStandardError d b.
(** The mean and the error that a loop appends (Autocorrelation.py l.205-208, Analysis/MPCDAnalysis/LogicalEntityMeanSquareDisplacement.py l.223-226,
    Analysis/MPCDAnalysis/NormalModeAutocorrelation.py l.202-205). *)
Definition point_of (show : bool) (stat : ddda) : result (Qc * list R) :=
  do m <- ddda_mean stat;
  if show then do e <- optimalStandardError stat; Ok (m, [e]) else Ok (m, []).
(** Autocorrelation.py l.210-214, Analysis/MPCDAnalysis/LogicalEntityMeanSquareDisplacement.py l.228-232, Analysis/MPCDAnalysis/NormalModeAutocorrelation.py l.207-211. *)
Definition drawn (p : list (Z * Qc) * list R) : curve Z Qc :=
  mk_curve (fst p) (match snd p with [] => None | _ => Some (snd p) end).
(** The loops Analysis/MPCDAnalysis/LogicalEntityMeanSquareDisplacement.py l.219-226 and Analysis/MPCDAnalysis/NormalModeAutocorrelation.py l.198-205. *)
Fixpoint times_loop (get : Z -> result ddda) (show : bool) (times : list nat) : result (list (Z * Qc) * list R) :=
  match times with
  | [] => Ok ([], [])
  | t :: r =>
    do stat <- get (Z.of_nat t);
    do p <- point_of show stat;
    do q <- times_loop get show r;
    Ok ((Z.of_nat t, fst p) :: fst q, snd p ++ snd q)
  end.
(** The loop Autocorrelation.py l.198-208. *)
Fixpoint ac_times_loop {A} (s : autocorr A) (show : bool) (times : list nat) : result (list (Z * Qc) * list R) :=
  match times with
  | [] => Ok ([], [])
  | N :: r =>
    do a <- ac_available s (Z.of_nat N);
    if negb a then Ok ([], []) else
    do stat <- ac_get s (Z.of_nat N);
    do p <- point_of show stat;
    do q <- ac_times_loop s show r;
    Ok ((Z.of_nat N, fst p) :: fst q, snd p ++ snd q)
  end.
(** Autocorrelation.py l.171-219; the argument is a [bool]. *)
Definition ac_getMPLAxes {A} (s : autocorr A) (show : bool) : result (curve Z Qc) :=
  do p <- ac_times_loop s show (seq 0 (ac_max s + 1)); Ok (drawn p).

(** A line between two points (Analysis/MPCDAnalysis/LogicalEntityMeanSquareDisplacement.py l.196-202). *)
Definition line := ((Qc * Qc) * (Qc * Qc))%type.
(** Analysis/MPCDAnalysis/LogicalEntityMeanSquareDisplacement.py l.235-237. *)
Definition line_curve (l : line) : list (Qc * Qc) :=
  let x := [fst (fst l); fst (snd l)] in
  let y := [snd (fst l); snd (snd l)] in
  combine x y.
(** Analysis/MPCDAnalysis/LogicalEntityMeanSquareDisplacement.py l.180-242; the arguments are a [bool] and a list of lines. *)
Definition msd_getMPLAxes (count : nat) (s : py_statistics) (show : bool) (lines : list line) : result (curve Z Qc * list (list (Qc * Qc))) :=
  do p <- times_loop (py_get count s) show (seq 1 count); Ok (drawn p, map line_curve lines).
(** Analysis/MPCDAnalysis/NormalModeAutocorrelation.py l.163-216; the arguments are an [int] and a [bool]; [count] is [_autocorrelationArgumentCount]. *)
Definition nma_getMPLAxes (count : nat) (s : analysis) (mode : Z) (show : bool) : result (curve Z Qc) :=
  match normalModeCount s with
  | None => if Z.ltb mode 0 then Err ValueError else Err AssertionError
  | Some n =>
    if Z.ltb mode 0 || Z.leb (Z.of_nat n) mode then Err ValueError else
    do p <- times_loop (nma_get count s mode) show (seq 0 count); Ok (drawn p)
  end.
