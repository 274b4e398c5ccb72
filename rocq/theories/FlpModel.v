(** Model of the plots of flow profiles and of the flow that theory predicts
    (Analysis/MPCDAnalysis/FlowProfile.py l.69-138, l.204-350), with Python 2.  Exact numbers; of matplotlib
    only the points of lines, the bounds of shaded regions and the arrows are modelled. *)
From Coq Require Import List ZArith Reals Qreals.
From Verif Require Import QcBase PyBase DictBase OtfsModel FlowModel.
Import ListNotations.
Open Scope Qc_scope.

(** A number of the configuration file or an argument; the code distinguishes the two types
    (FlowProfile.py l.234). *)
Inductive pynum := PyInt (z : Z) | PyFloat (q : Qc).

(** The loop over the slices (FlowProfile.py l.250-256). *)
Fixpoint shear_points (sub sizeY : nat) (rate : Qc) (shift : bool) (yIndices : list nat) (ret : list (Qc * Qc))
  : list (Qc * Qc) :=
  match yIndices with
  | [] => ret
  | yIndex :: r =>
    let y := yCoord sub shift (Z.of_nat yIndex) in
    let v_x := (y - (1 / (1 + 1)) * qn sizeY) * rate in
    shear_points sub sizeY rate shift r (dset qeqb ret y v_x)
  end.
(** FlowProfile.py l.204-258; [own] is the shear rate of the run. *)
Definition getAnalyticShearFlowProfileAsFunctionOfY (s : profile) (own : pynum) (shearRate : option pynum) (shift : bool)
  : result (list (Qc * Qc)) :=
  let rate := match shearRate with None => own | Some r => r end in
  match rate with
  | PyInt _ => Err PyException
  | PyFloat rate =>
    let sub := f_sub (p_config s) in
    let sizeY := f_sizeY (p_config s) in
    Ok (shear_points sub sizeY rate shift (seq 0 (sizeY * sub)) [])
  end.

(** What is drawn: lines, and bounds of the shaded region for each abscissa (FlowProfile.py l.93-136). *)
Record drawing := mk_drawing {
  dr_lines : list (list (Qc * Qc));
  dr_band : option (list (Qc * (R * R))) }.

(** Exact numbers as real numbers, of which roots are drawn (FlowProfile.py l.123-128). *)
Definition real (x : Qc) : R := Q2R (this x).

(** The velocity along [x] (FlowProfile.py l.98). *)
Definition along_x (v : otfs3) : otfs := let '(v0, _, _) := v in v0.

(** The values of the line (FlowProfile.py l.101-103). *)
Fixpoint plot_values (data : list (Qc * otfs3)) : result (list (Qc * Qc)) :=
  match data with
  | [] => Ok []
  | (y, velocity) :: r =>
    do m <- getSampleMean (along_x velocity);
    do ms <- plot_values r;
    Ok ((y, m) :: ms)
  end.
(** The errors (FlowProfile.py l.124-128). *)
Fixpoint plot_errors (sqrt_n : R) (data : list (Qc * otfs3)) : result (list R) :=
  match data with
  | [] => Ok []
  | (_, velocity) :: r =>
    do v <- getSampleVariance (along_x velocity);
    do es <- plot_errors sqrt_n r;
    Ok ((sqrt (real v) / sqrt_n)%R :: es)
  end.
(** The bounds (FlowProfile.py l.130-133). *)
Fixpoint plot_bounds (standardError : Qc) (values : list (Qc * Qc)) (errors : list R) : list (Qc * (R * R)) :=
  match values, errors with
  | (y, m) :: vs, e :: es =>
    (y, (real m - real standardError * e, real m + real standardError * e)%R) :: plot_bounds standardError vs es
  | _, _ => []
  end.
(** FlowProfile.py l.69-138.  After the list comprehension in l.101-103, [velocity] is its last element. *)
Definition getMPLAxesForFlowAlongXAsFunctionOfY (s : profile) (own : pynum) (standardError : Qc) (theory shift : bool) : result drawing :=
  do data <- getFlowProfileAsFunctionOfY s shift;
  do values <- plot_values data;
  do lines <- (if theory then
                 do theoryData <- getAnalyticShearFlowProfileAsFunctionOfY s own None shift;
                 Ok [values; theoryData]
               else Ok [values]);
  if qeqb standardError 0 then Ok (mk_drawing lines None) else
  if qltb standardError 0 then Err PyException else
  match rev data with
  | [] => Err NameError
  | (_, velocity) :: _ =>
    let sqrt_n := sqrt (INR (getSampleSize (along_x velocity))) in
    do errors <- plot_errors sqrt_n data;
    Ok (mk_drawing lines (Some (plot_bounds standardError values errors)))
  end.

(** * Arrows (FlowProfile.py l.261-350) *)

(** [d[k]] (FlowProfile.py l.315). *)
Definition item {V} (d : list (Z * V)) (k : Z) : result V :=
  match dget Z.eqb d k with Some v => Ok v | None => Err KeyError end.
(** [l[i]] (FlowProfile.py l.298-299, l.307). *)
Definition element {A} (l : list A) (i : nat) : result A :=
  match nth_error l i with Some a => Ok a | None => Err IndexError end.
(** The three means of a cell (FlowProfile.py l.315-316). *)
Definition cell_means (block : points otfs3) (x y z : Z) : result (Qc * Qc * Qc) :=
  do px <- item block x;
  do py <- item px y;
  do v <- item py z;
  let '(v0, v1, v2) := v in
  do m0 <- getSampleMean v0;
  do m1 <- getSampleMean v1;
  do m2 <- getSampleMean v2;
  Ok (m0, m1, m2).
(** A loop that collects results (FlowProfile.py l.313-325). *)
Fixpoint collect {A B} (f : A -> result B) (l : list A) : result (list B) :=
  match l with
  | [] => Ok []
  | a :: r => do b <- f a; do bs <- collect f r; Ok (b :: bs)
  end.
(** The positions of the columns and rows of arrows, and the arrows, row by row (FlowProfile.py l.298-330). *)
Record quiver := mk_quiver { qv_x : list Qc; qv_y : list Qc; qv_arrows : list (list (Qc * Qc * Qc)) }.
(** FlowProfile.py l.298-330: what is shown for an output block and a layer. *)
Definition showVectorField (s : profile) (outputBlockID : nat) (z : Z) : result quiver :=
  do first <- element (p_blocks s) 0;
  do second <- element (p_blocks s) 1;
  let half := 1 / (1 + 1) in
  let xPoints := map (fun x => qz x + half) (dkeys first) in
  let yPoints := map (fun y => qz y + half) (dkeys second) in
  do outputBlock <- element (p_blocks s) outputBlockID;
  do rows <- collect (fun y => collect (fun x => cell_means outputBlock x y z) (dkeys first)) (dkeys second);
  Ok (mk_quiver xPoints yPoints (match dkeys first with [] => [] | _ => rows end)).
