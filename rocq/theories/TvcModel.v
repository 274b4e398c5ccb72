(** Transverse velocity correlation functions: the files that the simulation writes
    (src/OpenMPCD/CUDA/MPCFluid/Instrumentation/FourierTransformedVelocity/Base.cpp), the program that analyses them
    (Analysis/src/computeTransverseVelocityCorrelationFunction, with getWaveVectorsAndFiles.cpp and writePlotfiles.cpp) and the script
    Analysis/transverseVelocityCorrelationFunction.py.
    Simplifications: files are given by their contents, and the settings of the runs by their values, all of which are the same for all runs (C88);
    messages are left out; computations with the numbers that have been read are exact; of each accumulator, the data that were added are kept
    (C05 and C08 are about what it makes of them), and of the table, the first four columns are kept; fits are left out. *)
From Coq Require Import String Ascii List ZArith Bool Reals.
From Verif Require Import PyBase StrBase VecModel VtfModel VtfPyModel FourModel.
Import ListNotations.
Open Scope list_scope.

(** [boost::algorithm::split] with [boost::is_any_of] (writePlotfiles.cpp l.45). *)
Fixpoint split_any (sep : ascii -> bool) (s : string) : list string :=
  match s with
  | EmptyString => [EmptyString]
  | String a r =>
    if sep a then EmptyString :: split_any sep r
    else match split_any sep r with
         | [] => [String a EmptyString]
         | h :: t => String a h :: t
         end
  end.
(** [boost::algorithm::trim] (writePlotfiles.cpp l.53): first the end. *)
Fixpoint trim_right (s : string) : string :=
  match s with
  | EmptyString => EmptyString
  | String a r => match trim_right r with EmptyString => if is_ws a then EmptyString else String a EmptyString | r => String a r end
  end.
(** writePlotfiles.cpp l.53: then the start. *)
Fixpoint trim_left (s : string) : string := match s with String a r => if is_ws a then trim_left r else s | EmptyString => s end.
(** writePlotfiles.cpp l.53. *)
Definition trim (s : string) : string := trim_left (trim_right s).
(** [std::getline] until it fails (File.cpp l.48-51): the text after the last line break is a line unless it is empty. *)
Definition get_lines (s : string) : list string := let l := lines_of s in if String.eqb (last l "") "" then removelast l else l.

Section Numbers.
(** Numbers in files, their values, and how they are written and read; [None] is an exception of [boost::lexical_cast], or a [ValueError] of Python. *)
Variables (F : Type) (value : F -> R) (show : F -> string) (read : string -> option F).
(** A time, and real and imaginary parts of the components of a velocity (Base.hpp l.114-115). *)
Definition sample := (F * (F * F * F * F * F * F))%type.
(** Base.cpp l.99-103: a line, without its end. *)
Definition sample_line (s : sample) : string :=
  let '(t, (a, b, c, d, e, f)) := s in join "009" (map show [t; a; b; c; d; e; f]).
(** Base.cpp l.91: the first line, without its end. *)
Definition header_line (k_n : F * F * F) : string :=
  let '(x, y, z) := k_n in ("#k_n:" ++ String "009" (join "009" (map show [x; y; z])))%string.
(** Base.cpp l.82-105. *)
Definition saveFourierTransformedVelocities (k_n : F * F * F) (velocities : list sample) : string :=
  String.concat "" (map (fun l => l ++ String newline "")%string (header_line k_n :: map sample_line velocities)).

(** ** The program *)
(** All tokens as numbers (writePlotfiles.cpp l.50-55). *)
Fixpoint casts (tokens : list string) : result (list R) :=
  match tokens with
  | [] => Ok []
  | t :: r => match read (trim t) with None => Err ValueError | Some x => do l <- casts r; Ok (value x :: l) end
  end.
(** Vector3D.hpp l.247-269, with complex components. *)
Definition cv_normalized (a : cvec) : result cvec :=
  let mag := sqrt (cvlen2 a) in
  if Req_EM_T mag 0 then Err ZeroDivisionError else Ok (cvmul a (cR (/ mag))).
(** Vector3D.hpp l.275-288. *)
Definition cv_perpendicular (a rhs : cvec) : result cvec :=
  do n <- cv_normalized rhs; Ok (cvsub a (cvmul n (cvdot n a))).
(** writePlotfiles.cpp l.42-70: a line; nothing if the time is too small. *)
Definition cpp_line (k : cvec) (minimumTime : R) (line : string) : result (list (R * cvec)) :=
  let tokens := split_any is_blank line in
  if negb (Nat.eqb (length tokens) 7) then Err IOException
  else
    do components <- casts tokens;
    match components with
    | [t; a; b; c; d; e; f] =>
      if Rlt_dec t minimumTime then Ok []
      else do vT <- cv_perpendicular (CVec (Cplx a b) (Cplx c d) (Cplx e f)) k; Ok [(t, vT)]
    | _ => Err IOException
    end.
(** writePlotfiles.cpp l.42-70: the loop. *)
Fixpoint cpp_lines (k : cvec) (minimumTime : R) (lines : list string) : result (list (R * cvec)) :=
  match lines with
  | [] => Ok []
  | line :: r => do x <- cpp_line k minimumTime line; do y <- cpp_lines k minimumTime r; Ok (x ++ y)
  end.
(** writePlotfiles.cpp l.26-73. *)
Definition getDataFromFile (contents : string) (k : cvec) (minimumTime : R) : result (list (R * cvec)) := cpp_lines k minimumTime (tl (get_lines contents)).
(** writePlotfiles.cpp l.91-95. *)
Fixpoint read_files (files : list string) (k : cvec) (minimumTime : R) : result (list (list (R * cvec))) :=
  match files with
  | [] => Ok []
  | f :: r => do x <- getDataFromFile f k minimumTime; do y <- read_files r k minimumTime; Ok (x :: y)
  end.
(** writePlotfiles.cpp l.123-134: the loop over the measurements of a file; [n] measurements are left. *)
Fixpoint add_data (set : list (R * cvec)) (stride n i : nat) : list R :=
  match n with
  | O => []
  | S n =>
    if Nat.leb (length set) (i + stride) then []
    else
      let second j := snd (nth j set (0%R, CVec (cR 0) (cR 0) (cR 0))) in
      re (cvdot (second (i + stride)%nat) (second i)) :: add_data set stride n (S i)
  end.
(** writePlotfiles.cpp l.112-140: the accumulator for a stride. *)
Definition stride_data (measurements : list (list (R * cvec))) (stride : nat) : list R :=
  flat_map (fun set => add_data set stride (length set) 0) measurements.
(** writePlotfiles.cpp l.75-146. *)
Definition getTVACFFT (files : list string) (k : cvec) (minimumTime timestep : R) (maxStride : nat) : result (list (R * list R)) :=
  do measurements <- read_files files k minimumTime;
  Ok (map (fun stride => (INR stride * timestep, stride_data measurements stride)%R) (seq 0 maxStride)).
(** The mean of the data of an accumulator (ImplementationDetails/OnTheFlyStatisticsDDDA.hpp l.41-52, and C05). *)
Definition sample_mean (data : list R) : R := (fold_right Rplus 0 data / INR (length data))%R.
(** A row of the table: time, normalised mean, mean and sample size (writePlotfiles.cpp l.214-217). *)
Record row := Row { time : R; normalized : R; mean : R; size : nat }.
(** writePlotfiles.cpp l.208-224: the rows that are written, and the exception, if there is one: the mean needs data, and the standard deviation and
    the optimal block need at least two (ImplementationDetails/OnTheFlyStatisticsDDDA.hpp l.41-52, 86-111, 145-150). *)
Fixpoint write_rows (normalization : R) (tvacfft : list (R * list R)) : list row * option exc :=
  match tvacfft with
  | [] => ([], None)
  | (t, data) :: r =>
    if Nat.leb (length data) 1 then ([], Some InvalidCallException)
    else
      let normalization := if Req_EM_T normalization 0 then sample_mean data else normalization in
      let (rows, e) := write_rows normalization r in
      (Row t (sample_mean data / normalization) (sample_mean data) (length data) :: rows, e)
  end.
(** writePlotfiles.cpp l.148-225. *)
Definition writePlotfile (files : list string) (k : cvec) (minimumTime timestep : R) (maxStride : nat) : list row * option exc :=
  match getTVACFFT files k minimumTime timestep maxStride with Ok t => write_rows 0 t | Err e => ([], Some e) end.

(** getWaveVectorsAndFiles.cpp l.26-51: the wave vector in the first line of a file. *)
Definition wave_vector_of (contents : string) : result vec :=
  let line := hd ""%string (get_lines contents) in
  if negb (String.eqb (substring 0 5 line) "#k_n:") then Err IOException
  else
    let tokens := split_any is_blank (trim (substring 5 (String.length line - 5) line)) in
    if negb (Nat.eqb (length tokens) 3) then Err IOException
    else do l <- casts tokens; match l with [x; y; z] => Ok (Vec x y z) | _ => Err IOException end.
(** [ret[k].push_back(filename)] of an [std::map] (getWaveVectorsAndFiles.cpp l.53). *)
Fixpoint map_push {A} (k : vec) (x : A) (m : list (vec * list A)) : list (vec * list A) :=
  match m with
  | [] => [(k, [x])]
  | (k', l) :: r => if vltb k k' then (k, [x]) :: (k', l) :: r else if vltb k' k then (k', l) :: map_push k x r else (k', l ++ [x]) :: r
  end.
(** getWaveVectorsAndFiles.cpp l.19-55; the files of all runs, one after another. *)
Fixpoint wave_vectors_loop (files : list string) (ret : list (vec * list string)) : result (list (vec * list string)) :=
  match files with
  | [] => Ok ret
  | f :: r => do k <- wave_vector_of f; wave_vectors_loop r (map_push k f ret)
  end.
(** getWaveVectorsAndFiles.cpp l.12-58. *)
Definition getWaveVectorsAndPaths (files : list string) : result (list (vec * list string)) := wave_vectors_loop files [].
(** writePlotfiles.cpp l.260-264: the wave vector. *)
Definition plot_wave_vector (box : Z * Z * Z) (k_n : vec) : vec :=
  let '(x, y, z) := box in Vec (vx k_n * 2 * PI / IZR x) (vy k_n * 2 * PI / IZR y) (vz k_n * 2 * PI / IZR z).
(** Vector3D.hpp l.295-300: getComplexVector. *)
Definition complex_vector (v : vec) : cvec := CVec (cR (vx v)) (cR (vy v)) (cR (vz v)).
(** writePlotfiles.cpp l.256-287: the tables, by wave vector. *)
Fixpoint plot_loop (box : Z * Z * Z) (minimumTime timestep : R) (maxStride : nat) (l : list (vec * list string)) : list (vec * list row) * option exc :=
  match l with
  | [] => ([], None)
  | (k_n, files) :: r =>
    let (rows, e) := writePlotfile files (complex_vector (plot_wave_vector box k_n)) minimumTime timestep maxStride in
    match e with
    | Some e => ([(k_n, rows)], Some e)
    | None => let (tables, e) := plot_loop box minimumTime timestep maxStride r in ((k_n, rows) :: tables, e)
    end
  end.
(** writePlotfiles.cpp l.249: the number of strides, if the quotient is not negative. *)
Definition max_stride (maxCorrelationTime mpcTimestep : R) : nat := Z.to_nat (- Int_part (- (maxCorrelationTime / mpcTimestep))).
(** writePlotfiles.cpp l.227-287, without the metadata: the tables that are written, and the exception, if there is one. *)
Definition writePlotfiles (box : Z * Z * Z) (minimumTime maxCorrelationTime mpcTimestep : R) (files : list string) : list (vec * list row) * option exc :=
  match getWaveVectorsAndPaths files with
  | Err e => ([], Some e)
  | Ok l => plot_loop box minimumTime mpcTimestep (max_stride maxCorrelationTime mpcTimestep) l
  end.

(** ** The script, with Python 2, where [items] is a list *)
(** All words as numbers (transverseVelocityCorrelationFunction.py l.103). *)
Fixpoint floats (l : list string) : result (list R) :=
  match l with
  | [] => Ok []
  | t :: r => match read t with None => Err ValueError | Some x => do l <- floats r; Ok (value x :: l) end
  end.
(** transverseVelocityCorrelationFunction.py l.63-68: the integer components from the first line. *)
Definition py_integer_components (contents : string) : result vec :=
  let line := hd ""%string (keep_lines contents) in
  if String.eqb line "" then Err IndexError
  else if negb (String.prefix "#" line) then Err ValueError
  else do n <- floats (tl (words is_ws line)); match n with x :: y :: z :: _ => Ok (Vec x y z) | _ => Err IndexError end.
(** Vector3D.py l.44-46. *)
Definition py_normalized (a : cvec) : result cvec :=
  let mag := sqrt (cvlen2 a) in
  if Req_EM_T mag 0 then Err ZeroDivisionError else Ok (cvmul a (cR (1 / mag))).
(** Vector3D.py l.54-59. *)
Definition py_perpendicular (a rhs : cvec) : result cvec :=
  do n <- py_normalized rhs; Ok (cvsub a (cvmul n (cvdot n a))).
(** [data.addPoint] (Data2D.py l.18-21) with an OrderedDict. *)
Fixpoint add_point (t : R) (v : cvec) (data : list (R * cvec)) : list (R * cvec) :=
  match data with
  | [] => [(t, v)]
  | (t', v') :: r => if Req_EM_T t t' then (t', v) :: r else (t', v') :: add_point t v r
  end.
(** transverseVelocityCorrelationFunction.py l.102-115: the loop over lines. *)
Fixpoint py_samples (k_n : vec) (lines : list string) (data : list (R * cvec)) : result (list (R * cvec)) :=
  match lines with
  | [] => Ok data
  | line :: r =>
    do columns <- floats (words is_ws line);
    match columns with
    | [t; a; b; c; d; e; f] =>
      do vT <- py_perpendicular (CVec (Cplx a b) (Cplx c d) (Cplx e f)) (complex_vector k_n);
      py_samples k_n r (add_point t vT data)
    | _ => Err ValueError
    end
  end.
(** [sorted] for distinct keys (Data2D.py l.23-25). *)
Fixpoint insert_sorted (p : R * cvec) (l : list (R * cvec)) : list (R * cvec) :=
  match l with [] => [p] | q :: r => if Rlt_dec (fst p) (fst q) then p :: q :: r else q :: insert_sorted p r end.
(** transverseVelocityCorrelationFunction.py l.97-117 and 143: the items of the data of a file, by time (Data2D.py l.185-189). *)
Definition processFile (contents : string) (k_n : vec) : result (list (R * cvec)) :=
  do data <- py_samples k_n (tl (keep_lines contents)) []; Ok (fold_left (fun l p => insert_sorted p l) data []).
(** transverseVelocityCorrelationFunction.py l.150-159: the loop over items: sum, number and first difference of times; [n] items are left. *)
Fixpoint py_sum (items : list (R * cvec)) (stride n key : nat) (sum_ : cplx) (count_ : nat) (deltaT : option R) : cplx * nat * option R :=
  match n with
  | O => (sum_, count_, deltaT)
  | S n =>
    if Nat.leb (length items) (key + stride) then (sum_, count_, deltaT)
    else
      let item j := nth j items (0%R, CVec (cR 0) (cR 0) (cR 0)) in
      let d := match deltaT with None => Some (fst (item (key + stride)%nat) - fst (item key))%R | d => d end in
      py_sum items stride n (S key) (cadd sum_ (cvdot (snd (item (key + stride)%nat)) (snd (item key)))) (S count_) d
  end.
(** transverseVelocityCorrelationFunction.py l.145-170: the loop over strides for a run, of which [n] are left; [strides] are the entries from this stride on. *)
Fixpoint py_strides (items : list (R * cvec)) (n stride : nat) (strides : list (R * cplx * nat)) : result (list (R * cplx * nat)) :=
  match n with
  | O => Ok strides
  | S n =>
    match py_sum items stride (length items) 0 (cR 0) 0 None with
    | (_, _, None) => Ok strides
    | (sum_, count_, Some deltaT) =>
      match strides with
      | [] => do r <- py_strides items n (S stride) []; Ok ((deltaT, sum_, count_) :: r)
      | (d, s, c) :: rest =>
        if Req_EM_T d deltaT then do r <- py_strides items n (S stride) rest; Ok ((d, cadd s sum_, (c + count_)%nat) :: r)
        else Err ValueError
      end
    end
  end.
(** transverseVelocityCorrelationFunction.py l.140-170: the loop over the runs. *)
Fixpoint py_runs (maxStrides : nat) (k_n : vec) (files : list string) (strides : list (R * cplx * nat)) : result (list (R * cplx * nat)) :=
  match files with
  | [] => Ok strides
  | f :: r =>
    do items <- processFile f k_n;
    do strides <- py_strides items maxStrides 0 strides;
    py_runs maxStrides k_n r strides
  end.
(** Division of [complex] numbers (transverseVelocityCorrelationFunction.py l.176, 184). *)
Definition cdiv (a b : cplx) : cplx :=
  let n := (re b * re b + im b * im b)%R in
  Cplx ((re a * re b + im a * im b) / n) ((im a * re b - re a * im b) / n).
(** transverseVelocityCorrelationFunction.py l.176. *)
Definition py_average (s : R * cplx * nat) : cplx := cdiv (snd (fst s)) (cR (INR (snd s))).
(** transverseVelocityCorrelationFunction.py l.173-185: the points of the correlation function, by stride. *)
Definition py_points (strides : list (R * cplx * nat)) : result (list (R * R)) :=
  match strides with
  | [] => Ok []
  | s0 :: _ =>
    let denominator := py_average s0 in
    if Req_EM_T (re denominator * re denominator + im denominator * im denominator) 0 then Err ZeroDivisionError
    else Ok (map (fun s => (fst (fst s), re (cdiv (py_average s) denominator))) strides)
  end.
(** transverseVelocityCorrelationFunction.py l.139-185: the correlation function for the files of a wave vector. *)
Definition py_correlation (maxStrides : nat) (k_n : vec) (files : list string) : result (list (R * R)) :=
  do strides <- py_runs maxStrides k_n files []; py_points strides.
End Numbers.
(** transverseVelocityCorrelationFunction.py l.145. *)
Definition py_max_strides : nat := Z.to_nat 5000.
