(** Files of runs as programs in C++ read them (Analysis/src/MPCDAnalysis/File.cpp, Utilities.cpp, Analysis/include/MPCDAnalysis/Utilities.hpp), and the program
    computeTransverseVelocityCorrelationFunction as a whole, with the texts that it writes (main.cpp, getWaveVectorsAndFiles.cpp, writePlotfiles.cpp).
    Simplifications: what is written to the console is left out, as is the parsing of the command line by boost::program_options; computations with the numbers that have
    been read are exact, and the columns about statistical errors are texts that depend on the data (see C05 to C09); what a decompressor makes of a file is a text
    (errors of the decompressor end the text); files that are read are not the ones that are written; an [std::out_of_range] is written as [IndexError]. *)
From Coq Require Import String Ascii List ZArith Bool Reals.
From Verif Require Import PyBase StrBase VecModel VtfModel TvcModel CfgModel RsvModel.
Import ListNotations.
Open Scope list_scope.

(** Options on the command line (main.cpp l.20-40); the ones that have a default value are [None] if they are not given. *)
Record options (F : Type) := Options {
  help : bool; saveFilename : option string; metadataFilename : option string; metadataTableFilename : option string;
  minimumTime : option F; maxCorrelationTime : option F; rundirs : list string }.
Arguments Options {F} _ _ _ _ _ _ _.
Arguments help {F} _.
Arguments saveFilename {F} _.
Arguments metadataFilename {F} _.
Arguments metadataTableFilename {F} _.
Arguments minimumTime {F} _.
Arguments maxCorrelationTime {F} _.
Arguments rundirs {F} _.

(** [[0-9]] in a regular expression (getWaveVectorsAndFiles.cpp l.17). *)
Definition in_0_9 (a : ascii) : bool := (N.leb 48 (N_of_ascii a) && N.leb (N_of_ascii a) 57)%N.
(** getWaveVectorsAndFiles.cpp l.17: what remains after the longest sequence of digits. *)
Fixpoint after_digits (s : string) : string := match s with String a r => if in_0_9 a then after_digits r else s | EmptyString => s end.
(** getWaveVectorsAndFiles.cpp l.17: the regular expression [[0-9]+\.data.*], for the whole text. The dot after the digits is none, so that there is but one way to match. *)
Definition filename_regex (s : string) : bool :=
  match s with String a r => in_0_9 a && String.prefix ".data" (after_digits r) | EmptyString => false end.

(** [nameValuePairs[name] = value] (File.cpp l.71), where the order of the names is left open. *)
Fixpoint set_pair (name value : string) (m : list (string * string)) : list (string * string) :=
  match m with
  | [] => [(name, value)]
  | (n, v) :: r => if String.eqb n name then (name, value) :: r else (n, v) :: set_pair name value r
  end.
(** [nameValuePairs.find(name)] (File.cpp l.77, 86). *)
Fixpoint find_pair (name : string) (m : list (string * string)) : option string :=
  match m with
  | [] => None
  | (n, v) :: r => if String.eqb n name then Some v else find_pair name r
  end.
(** File.cpp l.53-73: readNameValuePairs, on the lines that have not been read; the lines that remain, and the pairs. *)
Fixpoint readNameValuePairs (lines : list string) (m : list (string * string)) : result (list string * list (string * string)) :=
  match lines with
  | String a line :: r =>
    if Ascii.eqb a "#" then
      match split_any (fun c => Ascii.eqb c "#") line with
      | [name; value] => readNameValuePairs r (set_pair (trim name) (trim value) m)
      | _ => Err IOException
      end
    else Ok (lines, m)
  | _ => Ok (lines, m)
  end.
(** File.cpp l.75-78. *)
Definition hasProperty (m : list (string * string)) (name : string) : bool := match find_pair name m with Some _ => true | None => false end.

Section Ana.
(** Numbers as in TvcModel.v (writePlotfiles.cpp l.54). *)
Variables (F : Type) (value : F -> R) (read : string -> option F).
(** File.cpp l.82-97: getProperty. *)
Definition getProperty (m : list (string * string)) (name : string) : result F :=
  match find_pair name m with
  | None => Err InvalidArgumentException
  | Some text => match read text with Some x => Ok x | None => Err IOException end
  end.

(** The names in a directory, in the order of the iterator (Utilities.cpp l.12-17). *)
Variable directory : string -> option (list string).
(** The contents of regular files (File.cpp l.16, Utilities.cpp l.19). *)
Variable regular : string -> option string.
(** What the decompressor makes of the contents of a file (File.cpp l.120). *)
Variable decompressed : string -> string.
(** Whether a file can be opened for writing (writePlotfiles.cpp l.169, 291, 315). *)
Variable writable : string -> bool.
(** The constructor of a configuration from a file (Utilities.hpp l.53). *)
Variable load : string -> outcome (setting F).
(** See CfgModel.v (Configuration.hpp l.165). *)
Variable negative_as_unsigned : Z -> option Z.
(** Numbers, written with 17 digits, and with six (writePlotfiles.cpp l.170, 267-271, 294, 321). *)
Variables (text17 text6 : R -> string).
(** What is written for zero, divided by zero (writePlotfiles.cpp l.215). *)
Variable not_a_number : string.
(** The columns about statistical errors (writePlotfiles.cpp l.218-222). *)
Variables (standard_deviation optimal_block optimal_error reliable : list R -> string).

(** File.cpp l.14-35: the text that the lines are read from. *)
Definition file_text (filename : string) : result string :=
  match regular filename with
  | Some contents =>
    if Nat.ltb (String.length filename) 4 then Err IndexError
    else if String.eqb (substring (String.length filename - 4) 4 filename) ".bz2" then Ok (decompressed contents) else Ok contents
  | None =>
    match regular (filename ++ ".bz2")%string with
    | Some contents => Ok (decompressed contents)
    | None => Err IOException
    end
  end.
(** Utilities.cpp l.7-34; [regex] is whether a name matches. *)
Definition getFilesByRegex (dirPath : string) (regex : string -> bool) (prependDirPath : bool) : list string :=
  match directory dirPath with
  | None => []
  | Some names =>
    map (fun name => if prependDirPath then (dirPath ++ "/" ++ name)%string else name)
      (filter (fun name => match regular (dirPath ++ "/" ++ name)%string with Some _ => regex name | None => false end) names)
  end.
(** getWaveVectorsAndFiles.cpp l.19-26: the files of all runs. *)
Definition data_paths (rundirs : list string) : list string :=
  flat_map (fun rundir => getFilesByRegex (rundir ++ "/fourierTransformedVelocities") filename_regex true) rundirs.
(** getWaveVectorsAndFiles.cpp l.26 and writePlotfiles.cpp l.39: their texts. *)
Fixpoint texts_of (paths : list string) : result (list string) :=
  match paths with
  | [] => Ok []
  | p :: r => do t <- file_text p; do l <- texts_of r; Ok (t :: l)
  end.

(** Utilities.hpp l.50-68: the loop; [value] is [None] if [isFirst]. *)
Fixpoint consistent_loop {A} (get : setting F -> outcome A) (differ : A -> A -> bool) (rundirs : list string) (value : option A) : outcome (option A) :=
  match rundirs with
  | [] => Done value
  | rundir :: r =>
    match load (rundir ++ "/config.txt")%string with
    | Fails f => Fails f
    | Done config =>
      match get config with
      | Fails f => Fails f
      | Done current =>
        match value with
        | None => consistent_loop get differ r (Some current)
        | Some v => if differ v current then Fails InvalidConfiguration else consistent_loop get differ r (Some v)
        end
      end
    end
  end.
(** Utilities.hpp l.42-74. *)
Definition getConsistentConfigValue {A} (get : setting F -> outcome A) (differ : A -> A -> bool) (rundirs : list string) : outcome A :=
  match consistent_loop get differ rundirs None with
  | Fails f => Fails f
  | Done None => Fails InvalidArgument
  | Done (Some v) => Done v
  end.
(** Utilities.hpp l.55, with [unsigned int]. *)
Definition unsigned_setting (name : string) (config : setting F) : outcome Z :=
  match CfgModel.read F negative_as_unsigned TUnsigned config name with Done (VInt z) => Done z | Done _ => Fails InvalidConfiguration | Fails f => Fails f end.
(** Utilities.hpp l.55, with [double]. *)
Definition double_setting (name : string) (config : setting F) : outcome F :=
  match CfgModel.read F negative_as_unsigned TFloat config name with Done (VFloat d) => Done d | Done _ => Fails InvalidConfiguration | Fails f => Fails f end.
(** Utilities.hpp l.64. *)
Definition integers_differ (a b : Z) : bool := negb (Z.eqb a b).
(** Utilities.hpp l.64. *)
Definition doubles_differ (a b : F) : bool := negb (reqb (value a) (value b)).

(** writePlotfiles.cpp l.169: a file that cannot be opened is not written, and there is no exception. *)
Definition write (path text : string) : list (string * string) := if writable path then [(path, text)] else [].
(** A line (writePlotfiles.cpp l.181). *)
Definition line (s : string) : string := (s ++ String newline "")%string.
(** writePlotfiles.cpp l.174-180: names in quotation marks, separated by commas. *)
Fixpoint listed (first : bool) (rundirs : list string) : string :=
  match rundirs with
  | [] => ""
  | r :: l => ((if first then "" else ", ") ++ "'" ++ r ++ "'" ++ listed false l)%string
  end.
(** writePlotfiles.cpp l.172-206: the lines before the table. *)
Definition header (rundirs : list string) (k_n : vec) (box : Z * Z * Z) (kT timestep : R) (sampleSize : nat) : string :=
  let '(L_x, L_y, L_z) := box in
  (line ("#rundirs = [" ++ listed true rundirs ++ "]") ++
   line ("#k_nx = " ++ text17 (vx k_n)) ++ line ("#k_ny = " ++ text17 (vy k_n)) ++ line ("#k_nz = " ++ text17 (vz k_n)) ++
   line ("#L_x = " ++ text17 (IZR L_x)) ++ line ("#L_y = " ++ text17 (IZR L_y)) ++ line ("#L_z = " ++ text17 (IZR L_z)) ++
   line ("#kT = " ++ text17 kT) ++ line ("#mpcTimestep = " ++ text17 timestep) ++
   line ("#sampleSizes = " ++ str_of_Z (Z.of_nat sampleSize)) ++
   line "#" ++
   line ("#correlation-time" ++ String "009" ("normalized-TVACFFT" ++ String "009" ("TVACFFT" ++ String "009" ("sample-size" ++ String "009"
     ("TVACFFT-sample-standard-deviation" ++ String "009" ("TVACFFT-DDDA-optimal-block-ID" ++ String "009"
     ("TVACFFT-DDDA-optimal-standard-error-of-the-mean" ++ String "009" "TVACFFT-DDDA-optimal-standard-error-of-the-mean-is-reliable"))))))))%string.
(** An entry of a row that is not the last one (writePlotfiles.cpp l.214-221). *)
Definition entry (s : string) : string := (s ++ String "009" "")%string.
(** writePlotfiles.cpp l.208-224: the table, and whether there is no exception. One is thrown where statistics do not exist, as in TvcModel.v; what has been written before
    remains. *)
Fixpoint table_text (normalization : R) (tvacfft : list (R * list R)) : string * bool :=
  match tvacfft with
  | [] => (""%string, true)
  | (t, data) :: r =>
    match data with
    | [] => (if Req_EM_T normalization 0 then ""%string else entry (text17 t), false)
    | _ =>
      let normalization := if Req_EM_T normalization 0 then sample_mean data else normalization in
      let start := (entry (text17 t) ++ entry (if Req_EM_T normalization 0 then not_a_number else text17 (sample_mean data / normalization)) ++ entry (text17 (sample_mean data)) ++ entry (str_of_Z (Z.of_nat (length data))))%string in
      match data with
      | [_] => (start, false)
      | _ =>
        let (rows, ok) := table_text normalization r in
        ((start ++ entry (standard_deviation data) ++ entry (optimal_block data) ++ entry (optimal_error data) ++ line (reliable data) ++ rows)%string, ok)
      end
    end
  end.
(** writePlotfiles.cpp l.267-272: the path of a table. *)
Definition table_path (pathBasename : string) (k_n : vec) : string :=
  (pathBasename ++ "--k_nx=" ++ text6 (vx k_n) ++ "--k_ny=" ++ text6 (vy k_n) ++ "--k_nz=" ++ text6 (vz k_n) ++ ".data")%string.
(** writePlotfiles.cpp l.97-99. *)
Definition measurement_count (measurements : list (list (R * cvec))) : nat := fold_left (fun n set => (n + length set)%nat) measurements 0%nat.
(** writePlotfiles.cpp l.252, 256-287 with l.148-225: the loop over wave vectors: what is written, the number of steps, and whether there is no exception. *)
Fixpoint tables_loop (dirs : list string) (pathBasename : string) (box : Z * Z * Z) (kT minTime timestep : R) (maxStride : nat)
  (l : list (vec * list string)) (totalAnalyzedStepCount : nat) : list (string * string) * nat * bool :=
  match l with
  | [] => ([], totalAnalyzedStepCount, true)
  | (k_n, files) :: r =>
    match read_files F value read files (complex_vector (plot_wave_vector box k_n)) minTime with
    | Err _ => ([], totalAnalyzedStepCount, false)
    | Ok measurements =>
      let tvacfft := map (fun stride => (INR stride * timestep, stride_data measurements stride)%R) (seq 0 maxStride) in
      let sampleSize := measurement_count measurements in
      let (table, ok) := table_text 0 tvacfft in
      let written := write (table_path pathBasename k_n) (header dirs k_n box kT timestep sampleSize ++ table) in
      if ok then
        let '(more, total, ok) := tables_loop dirs pathBasename box kT minTime timestep maxStride r (totalAnalyzedStepCount + sampleSize) in (written ++ more, total, ok)
      else (written, totalAnalyzedStepCount, false)
    end
  end.
(** writePlotfiles.cpp l.299-307. *)
Fixpoint json_listed (first : bool) (rundirs : list string) : string :=
  match rundirs with
  | [] => ""
  | r :: l => ((if first then "" else "," ++ String newline "") ++ """" ++ r ++ """" ++ json_listed false l)%string
  end.
(** writePlotfiles.cpp l.289-311. *)
Definition metadata_text (minTime : R) (total : nat) (rundirs : list string) : string :=
  ("{" ++ line ("""minimumTime"": " ++ text6 minTime ++ ",") ++ line ("""totalAnalyzedStepCount"": " ++ str_of_Z (Z.of_nat total) ++ ",") ++
   line """runDirectories"": [" ++ json_listed true rundirs ++ line "]" ++ "}")%string.
(** writePlotfiles.cpp l.313-323. *)
Definition metadata_table_text (minTime : R) (total : nat) : string :=
  (line ("minimumTime" ++ String "009" "totalAnalyzedStepCount") ++ line (text6 minTime ++ String "009" (str_of_Z (Z.of_nat total))))%string.
(** writePlotfiles.cpp l.289, 313: an empty name stands for none. *)
Definition write_unless_empty (path text : string) : list (string * string) := if String.eqb path "" then [] else write path text.
(** writePlotfiles.cpp l.235-246: the settings. *)
Definition settings_of (dirs : list string) : outcome (Z * Z * Z * R * R) :=
  match getConsistentConfigValue (unsigned_setting "mpc.simulationBoxSize.x") integers_differ dirs with Fails f => Fails f | Done x =>
  match getConsistentConfigValue (unsigned_setting "mpc.simulationBoxSize.y") integers_differ dirs with Fails f => Fails f | Done y =>
  match getConsistentConfigValue (unsigned_setting "mpc.simulationBoxSize.z") integers_differ dirs with Fails f => Fails f | Done z =>
  match getConsistentConfigValue (double_setting "bulkThermostat.targetkT") doubles_differ dirs with Fails f => Fails f | Done kT =>
  match getConsistentConfigValue (double_setting "mpc.timestep") doubles_differ dirs with Fails f => Fails f | Done dt =>
  Done (x, y, z, value kT, value dt)
  end end end end end.
(** writePlotfiles.cpp l.227-324: what is written, and whether there is no exception. *)
Definition write_plotfiles (minTime maxTime : R) (dirs : list string) (pathBasename metadata metadataTable : string) : list (string * string) * bool :=
  match settings_of dirs with
  | Fails _ => ([], false)
  | Done (x, y, z, kT, timestep) =>
    match (do texts <- texts_of (data_paths dirs); getWaveVectorsAndPaths F value read texts) with
    | Err _ => ([], false)
    | Ok l =>
      let '(tables, total, ok) := tables_loop dirs pathBasename (x, y, z) kT minTime timestep (max_stride maxTime timestep) l 0 in
      if ok then (tables ++ write_unless_empty metadata (metadata_text minTime total dirs) ++ write_unless_empty metadataTable (metadata_table_text minTime total), true)
      else (tables, false)
    end
  end.
(** main.cpp l.56-108: what is written, and the exit status; options that are required and missing are exceptions. *)
Definition program (o : options F) : list (string * string) * Z :=
  if help o then ([], 0%Z)
  else
    match saveFilename o, rundirs o with
    | Some path, _ :: _ =>
      let default d := match d with Some s => s | None => ""%string end in
      let minTime := match minimumTime o with Some t => value t | None => 0%R end in
      let maxTime := match maxCorrelationTime o with Some t => value t | None => 250%R end in
      let (written, ok) := write_plotfiles minTime maxTime (rundirs o) path (default (metadataFilename o)) (default (metadataTableFilename o)) in
      (written, if ok then 0%Z else 1%Z)
    | _, _ => ([], 1%Z)
    end.
End Ana.
