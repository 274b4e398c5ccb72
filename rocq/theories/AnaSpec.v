(** Files of runs, and tables of correlation functions as texts. *)
From Coq Require Import String Ascii List ZArith Bool Reals.
From Verif Require Import PyBase StrBase VecModel VtfModel TvcModel TvcSpec CfgModel CfgSpec.
Import ListNotations.
Open Scope string_scope.
Open Scope list_scope.

(** Digits, then [.data], and then anything. *)
Definition decimal (a : ascii) : Prop := exists n, (n < 10)%nat /\ a = ascii_of_nat (48 + n).
Definition data_name (s : string) : Prop :=
  exists digits rest, digits <> "" /\ (forall a, In a (list_ascii_of_string digits) -> decimal a) /\ s = (digits ++ ".data" ++ rest)%string.
Definition ends_with (suffix s : string) : Prop := exists start, s = (start ++ suffix)%string.

(** The entries of a list that have a property, in order. *)
Inductive selected {A} (P : A -> Prop) : list A -> list A -> Prop :=
| selected_nil : selected P [] []
| selected_keep x l l' : P x -> selected P l l' -> selected P (x :: l) (x :: l')
| selected_drop x l l' : ~ P x -> selected P l l' -> selected P (x :: l) l'.

Section Files.
Variables (directory : string -> option (list string)) (regular : string -> option string) (decompressed : string -> string).
(** The text of a file that may be compressed. *)
Inductive opens : string -> string -> Prop :=
| opens_plain p c : regular p = Some c -> ~ ends_with ".bz2" p -> opens p c
| opens_compressed p c : regular p = Some c -> ends_with ".bz2" p -> opens p (decompressed c)
| opens_other p c : regular p = None -> regular (p ++ ".bz2")%string = Some c -> opens p (decompressed c).
(** The files in a directory that have a name with a property. *)
Definition files_in (dir : string) (P : string -> Prop) (found : list string) : Prop :=
  match directory dir with
  | None => found = []
  | Some names => selected (fun name => regular (dir ++ "/" ++ name)%string <> None /\ P name) names found
  end.
(** The files with measurements of all runs. *)
Definition measured (dirs : list string) (paths : list string) : Prop :=
  exists names, Forall2 (fun dir found => files_in (dir ++ "/fourierTransformedVelocities")%string data_name found) dirs names
  /\ paths = concat (map (fun p => map (fun name => (fst p ++ "/fourierTransformedVelocities/" ++ name)%string) (snd p)) (combine dirs names)).
End Files.

(** The contents of a file when everything has been written, one after another. *)
Fixpoint finally (path : string) (written : list (string * string)) (before : option string) : option string :=
  match written with
  | [] => before
  | (p, t) :: r => finally path r (if String.eqb p path then Some t else before)
  end.

(** A table as text: lines that start with a name, and then the columns. *)
Definition tab : string := String "009" "".
Definition lines (l : list string) : string := String.concat "" (map (fun s => s ++ String newline "")%string l).
Definition quoted (q : string) (l : list string) : list string := map (fun s => q ++ s ++ q)%string l.
Definition columns : list string :=
  ["#correlation-time"; "normalized-TVACFFT"; "TVACFFT"; "sample-size"; "TVACFFT-sample-standard-deviation"; "TVACFFT-DDDA-optimal-block-ID";
   "TVACFFT-DDDA-optimal-standard-error-of-the-mean"; "TVACFFT-DDDA-optimal-standard-error-of-the-mean-is-reliable"].
Section Table.
Variables (text17 text6 : R -> string) (standard_deviation optimal_block optimal_error reliable : list R -> string).
Definition preamble (dirs : list string) (k : vec) (box : Z * Z * Z) (kT dt : R) (count : nat) : list string :=
  let '(x, y, z) := box in
  (map (fun p => "#" ++ fst p ++ " = " ++ snd p)%string
    [("rundirs", ("[" ++ String.concat ", " (quoted "'" dirs) ++ "]")%string);
     ("k_nx", text17 (vx k)); ("k_ny", text17 (vy k)); ("k_nz", text17 (vz k)); ("L_x", text17 (IZR x)); ("L_y", text17 (IZR y)); ("L_z", text17 (IZR z));
     ("kT", text17 kT); ("mpcTimestep", text17 dt); ("sampleSizes", str_of_Z (Z.of_nat count))]) ++
  ["#"; String.concat tab columns].
Definition correlation_row (t first : R) (data : list R) : string :=
  String.concat tab [text17 t; text17 (mean_of data / first); text17 (mean_of data); str_of_Z (Z.of_nat (length data)); standard_deviation data; optimal_block data; optimal_error data; reliable data].
(** The table for the products of pairs of measurements that are [s] steps apart. *)
Definition correlation_table (dirs : list string) (k : vec) (box : Z * Z * Z) (kT dt : R) (count n : nat) (data : nat -> list R) : string :=
  lines (preamble dirs k box kT dt count ++ map (fun s => correlation_row (INR s * dt) (mean_of (data 0%nat)) (data s)) (seq 0 n)).
Definition table_name (base : string) (k : vec) : string :=
  (base ++ "--k_nx=" ++ text6 (vx k) ++ "--k_ny=" ++ text6 (vy k) ++ "--k_nz=" ++ text6 (vz k) ++ ".data")%string.
Definition metadata (minimumTime : R) (count : nat) (dirs : list string) : string :=
  (lines ["{""minimumTime"": " ++ text6 minimumTime ++ ","; """totalAnalyzedStepCount"": " ++ str_of_Z (Z.of_nat count) ++ ","; """runDirectories"": [";
         String.concat ("," ++ String newline "") (quoted """" dirs) ++ "]"]%string ++ "}")%string.
Definition metadata_table (minimumTime : R) (count : nat) : string :=
  lines [String.concat tab ["minimumTime"; "totalAnalyzedStepCount"]; String.concat tab [text6 minimumTime; str_of_Z (Z.of_nat count)]].
Definition given (path : option string) (text : string) : list (string * string) :=
  match path with Some p => if String.eqb p "" then [] else [(p, text)] | None => [] end.
End Table.

Section Settings.
Context {F : Type}.
Variables (value : F -> R) (load : string -> outcome (setting F)).
(** What a run's configuration says. *)
Definition configured (dir : string) (p : list string) (v : scalar F) : Prop := exists config, load (dir ++ "/config.txt")%string = Done config /\ reaches config p (Scalar v).
Definition setting_in {A} (get : setting F -> outcome A) (dir : string) (v : A) : Prop := exists config, load (dir ++ "/config.txt")%string = Done config /\ get config = Done v.
(** All runs have the same value. *)
Definition agreed_integer (dirs : list string) (p : list string) (z : Z) : Prop := dirs <> [] /\ forall dir, In dir dirs -> configured dir p (VInt z).
Definition agreed_number (dirs : list string) (p : list string) (x : R) : Prop := dirs <> [] /\ forall dir, In dir dirs -> exists d, configured dir p (VFloat d) /\ value d = x.
Definition never_negative (dirs : list string) (p : list string) : Prop := forall dir z, In dir dirs -> configured dir p (VInt z) -> (0 <= z)%Z.
(** How many measurements there are for a wave vector. *)
Definition counted (m : R) (runs : list (F * F * F * list (F * (F * F * F * F * F * F)))) (k : vec) : nat := length (flat_map (fun r => late F value m (snd r)) (of_vector F value k runs)).
End Settings.
Definition otherwise {A} (o : option A) (d : A) : A := match o with Some a => a | None => d end.
(** The value that was given last. *)
Definition last_given (name : string) (pairs : list (string * string)) : option string :=
  fold_left (fun v p => if String.eqb (trim (fst p)) name then Some (trim (snd p)) else v) pairs None.
(** Where settings are. *)
Definition side (x : string) : list string := ["mpc"; "simulationBoxSize"; x]%string.
Definition temperature : list string := ["bulkThermostat"; "targetkT"]%string.
Definition time_step : list string := ["mpc"; "timestep"]%string.
