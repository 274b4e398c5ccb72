(** Wave vectors and sizes of simulation boxes of several runs, in Analysis/transverseVelocityCorrelationFunction.py.
    Simplifications: a directory is a list of names of files with their texts, after decompression; numbers are exact; settings are given
    by their values. *)
From Coq Require Import String Ascii List ZArith Bool Reals.
From Verif Require Import PyBase VecModel TvcModel.
Import ListNotations.
Open Scope list_scope.

(** Files of the directory fourierTransformedVelocities (transverseVelocityCorrelationFunction.py l.61): names and texts. *)
Definition directory := list (string * string).
(** What [*.data*] needs after the first characters (transverseVelocityCorrelationFunction.py l.61). *)
Fixpoint has_data (s : string) : bool :=
  String.prefix ".data" s || match s with EmptyString => false | String _ r => has_data r end.
(** [glob.glob], transverseVelocityCorrelationFunction.py l.61: hidden files do not match. *)
Definition matches (name : string) : bool := negb (String.prefix "." name) && has_data name.
(** [sorted], transverseVelocityCorrelationFunction.py l.61. *)
Fixpoint insert_name (n : string) (l : list string) : list string :=
  match l with [] => [n] | m :: r => if String.leb n m then n :: m :: r else m :: insert_name n r end.
(** [sorted(glob.glob(...))], transverseVelocityCorrelationFunction.py l.61. *)
Definition data_files (dir : directory) : list string := fold_right insert_name [] (filter matches (map fst dir)).
(** The text of a file, if it is there (MPCDAnalysis/Utilities.py l.42-49). *)
Definition text_of (dir : directory) (name : string) : option string :=
  match find (fun e => String.eqb (fst e) name) dir with Some e => Some (snd e) | None => None end.
(** [baseFilename[-4:]], MPCDAnalysis/Utilities.py l.42. *)
Definition last4 (s : string) : string := substring (String.length s - 4) 4 s.
(** MPCDAnalysis/Utilities.py l.42-51: [openPossiblyCompressedFile]. *)
Definition open_file (dir : directory) (name : string) : result string :=
  if String.eqb (last4 name) ".bz2" then match text_of dir name with Some t => Ok t | None => Err OSError end
  else match text_of dir (name ++ ".bz2") with
  | Some t => Ok t
  | None => match text_of dir name with Some t => Ok t | None => Err ValueError end
  end.
Section Read.
(** Floating-point numbers (transverseVelocityCorrelationFunction.py l.67). *)
Variable F : Type.
(** Their values (transverseVelocityCorrelationFunction.py l.67). *)
Variable value : F -> R.
(** [float], transverseVelocityCorrelationFunction.py l.67. *)
Variable read : string -> option F.
(** transverseVelocityCorrelationFunction.py l.61-70: the loop over files. *)
Fixpoint wave_loop (dir : directory) (names : list string) : result (list (vec * string)) :=
  match names with
  | [] => Ok []
  | n :: r =>
    do t <- open_file dir n;
    do k <- py_integer_components F value read t;
    do l <- wave_loop dir r;
    Ok ((k, n) :: l)
  end.
(** transverseVelocityCorrelationFunction.py l.58-72. *)
Definition getWaveVectorIntegerComponentsByRundir (dir : directory) : result (list (vec * string)) := wave_loop dir (data_files dir).
(** Equality of vectors, Vector3D.py l.76-83. *)
Definition vec_eq_dec (a b : vec) : {a = b} + {a <> b}.
Proof. decide equality; apply Req_EM_T. Defined.
(** Equality of lists of pairs (transverseVelocityCorrelationFunction.py l.83). *)
Definition waves_eq_dec (a b : list (vec * string)) : {a = b} + {a <> b}.
Proof. apply list_eq_dec. intros [v n] [w m]. destruct (vec_eq_dec v w); [|right; congruence]. destruct (string_dec n m); [left|right]; congruence. Defined.
(** transverseVelocityCorrelationFunction.py l.77-86: the loop over runs. *)
Fixpoint waves_runs (waves : option (list (vec * string))) (dirs : list directory) : result (option (list (vec * string))) :=
  match dirs with
  | [] => Ok waves
  | d :: r =>
    do current <- getWaveVectorIntegerComponentsByRundir d;
    match waves with
    | None => waves_runs (Some current) r
    | Some w => if waves_eq_dec w current then waves_runs (Some w) r else Err ValueError
    end
  end.
(** transverseVelocityCorrelationFunction.py l.75-86. *)
Definition getWaveVectorIntegerComponentsByRundirs (dirs : list directory) : result (option (list (vec * string))) := waves_runs None dirs.
End Read.
(** Sizes, transverseVelocityCorrelationFunction.py l.34-41. *)
Definition box := (Z * Z * Z)%type.
(** Equality of sizes (transverseVelocityCorrelationFunction.py l.52). *)
Definition box_eqb (a b : box) : bool :=
  let '(x, y, z) := a in let '(x', y', z') := b in Z.eqb x x' && Z.eqb y y' && Z.eqb z z'.
(** transverseVelocityCorrelationFunction.py l.46-55: the loop over runs. *)
Fixpoint box_runs (simBox : option box) (boxes : list box) : result (option box) :=
  match boxes with
  | [] => Ok simBox
  | current :: r =>
    match simBox with
    | None => box_runs (Some current) r
    | Some b => if box_eqb b current then box_runs (Some b) r else Err ValueError
    end
  end.
(** transverseVelocityCorrelationFunction.py l.44-55. *)
Definition getSimboxByRundirs (boxes : list box) : result (option box) := box_runs None boxes.
(** transverseVelocityCorrelationFunction.py l.92: one component. *)
Definition wave_component (n : R) (size : Z) : result R := if Z.eqb size 0 then Err ZeroDivisionError else Ok (2 * PI * n / IZR size)%R.
(** transverseVelocityCorrelationFunction.py l.89-94. *)
Definition getWaveVectorFromIntegerComponents (k_n : vec) (simBox : box) : result vec :=
  let '(a, b, c) := simBox in
  do x <- wave_component (vx k_n) a; do y <- wave_component (vy k_n) b; do z <- wave_component (vz k_n) c; Ok (Vec x y z).
