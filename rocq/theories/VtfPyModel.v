(** Model of the Python class for snapshot files
    (Analysis/MPCDAnalysis/VTFSnapshotFile.py). *)
From Verif Require Export VtfModel.
Open Scope string_scope.
Open Scope Z_scope.
Open Scope list_scope.

(** Iterating over a file: the lines with their line breaks (VTFSnapshotFile.py l.46-58). *)
Fixpoint keep_lines (s : string) : list string :=
  match s with
  | EmptyString => []
  | String a r =>
    if Ascii.eqb a newline then String a EmptyString :: keep_lines r
    else match keep_lines r with
         | [] => [String a EmptyString]
         | h :: t => String a h :: t
         end
  end.
(** VTFSnapshotFile.py l.46-58. *)
Definition is_header (line : string) : bool := String.prefix "timestep" line.

Section Py.
Variable F : Type.
(** [str] of a number. *)
Variable str : F -> string.
(** [float] of a string; [None] is a [ValueError]. *)
Variable float : string -> option F.
(** The interpreter is Python 3. *)
Variable python3 : bool.

Notation vector := (F * F * F)%type.
(** The positions and velocities of a [ParticleCollection]. *)
Notation collection := (list vector * list vector)%type.

(** VTFSnapshotFile.py l.46-58: the structure block, and the lines after the first header. *)
Fixpoint py_readStructureBlock (block : string) (ls : list string) : string * list string :=
  match ls with
  | [] => (block, [])
  | l :: ls' => if is_header l then (block, ls') else py_readStructureBlock (block ++ l)%string ls'
  end.
(** VTFSnapshotFile.py l.8-31 for an existing file that is not compressed. *)
Definition py_open (contents : string) : string * list string :=
  py_readStructureBlock "" (keep_lines contents).

(** ParticleCollection.py l.24-68. *)
Definition setPositionsAndVelocities (positions velocities : list vector) : result collection :=
  if negb (Nat.eqb (length velocities) 0) && negb (Nat.eqb (length positions) (length velocities))
  then Err ValueError else Ok (positions, velocities).
(** VTFSnapshotFile.py l.83-91. *)
Definition py_float (s : string) : result F :=
  match float s with Some x => Ok x | None => Err ValueError end.
(** VTFSnapshotFile.py l.83-91. *)
Definition py_vector (a b c : string) : result vector :=
  do x <- py_float a;
  do y <- py_float b;
  do z <- py_float c;
  Ok (x, y, z).
(** VTFSnapshotFile.py l.66-97; also returns the lines that are left. *)
Fixpoint py_rows (ls : list string) (positions velocities : list vector)
  : result (list vector * list vector * list string) :=
  match ls with
  | [] => Ok (positions, velocities, [])
  | l :: ls' =>
    if is_header l then Ok (positions, velocities, ls')
    else match words is_ws l with
         | [a; b; c] => do x <- py_vector a b c; py_rows ls' (positions ++ [x]) velocities
         | [a; b; c; d; e; f] =>
           do x <- py_vector a b c;
           do v <- py_vector d e f;
           py_rows ls' (positions ++ [x]) (velocities ++ [v])
         | _ => Err ValueError
         end
  end.
(** VTFSnapshotFile.py l.66-97. *)
Definition py_readTimestep (ls : list string) : result (collection * list string) :=
  do (positions, velocities, rest) <- py_rows ls [] [];
  do c <- setPositionsAndVelocities positions velocities;
  Ok (c, rest).

(** VTFSnapshotFile.py l.60-64: appends to the file. *)
Definition py_writeStructureBlock (file : string) (block : string) : string := (file ++ block)%string.
(** VTFSnapshotFile.py l.107-117. *)
Definition vector_text (v : vector) : string :=
  let '(x, y, z) := v in (str x ++ " " ++ str y ++ " " ++ str z)%string.
(** VTFSnapshotFile.py l.107-117: [izip_longest], row by row. *)
Fixpoint py_write_rows (file : string) (positions velocities : list vector) : string * result unit :=
  match positions, velocities with
  | [], [] => (file, Ok tt)
  | p :: ps, [] => py_write_rows (file ++ vector_text p ++ eol)%string ps []
  | p :: ps, v :: vs => py_write_rows (file ++ vector_text p ++ " " ++ vector_text v ++ eol)%string ps vs
  | [], _ :: _ => (file, Err AttributeError)
  end.
(** VTFSnapshotFile.py l.99-117; [itertools.izip_longest] does not exist in Python 3. *)
Definition py_writeTimestep (file : string) (c : collection) : string * result unit :=
  let file' := (file ++ "timestep" ++ eol)%string in
  if python3 then (file', Err AttributeError) else py_write_rows file' (fst c) (snd c).
End Py.
Arguments setPositionsAndVelocities {F}.
Arguments py_float {F}.
Arguments py_vector {F}.
Arguments py_rows {F}.
Arguments py_readTimestep {F}.
Arguments vector_text {F}.
Arguments py_write_rows {F}.
Arguments py_writeTimestep {F}.
