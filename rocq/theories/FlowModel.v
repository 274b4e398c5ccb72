(** Model of the flow profile: its recording and saving by the simulation
    (FlowProfile.hpp, FlowProfile.cpp) and its reading by the analysis
    (Analysis/MPCDAnalysis/FlowProfile.py).  Exact arithmetic. *)
From Verif Require Export QcBase PyBase DictBase OtfsModel.
From Verif Require Export StrBase.
Set Implicit Arguments.
Close Scope string_scope.
Open Scope Qc_scope.

(** * Reading (Python) *)

Notation otfs3 := (otfs * otfs * otfs)%type.
(** FlowProfile.py l.427-436: three fresh statistics. *)
Definition otfs3_new : otfs3 := (otfs_new, otfs_new, otfs_new).

(** A loop that may raise, FlowProfile.py l.47-62. *)
Definition fold_res {A S : Type} (f : S -> A -> result S) : list A -> S -> result S :=
  fix go l s := match l with [] => Ok s | a :: r => do s' <- f s a; go r s' end.

(** One line of data (FlowProfile.py l.56-60). *)
Record row := mk_row {
  r_x : Z; r_y : Z; r_z : Z;
  r_mean : Qc * Qc * Qc;
  r_var : Qc * Qc * Qc;   (* the squares of the standard deviations read *)
  r_n : nat }.

Notation points V := (list (Z * list (Z * list (Z * V)))).

(** The value of a key or a default, FlowProfile.py l.427-436. *)
Definition odflt {A} (d : A) (o : option A) : A := match o with Some a => a | None => d end.

(** FlowProfile.py l.427-436 and l.445-447: look up the three nested
    dictionaries, creating what is missing, and update the entry. *)
Definition upd3 {V} (new : V) (f : V -> result V) (p : points V) (x y z : Z)
  : result (points V) :=
  let px := odflt [] (dget Z.eqb p x) in
  let py := odflt [] (dget Z.eqb px y) in
  let v := odflt new (dget Z.eqb py z) in
  do v' <- f v;
  Ok (dset Z.eqb p x (dset Z.eqb px y (dset Z.eqb py z v'))).

(** FlowProfile.py l.445-447. *)
Definition merge3 (a b : otfs3) : result otfs3 :=
  let '(a0, a1, a2) := a in
  let '(b0, b1, b2) := b in
  do c0 <- mergeSample a0 b0;
  do c1 <- mergeSample a1 b1;
  do c2 <- mergeSample a2 b2;
  Ok (c0, c1, c2).

(** FlowProfile.py l.438-443. *)
Definition row_sample (r : row) : result otfs3 :=
  let '(m0, m1, m2) := r_mean r in
  let '(v0, v1, v2) := r_var r in
  do s0 <- otfs_init (Some m0) (Some v0) (Some (r_n r));
  do s1 <- otfs_init (Some m1) (Some v1) (Some (r_n r));
  do s2 <- otfs_init (Some m2) (Some v2) (Some (r_n r));
  Ok (s0, s1, s2).

(** FlowProfile.py l.412-447. *)
Definition addSampleToPoint (p : points otfs3) (r : row) : result (points otfs3) :=
  do s <- row_sample r;
  upd3 otfs3_new (fun v => merge3 v s) p (r_x r) (r_y r) (r_z r).

(** A line of the file: a comment, an empty line, or data; [LRow None] is a line
    that [int] or [float] rejects (FlowProfile.py l.47-62). *)
Inductive line := LComment | LBlank | LRow (r : option row).

(** FlowProfile.py l.353-408: the settings that are compared. *)
Record fconfig := mk_fconfig { f_sub : nat; f_shear : Qc; f_sizeY : nat }.

(** FlowProfile.py l.6-18: the nested dictionaries. *)
Record profile := mk_profile {
  p_config : fconfig;
  p_points : points otfs3;
  p_blocks : list (points otfs3) }.

(** FlowProfile.py l.47-62: the loop over the lines. *)
Fixpoint read_lines (ls : list line) (p : points otfs3) (blocks : list (points otfs3))
  : result (points otfs3 * list (points otfs3)) :=
  match ls with
  | [] => Ok (p, blocks)
  | LComment :: r => read_lines r p blocks
  | LBlank :: r => read_lines r [] (blocks ++ [p])
  | LRow None :: _ => Err ValueError
  | LRow (Some d) :: r => do p' <- addSampleToPoint p d; read_lines r p' blocks
  end.

(** A run directory: its configuration, and its data file if there is one (FlowProfile.py l.21-66). *)
Record rundir := mk_rundir { rd_config : fconfig; rd_file : option (list line) }.

(** FlowProfile.py l.353-408. *)
Definition fconfig_eqb (a b : fconfig) : bool :=
  Nat.eqb (f_sub a) (f_sub b) && qeqb (f_shear a) (f_shear b) && Nat.eqb (f_sizeY a) (f_sizeY b).

(** FlowProfile.py l.21-66. *)
Definition addRun (s : profile) (d : rundir) : result profile :=
  match p_blocks s with
  | _ :: _ => Err PyException
  | [] =>
    if negb (fconfig_eqb (p_config s) (rd_config d)) then Err PyException else
    match rd_file d with
    | None => Err PyException
    | Some ls =>
      do pb <- read_lines ls (p_points s) [];
      let (p, b) := pb in
      match b with
      | [] => Ok (mk_profile (p_config s) p [])
      | _ :: _ => Ok (mk_profile (p_config s) [] (b ++ [p]))
      end
    end
  end.

(** FlowProfile.py l.6-18. *)
Definition fp_new (d : rundir) : result profile := addRun (mk_profile (rd_config d) [] []) d.

(** FlowProfile.py l.164-166. *)
Definition yCoord (sub : nat) (shift : bool) (y : Z) : Qc :=
  if shift then qz y / qn sub + (1 / (1 + 1)) / qn sub else qz y / qn sub.

(** FlowProfile.py l.162-178: the loops; [coord] computes the key. *)
Definition prof_z {V} (new : V) (mrg : V -> V -> result V) (k : Qc)
  (ret : list (Qc * V)) (zs : list (Z * V)) : result (list (Qc * V)) :=
  fold_res (fun ret zv =>
    do v <- mrg (odflt new (dget qeqb ret k)) (snd zv);
    Ok (dset qeqb ret k v)) zs ret.
(** FlowProfile.py l.162-178. *)
Definition prof_y {V} (new : V) (mrg : V -> V -> result V) (coord : Z -> Qc)
  (ret : list (Qc * V)) (ys : list (Z * list (Z * V))) : result (list (Qc * V)) :=
  fold_res (fun ret yv =>
    let k := coord (fst yv) in
    let ret := match dget qeqb ret k with None => dset qeqb ret k new | Some _ => ret end in
    prof_z new mrg k ret (snd yv)) ys ret.
(** FlowProfile.py l.162-178. *)
Definition prof_x {V} (new : V) (mrg : V -> V -> result V) (coord : Z -> Qc)
  (p : points V) : result (list (Qc * V)) :=
  fold_res (fun ret xv => prof_y new mrg coord ret (snd xv)) p [].
(** FlowProfile.py l.141-180. *)
Definition getFlowProfileAsFunctionOfY (s : profile) (shift : bool) : result (list (Qc * otfs3)) :=
  prof_x otfs3_new merge3 (yCoord (f_sub (p_config s)) shift) (p_points s).

(** FlowProfile.py l.183-200. *)
Definition getGlobalFlowStatistics (s : profile) : result otfs3 :=
  fold_res (fun acc xv =>
    fold_res (fun acc yv =>
      fold_res (fun acc zv => merge3 acc (snd zv)) (snd yv) acc) (snd xv) acc)
    (p_points s) otfs3_new.

(** * Recording and saving (C++) *)

Notation vec := (Qc * Qc * Qc)%type.
Notation cell := (nat * nat * nat)%type.

(** One output block: the statistics of the three velocity components in every
    cell (FlowProfile.cpp l.97-113). *)
Notation fblock := (cell -> otfs3).
(** FlowProfile.cpp l.51-73: an empty block. *)
Definition fblock_new : fblock := fun _ => otfs3_new.

(** FlowProfile.hpp l.206-240 and FlowProfile.cpp l.18-22. The blocks are kept
    with the newest first. *)
Record cfp := mk_cfp {
  c_shape : cell;      (* numbers of cells, box size times subdivisions *)
  c_subs : cell;       (* cellSubdivisionsX, Y, Z *)
  c_per : nat;         (* sweepCountPerOutput *)
  c_count : nat;       (* currentBlockSweepCount *)
  c_blocks : list fblock }.

(** FlowProfile.cpp l.12-48, for positive box sizes. *)
Definition cfp_new (box subs : cell) (per : nat) : result cfp :=
  let '(bx, by_, bz) := box in
  let '(sx, sy, sz) := subs in
  if Nat.eqb sx 0 then Err InvalidConfigurationException else
  if Nat.eqb sy 0 then Err InvalidConfigurationException else
  if Nat.eqb sz 0 then Err InvalidConfigurationException else
  Ok (mk_cfp (bx * sx, by_ * sy, bz * sz)%nat subs per 0 []).

(** FlowProfile.cpp l.51-73. *)
Definition newSweep (s : cfp) : cfp :=
  match c_blocks s with
  | [] => mk_cfp (c_shape s) (c_subs s) (c_per s) (c_count s) [fblock_new]
  | _ =>
    let count := S (c_count s) in
    if Nat.eqb (c_per s) 0 then mk_cfp (c_shape s) (c_subs s) (c_per s) count (c_blocks s)
    else if negb (Nat.eqb count (c_per s))
    then mk_cfp (c_shape s) (c_subs s) (c_per s) count (c_blocks s)
    else mk_cfp (c_shape s) (c_subs s) (c_per s) 0 (fblock_new :: c_blocks s)
  end.

(** Comparison of indices, FlowProfile.hpp l.129-145. *)
Definition cell_eqb (a b : cell) : bool :=
  let '(x, y, z) := a in let '(x', y', z') := b in
  Nat.eqb x x' && Nat.eqb y y' && Nat.eqb z z'.
(** The bounds of the array, FlowProfile.hpp l.129-145. *)
Definition in_shape (s : cell) (c : cell) : bool :=
  let '(x, y, z) := c in let '(x', y', z') := s in
  Nat.ltb x x' && Nat.ltb y y' && Nat.ltb z z'.
(** FlowProfile.hpp l.129-145. *)
Definition add3 (s : otfs3) (v : vec) : otfs3 :=
  let '(a, b, c) := s in let '(x, y, z) := v in (addDatum a x, addDatum b y, addDatum c z).

(** FlowProfile.hpp l.129-145, with the checks of the debug build. *)
Definition cfp_add (s : cfp) (c : cell) (v : vec) : result cfp :=
  match c_blocks s with
  | [] => Err LogicError
  | b :: r =>
    if negb (in_shape (c_shape s) c) then Err OutOfBoundsException else
    Ok (mk_cfp (c_shape s) (c_subs s) (c_per s) (c_count s)
         ((fun c' => if cell_eqb c' c then add3 (b c') v else b c') :: r))
  end.

(** The calls of FlowProfile.hpp l.129-145 and FlowProfile.cpp l.51-73. *)
Inductive fop := FSweep | FAdd (c : cell) (v : vec).
(** One call, FlowProfile.hpp l.129-145 and FlowProfile.cpp l.51-73. *)
Definition fexec (s : cfp) (o : fop) : result cfp :=
  match o with FSweep => Ok (newSweep s) | FAdd c v => cfp_add s c v end.
(** A sequence of calls, FlowProfile.hpp l.129-145 and FlowProfile.cpp l.51-73. *)
Definition frun (s : cfp) (os : list fop) : result cfp := fold_res fexec os s.

(** The blocks in the order in which they were created (FlowProfile.cpp l.76-94). *)
Definition blocks_in_order (s : cfp) : list fblock := rev (c_blocks s).

(** Cells in the order of the loops in FlowProfile.cpp l.120-124. *)
Definition cells (shape : cell) : list cell :=
  let '(nx, ny, nz) := shape in
  flat_map (fun x => flat_map (fun y => map (fun z => (x, y, z)) (seq 0 nz)) (seq 0 ny)) (seq 0 nx).

Section Text.
(** Printing of a coordinate or mean, and of a standard deviation (given here by
    its square), by [std::ostream]; reading by Python's [int], [float] and
    [float]-then-square. *)
Variables (fmt fmt_sd : Qc -> string).
Variables (parse_int : string -> option Z) (parse parse_sq : string -> option Qc).
Open Scope string_scope.

(** FlowProfile.cpp l.130-151. *)
Definition tab : ascii := "009"%char.
(** FlowProfile.cpp l.130-151. *)
Definition nl : ascii := "010"%char.

(** FlowProfile.cpp l.130-151: one line, without its line break. *)
Definition row_text (subs : cell) (b : fblock) (c : cell) : string :=
  let '(x, y, z) := c in let '(sx, sy, sz) := subs in
  let '(s0, s1, s2) := b c in
  join tab
    [ fmt (qn x / qn sx); fmt (qn y / qn sy); fmt (qn z / qn sz);
      fmt (cpp_getSampleMean s0); fmt (cpp_getSampleMean s1); fmt (cpp_getSampleMean s2);
      fmt_sd (cpp_getSampleVariance s0); fmt_sd (cpp_getSampleVariance s1);
      fmt_sd (cpp_getSampleVariance s2);
      str_of_Z (Z.of_nat (getSampleSize s0)) ].

(** FlowProfile.cpp l.84-87. *)
Definition header : string :=
  join tab ["#x"; "y"; "z"; "meanVelX"; "meanVelY"; "meanVelZ";
            "stdDevVelX"; "stdDevVelY"; "stdDevVelZ"; "sampleSize"].

(** Output in sequence, FlowProfile.cpp l.116-164. *)
Fixpoint sconcat (l : list string) : string :=
  match l with [] => "" | a :: r => a ++ sconcat r end.

(** FlowProfile.cpp l.116-164. *)
Definition block_text (shape subs : cell) (b : fblock) : string :=
  sconcat (map (fun c => row_text subs b c ++ String nl "") (cells shape)).
(** FlowProfile.cpp l.76-94. *)
Definition file_text (s : cfp) : string :=
  header ++ sconcat (map (fun b => String nl (block_text (c_shape s) (c_subs s) b))
                         (blocks_in_order s)).

(** Python's iteration over the lines of a text file, line breaks removed (FlowProfile.py l.47). *)
Definition py_lines (text : string) : list string :=
  let ps := split nl text in
  match last ps "" with
  | "" => removelast ps
  | _ => ps
  end.

(** Conversions that may raise, FlowProfile.py l.56-60. *)
Definition obind {A B} (o : option A) (f : A -> option B) : option B :=
  match o with Some a => f a | None => None end.

(** FlowProfile.py l.56-60, 439-443. Simplified: splits at tabs only. *)
Definition parse_row (l : string) : option row :=
  match split tab l with
  | c0 :: c1 :: c2 :: c3 :: c4 :: c5 :: c6 :: c7 :: c8 :: c9 :: _ =>
    obind (parse_int c0) (fun x => obind (parse_int c1) (fun y => obind (parse_int c2) (fun z =>
    obind (parse c3) (fun m0 => obind (parse c4) (fun m1 => obind (parse c5) (fun m2 =>
    obind (parse_sq c6) (fun v0 => obind (parse_sq c7) (fun v1 => obind (parse_sq c8) (fun v2 =>
    obind (Z_of_str c9) (fun n =>
    if Z.ltb n 0 then None else
    Some (mk_row x y z (m0, m1, m2) (v0, v1, v2) (Z.to_nat n))))))))))))
  | _ => None
  end.
(** FlowProfile.py l.47-56. *)
Definition parse_line (l : string) : line :=
  match l with
  | "" => LBlank
  | String a _ => if Ascii.eqb a "#" then LComment else LRow (parse_row l)
  end.
(** FlowProfile.py l.47-62. *)
Definition parse_file (text : string) : list line := map parse_line (py_lines text).
End Text.
