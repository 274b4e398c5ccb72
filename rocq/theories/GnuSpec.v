(** How gnuplot reads a command with inline data, and the curves that it should show. *)
From Coq Require Import String Ascii List Bool.
From Verif Require Import QcBase PyBase StrBase EmpModel EmpSpec PtsModel PtsSpec.
Import ListNotations.
Open Scope string_scope.
Open Scope list_scope.
Open Scope Qc_scope.

(** Lines before the first "plot" are settings. *)
Fixpoint find_plot (lines : list string) : option (string * list string) :=
  match lines with
  | [] => None
  | l :: r => if String.prefix "plot " l then Some (String.substring 5 (String.length l - 5) l, r) else find_plot r
  end.
(** The data of a curve are the lines up to one that says "e"; [None] if there is none. *)
Fixpoint read_block (lines : list string) : list string * option (list string) :=
  match lines with
  | [] => ([], None)
  | l :: r => if String.eqb l "e" then ([], Some r) else let (b, rest) := read_block r in (l :: b, rest)
  end.
(** The data of each curve, one after the other, and what follows, [None] if the last curve does not end. *)
Fixpoint read_blocks (items : list string) (lines : list string) : list (string * list string) * option (list string) :=
  match items with
  | [] => ([], Some lines)
  | i :: items =>
    let (b, rest) := read_block lines in
    match rest with
    | None => ([(i, b)], None)
    | Some lines => let (bs, rest) := read_blocks items lines in ((i, b) :: bs, rest)
    end
  end.
Definition skip_blank (s : string) : string := match s with String " " r => r | _ => s end.
(** The curves of the first plot: what is asked for, and the lines of data; and what is left. *)
Definition gnuplot (text : string) : option (list (string * list string) * option (list string)) :=
  match find_plot (split "010" text) with
  | None => None
  | Some (items, lines) => Some (read_blocks (map skip_blank (split "," items)) lines)
  end.

(** How numbers are printed: without commas and line ends. *)
Definition clean (s : string) : Prop := has_char "," s = false /\ has_char "010" s = false.

(** The elements of a list, each where it occurs first. *)
Fixpoint firsts {K} (eqb : K -> K -> bool) (l : list K) : list K :=
  match l with [] => [] | x :: r => x :: filter (fun y => negb (eqb x y)) (firsts eqb r) end.
(** The last value that is given for a key. *)
Fixpoint lasts {K V} (eqb : K -> K -> bool) (k : K) (l : list (K * V)) (v : V) : V :=
  match l with [] => v | (k', v') :: r => lasts eqb k r (if eqb k k' then v' else v) end.
(** Points for the keys in order of their first occurrence, with the values given last. *)
Definition table {K V} (eqb : K -> K -> bool) (l : list (K * V)) : list (K * V) :=
  map (fun p => (fst p, lasts eqb (fst p) l (snd p))) (firsts (fun p q => eqb (fst p) (fst q)) l).
(** The measurements, of a curve, at a point, with a value, as curves. *)
Definition curves {K V} (eqb : K -> K -> bool) (ms : list (K * (K * V))) : list (K * list (K * V)) :=
  map (fun k => (k, table eqb (map snd (filter (fun m => eqb k (fst m)) ms)))) (firsts eqb (map fst ms)).

(** Runs, and what was measured in them. *)
Section Runs.
Variables (fs : filesystem) (sqrt : Qc -> Qc) (float : string -> option Qc).
Definition stored (name : string) (data : list (Qc * Qc)) : Prop := readValuePairsFromFile float fs name None = Done data.
(** The measurement time, the shear rate, and mean and deviation of the self-diffusion coefficient. *)
Definition diffusion_run {K} (value : string -> string -> K) (rundir : string) (m : K * (K * (Qc * Qc))) : Prop :=
  exists data, stored (rundir ++ "/selfDiffusionCoefficient.data")%string data /\ data <> [] /\
    m = (value rundir "instrumentation.selfDiffusionCoefficient.measurementTime", (value rundir "boundaryConditions.shearRate",
         (PtsSpec.mean (map snd data), sqrt (mean_square_deviation (map snd data))))).
(** The spring constant of both bonds, the shear rate, and the root mean square length of the first bond. *)
Definition bond_run {K} (value : string -> string -> K) (rundir : string) (m : K * (K * Qc)) : Prop :=
  exists data k, stored (rundir ++ "/harmonicTrimers/bond1/lengthSquaredHistogram.data")%string data /\ qsum (map snd data) <> 0 /\ 0 <= weighted_mean data /\
    value rundir "mpc.fluid.harmonicTrimers.springConstant1" = k /\ value rundir "mpc.fluid.harmonicTrimers.springConstant2" = k /\
    m = (k, (value rundir "boundaryConditions.shearRate", sqrt (weighted_mean data))).
(** What static_data.txt says. *)
Definition static (rundir name : string) (x : Qc) : Prop := exists text data, fs (rundir ++ "/static_data.txt")%string = Some text /\ static_read float text = Ok data /\ static_get data name = Ok x.
(** The Weissenberg number of a run: from its configuration, if this has a relaxation time, or from its static data. *)
Definition weissenberg_number (setting : string -> string -> Qc * bool) (rundir : string) (Wi : Qc) : Prop :=
  exists tau there, setting rundir "mpc.fluid.dumbbell.zeroShearRelaxationTime" = (tau, there) /\
    if there then Wi = fst (setting rundir "boundaryConditions.shearRate") * tau else static rundir "weissenbergNumber" Wi.
(** The Weissenberg number and |tan(2 chi)|. *)
Definition aligned_run (setting : string -> string -> Qc * bool) (rundir : string) (m : Qc * Qc) : Prop :=
  weissenberg_number setting rundir (fst m) /\ exists xx yy xy a b c, alignment float fs rundir = Done (xx, yy, xy) /\
    sample_mean xx = Ok a /\ sample_mean yy = Ok b /\ sample_mean xy = Ok c /\ a <> b /\ 0 <= snd m /\ (snd m = (1 + 1) * c / (a - b) \/ snd m = - ((1 + 1) * c / (a - b))).
(** The Weissenberg number and the mean of the product of two components. *)
Definition xy_run (rundir : string) (m : Qc * Qc) : Prop :=
  static rundir "weissenbergNumber" (fst m) /\ exists data, stored (rundir ++ "/dumbbellBondXYHistogram.gnuplot")%string data /\ sample_mean data = Ok (snd m).
End Runs.
(** The [i]-th of 100 points from [lo] to [hi]. *)
Definition sample (lo hi : Qc) (i : nat) : Qc := lo + (hi - lo) * qn i / qz 99.
(** A line with two values, separated by a tabulator. *)
Definition two_values (a b : string) : string := (a ++ String "009" "" ++ b)%string.
(** The theory: nothing, or a constant and a file with the given lines and the beginning of another one. *)
Definition theory_curve := option (string * string * list string * string).
(** How it is asked for. *)
Definition theory_args (t : theory_curve) : list string := match t with None => [] | Some (k, f, _, _) => [("--theory=" ++ k ++ "," ++ f)%string] end.
(** The file has these lines; none ends the data. *)
Definition theory_fits (fs : filesystem) (t : theory_curve) : Prop :=
  match t with
  | None => True
  | Some (k, f, ls, rest) => clean k /\ has_char "," f = false /\ fs f = Some (text_of_lines ls rest) /\ (forall l, In l ls -> has_char "010" l = false /\ l <> "e") /\ has_char "010" rest = false
  end.
(** What gnuplot takes for the theory. *)
Definition theory_shown (t : theory_curve) : list (string * list string) :=
  match t with
  | None => []
  | Some (k, _, ls, rest) => [(("'-' with lines title 'Theory k=" ++ k ++ "'")%string, if String.eqb rest "" then ls else ls ++ [(rest ++ "e")%string; ""])]
  end.
(** What is left after it. *)
Definition theory_left (t : theory_curve) : option (list string) := match t with Some (_, _, _, rest) => if String.eqb rest "" then Some [""] else None | None => Some [""] end.
