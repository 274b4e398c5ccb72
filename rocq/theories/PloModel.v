(** Interactive plots: Analysis/MPCDAnalysis/InteractivePlotter/Plotter.py, with the files that it reads, PlotTools.py, MatplotlibTools/mergeAxes.py, and the files that
    Analysis/transverseVelocityCorrelationFunction.py writes for the plotter.
    Simplifications: Python 2, in which the list of plots can be sorted; the keys of a dictionary are in the order in which they were added; of matplotlib, only the lines, their data, style, colour
    and label are kept, and a colour is its number in the cycle; of the list of plots in the window, the columns, the cells, and the column by which it is sorted are kept (and not the order of the
    rows, widths and images; a list that has not been sorted is in any order); scales of axes are left out where nothing depends on them; exact arithmetic, and no number is "not a number";
    [MalformedFileException] stands for [FileFormatException], [OutOfBoundsException] for [OutOfRangeException], and [OSError] for [IOError]. *)
From Coq Require Import String Ascii Qround.
From Verif Require Import QcBase PyBase StrBase VtfModel VtfPyModel EmpModel Data2DModel.
From Verif Require TvcModel.
Open Scope string_scope.
Open Scope list_scope.
Open Scope Qc_scope.

(** * Lines *)
(** A line in axes: its points, whether it is dashed, its colour and its label (PlotTools.py l.49, Plotter.py l.232). *)
Record line2d := Line2D { xdata : list Qc; ydata : list Qc; dashed : bool; color : nat; label : option string }.
(** Axes: the lines, by the number of the object, the number of lines created, and the next colour of the cycle (Plotter.py l.209, 220, 232). *)
Record axes := Axes { lines : list (nat * line2d); created : nat; next_color : nat }.
(** [ax.plot] (PlotTools.py l.38, 49, Plotter.py l.232): the axes, and the new lines; the lists must have the same length. *)
Definition axes_plot (ax : axes) (x y : list Qc) (dash : bool) (col : option nat) (lab : option string) : axes * result (list nat) :=
  if negb (Nat.eqb (length x) (length y)) then (ax, Err ValueError)
  else
    let c := match col with Some c => c | None => next_color ax end in
    (Axes (lines ax ++ [(created ax, Line2D x y dash c lab)]) (S (created ax)) (match col with Some _ => next_color ax | None => S (next_color ax) end), Ok [created ax]).
(** [l[i:j]] (PlotTools.py l.45-46). *)
Definition slice {A} (i j : nat) (l : list A) : list A := firstn (j - i) (skipn i l).
(** PlotTools.py l.42-55: the loop over ranges. *)
Fixpoint ranges_plot (ax : axes) (x y : list Qc) (ranges : list ((nat * nat) * bool)) (col : option nat) (lab : option string) (ids : list nat) : axes * result (list nat) :=
  match ranges with
  | [] => (ax, Ok ids)
  | ((i, j), sign) :: r =>
    let currentY := if sign then slice i j y else map Qcopp (slice i j y) in
    let c := match col with Some c => c | None => next_color ax end in
    match axes_plot ax (slice i j x) currentY (negb sign) col lab with
    | (ax, Err e) => (ax, Err e)
    | (ax, Ok new) => ranges_plot ax x y r (Some c) None (ids ++ new)
    end
  end.
(** PlotTools.py l.31-78, without errors of the values. *)
Definition plotDashedIfNegative (ax : axes) (x y : list Qc) (lab : option string) : axes * result (list nat) :=
  match findRangesOfEqualSign y with
  | [] => axes_plot ax x y false None lab
  | ranges => ranges_plot ax x y ranges None lab []
  end.
(** PlotTools.py l.62-73: the bounds for a value and its error. *)
Definition error_bounds (logY : bool) (defaultLowerErrorBound value error : Qc) : Qc * Qc :=
  let lower := value - error in
  let upper := value + error in
  let (lower, upper) := if qltb value 0 then (- upper, - lower) else (lower, upper) in
  if logY then (if qltb lower 0 then defaultLowerErrorBound else lower, if qltb upper 0 then defaultLowerErrorBound else upper) else (lower, upper).
(** PlotTools.py l.57-76: the loop over values. *)
Fixpoint error_band (logY : bool) (defaultLowerErrorBound : Qc) (y yErrors : list Qc) : result (list (Qc * Qc)) :=
  match y, yErrors with
  | [], _ => Ok []
  | _, [] => Err IndexError
  | v :: y, e :: yErrors => do r <- error_band logY defaultLowerErrorBound y yErrors; Ok (error_bounds logY defaultLowerErrorBound v e :: r)
  end.

(** PlotTools.py l.116-126: the step size of a slider, if it is acceptable; it is an integer. *)
Definition slider (stepSize : Z) : result Z := if Z.leb stepSize 0 then Err ValueError else Ok stepSize.
(** PlotTools.py l.142: the value that is shown, and given to the observers. *)
Definition discreteValue (stepSize : Z) (continuousValue : Qc) : Z := (Qfloor (this (continuousValue / qz stepSize)) * stepSize)%Z.

(** * Axes that are merged (mergeAxes.py) *)
(** Axes with texts: the points of the lines, title and labels, and the legend, if there is one, as texts for lines (mergeAxes.py l.26-36). *)
Record chart := Chart { chart_lines : list (list Qc * list Qc); title : string; xlabel : string; ylabel : string; legend : option (list (nat * string)) }.
(** mergeAxes.py l.26-36: lines, titles, labels and texts. *)
Fixpoint collect (axesList : list chart) : result (list (list Qc * list Qc) * list string * list string * list string * list string) :=
  match axesList with
  | [] => Ok ([], [], [], [], [])
  | a :: r =>
    match legend a with
    | None => Err AttributeError
    | Some texts =>
      do c <- collect r;
      let '(ls, ts, xs, ys, ll) := c in
      Ok (chart_lines a ++ ls, title a :: ts, xlabel a :: xs, ylabel a :: ys, map snd texts ++ ll)
    end
  end.
(** mergeAxes.py l.44-58: what is set for different labels; without any, the text of new axes remains. *)
Definition joined (uniqueLabels : list string) : string := String.concat " | " uniqueLabels.
(** [list(set(l))] for a way to order elements (mergeAxes.py l.40-42). *)
Definition unique (set_order : list string -> list string) (l : list string) : list string := set_order (nodup string_dec l).
(** mergeAxes.py l.1-64; [legend] gives the texts to the lines in their order (l.38). *)
Definition mergeAxes (set_order : list string -> list string) (axesList : list chart) : result chart :=
  do c <- collect axesList;
  let '(ls, ts, xs, ys, ll) := c in
  Ok (Chart ls (joined (unique set_order ts)) (joined (unique set_order xs)) (joined (unique set_order ys)) (Some (combine (seq 0 (length ls)) ll))).

(** * The plotter *)
Section Plotter.
(** [float]; [None] is an exception (Plotter.py l.103, 114-115). *)
Variable float : string -> option Qc.
(** The value of a characteristic (Plotter.py l.102-106). *)
Inductive characteristic := Number (x : Qc) | Text (s : string).
(** A dictionary of characteristics (Plotter.py l.62). *)
Definition dict := list (string * characteristic).
(** [name in characteristics] and [characteristics[name]] (Plotter.py l.99, 280-281). *)
Fixpoint lookup (d : dict) (name : string) : option characteristic :=
  match d with [] => None | (n, v) :: r => if String.eqb n name then Some v else lookup r name end.
(** [str.strip] (Plotter.py l.90, 97). *)
Definition strip : string -> string := TvcModel.trim.
(** [s[1:]] (Plotter.py l.90, 97). *)
Definition tail (s : string) : string := match s with String _ r => r | EmptyString => EmptyString end.
(** [line.split('=', 1)] (Plotter.py l.91). *)
Fixpoint split_once (c : ascii) (s : string) : list string :=
  match s with
  | EmptyString => [EmptyString]
  | String a r => if Ascii.eqb a c then [EmptyString; r] else match split_once c r with h :: t => String a h :: t | [] => [String a EmptyString] end
  end.
(** Plotter.py l.89-91: the parts of a comment. *)
Definition comment_parts (line : string) : list string :=
  let parts := StrBase.split "=" line in
  if String.eqb (strip (tail (hd "" parts))) "rundirs" then split_once "=" line else parts.
(** Plotter.py l.102-106. *)
Definition interpreted (value : string) : characteristic := match float value with Some x => Number x | None => Text value end.
(** Plotter.py l.87-115: the loop over the lines of a file; the dictionary, which has been changed even if there is an exception, and the coordinates. *)
Fixpoint read_lines (lines : list string) (d : dict) (x y : list Qc) : dict * result (list Qc * list Qc) :=
  match lines with
  | [] => (d, Ok (x, y))
  | line :: r =>
    if String.prefix "#" line then
      match comment_parts line with
      | [property_; value] =>
        let name := strip (tail property_) in
        match lookup d name with
        | Some _ => read_lines r d x y
        | None => read_lines r (d ++ [(name, interpreted value)]) x y
        end
      | _ => (d, Err MalformedFileException)
      end
    else
      match words is_ws line with
      | [a; b] =>
        match float a, float b with
        | Some u, Some v => read_lines r d (x ++ [u]) (y ++ [v])
        | _, _ => (d, Err ValueError)
        end
      | _ => (d, Err MalformedFileException)
      end
  end.

(** A plot (Plotter.py l.57): its lines on the canvas, if they have been drawn, its data, whether it is shown, its label, and its dictionary, by the number of the object. *)
Record plot := PlotOf { plines : option (list nat); px : list Qc; py : list Qc; pshow : bool; plabel : option string; pdict : nat }.
(** A cell of the list of plots (Plotter.py l.276-283). *)
Inductive cell := Shown (b : bool) | Value (v : characteristic) | Nothing.
(** The list of plots: the names of its columns, its cells by plot and column, and the column by which it is sorted, with the direction (Plotter.py l.243-292). *)
Record selector := Selector { columns : list string; cells : list (list cell); sorted_by : option (nat * bool) }.
(** A plotter, with all dictionaries (Plotter.py l.22-29). *)
Record plotter := Plotter {
  heap : list dict; plots : list plot; canvas : axes; plot_dashed : bool; y_log : bool; hidden : list string; order : list string; selection : selector }.
(** Plotter.py l.22-29; dictionary 0 is the default argument of [provideDataFile] (l.62). *)
Definition new_plotter : plotter := Plotter [[]] [] (Axes [] 0 0) false false [] [] (Selector [] [] None).
(** The dictionary of a number (Plotter.py l.57). *)
Definition dict_at (p : plotter) (i : nat) : dict := nth i (heap p) [].
(** The same plotter with other axes (Plotter.py l.51, 204). *)
Definition with_canvas (p : plotter) (ax : axes) : plotter := Plotter (heap p) (plots p) ax (plot_dashed p) (y_log p) (hidden p) (order p) (selection p).
(** The same plotter with other plots (Plotter.py l.57, 205-206). *)
Definition with_plots (p : plotter) (l : list plot) : plotter := Plotter (heap p) l (canvas p) (plot_dashed p) (y_log p) (hidden p) (order p) (selection p).
(** The same plotter with other dictionaries (Plotter.py l.55, 106, 137). *)
Definition with_heap (p : plotter) (h : list dict) : plotter := Plotter h (plots p) (canvas p) (plot_dashed p) (y_log p) (hidden p) (order p) (selection p).
(** The same plotter with another list in the window (Plotter.py l.254-292). *)
Definition with_selection (p : plotter) (s : selector) : plotter := Plotter (heap p) (plots p) (canvas p) (plot_dashed p) (y_log p) (hidden p) (order p) s.
(** [l[i] = x] (Plotter.py l.106, 205). *)
Fixpoint replace {A} (i : nat) (x : A) (l : list A) : list A :=
  match l, i with [], _ => [] | _ :: r, O => x :: r | a :: r, S i => a :: replace i x r end.
(** A new dictionary (Plotter.py l.55, 137, and any that a user makes). *)
Definition new_dict (p : plotter) (d : dict) : plotter * nat := (with_heap p (heap p ++ [d]), length (heap p)).

(** Plotter.py l.228-234. *)
Definition draw (dash : bool) (ax : axes) (x y : list Qc) (lab : option string) : axes * result (list nat) :=
  if dash then plotDashedIfNegative ax x y lab else axes_plot ax x y false None lab.

(** [c in l] (Plotter.py l.258, 306). *)
Definition mem (c : string) (l : list string) : bool := existsb (String.eqb c) l.
(** Whether any plot has a characteristic (Plotter.py l.313-316). *)
Definition used (p : plotter) (c : string) : bool := existsb (fun q => match lookup (dict_at p (pdict q)) c with Some _ => true | None => false end) (plots p).
(** Plotter.py l.305-316. *)
Fixpoint ordered (p : plotter) (initial order characteristics : list string) : list string :=
  match order with
  | [] => characteristics
  | c :: r => ordered p initial r (if negb (mem c characteristics) && (mem c initial || used p c) then characteristics ++ [c] else characteristics)
  end.
(** Plotter.py l.319-326. *)
Fixpoint add_new (l characteristics : list string) : list string :=
  match l with
  | [] => characteristics
  | c :: r => add_new r (if mem c characteristics then characteristics else characteristics ++ [c])
  end.
(** Plotter.py l.295-328. *)
Definition getListOfPlotCharacteristics (p : plotter) (initial : list string) : list string :=
  add_new (flat_map (fun q => map fst (dict_at p (pdict q))) (plots p)) (add_new initial (ordered p initial (order p) [])).
(** Plotter.py l.276-283. *)
Definition cell_of (p : plotter) (q : plot) (c : string) : cell :=
  if String.eqb c "Plotted" then Shown (pshow q)
  else match lookup (dict_at p (pdict q)) c with Some v => Value v | None => Nothing end.
(** [SortListItems] (Plotter.py l.200, 292): the plots are compared by a column, if there are several plots. *)
Definition sortListItems (p : plotter) (col : nat) (ascending : bool) : plotter * result unit :=
  let s := selection p in
  (with_selection p (Selector (columns s) (cells s) (Some (col, ascending))),
   if Nat.leb 2 (length (plots p)) && Nat.leb (length (columns s)) col then Err IndexError else Ok tt).
(** Plotter.py l.243-247: the column by which the list is to be sorted afterwards. *)
Definition sort_state (p : plotter) : result (option (nat * bool)) :=
  let s := selection p in
  match columns s, sorted_by s with
  | _ :: _, Some (col, ascending) =>
    match nth_error (columns s) col with
    | None => Err OutOfBoundsException
    | Some name => Ok (if mem name (hidden p) then None else Some (col, ascending))
    end
  | _, _ => Ok None
  end.
(** Plotter.py l.236-292; the columns that were counted for the mixin (l.266) only matter for numbers that are no column. *)
Definition updatePlotSelector (p : plotter) : plotter * result unit :=
  match sort_state p with
  | Err e => (p, Err e)
  | Ok state =>
    let names := filter (fun c => negb (mem c (hidden p))) (getListOfPlotCharacteristics p ["Plotted"]) in
    let p := with_selection p (Selector names (map (fun q => map (cell_of p q) names) (plots p)) None) in
    match state with
    | None => (p, Ok tt)
    | Some (col, ascending) => sortListItems p col ascending
    end
  end.

(** Plotter.py l.34-60; the dictionary is given by its number. *)
Definition provideData (p : plotter) (x y : list Qc) (show : bool) (lab : option string) (characteristics : option nat) : plotter * result unit :=
  let '(p, ids) := if show then let (ax, r) := draw (plot_dashed p) (canvas p) x y lab in (with_canvas p ax, do ids <- r; Ok (Some ids)) else (p, Ok None) in
  match ids with
  | Err e => (p, Err e)
  | Ok ids =>
    let '(p, d) := match characteristics with Some d => (p, d) | None => new_dict p [] end in
    updatePlotSelector (with_plots p (plots p ++ [PlotOf ids x y show lab d]))
  end.

(** The files, by path, and the names in a directory (Plotter.py l.86, 134-136). *)
Variable fs : filesystem.
Variable listdir : string -> option (list string).
(** Plotter.py l.62-117. *)
Definition provideDataFile (p : plotter) (path : string) (characteristics : nat) : plotter * result unit :=
  match openPossiblyCompressedFile fs path with
  | Failed NoEntry => (p, Err OSError)
  | Failed (Failure e) => (p, Err e)
  | Done text =>
    let (d, r) := read_lines (keep_lines text) (dict_at p characteristics) [] [] in
    let p := with_heap p (replace characteristics d (heap p)) in
    match r with
    | Err e => (p, Err e)
    | Ok (x, y) => provideData p x y false None (Some characteristics)
    end
  end.
(** [provideDataFile(path)] (Plotter.py l.62): the default argument is one object for all calls. *)
Definition provideDataFile_default (p : plotter) (path : string) : plotter * result unit := provideDataFile p path 0.
(** [os.path.isfile] (Plotter.py l.136). *)
Definition isfile (path : string) : bool := match fs path with Some _ => true | None => false end.
(** Plotter.py l.134-140: the loop over names; [directory] is the call of l.140. *)
Fixpoint names_loop (directory : plotter -> string -> option (plotter * result unit)) (path : string) (characteristics : dict) (recursive : bool) (p : plotter) (names : list string)
  : option (plotter * result unit) :=
  match names with
  | [] => Some (p, Ok tt)
  | name :: r =>
    let filepath := (path ++ "/" ++ name)%string in
    let step :=
      if isfile filepath then let (p, d) := new_dict p characteristics in Some (provideDataFile p filepath d)
      else if recursive then directory p filepath
      else Some (p, Ok tt) in
    match step with
    | None => None
    | Some (p, Err e) => Some (p, Err e)
    | Some (p, Ok _) => names_loop directory path characteristics recursive p r
    end
  end.
(** Plotter.py l.119-140; [None] if directories are nested more deeply than [fuel]. *)
Fixpoint provideDataDirectory (fuel : nat) (characteristics : dict) (recursive : bool) (p : plotter) (path : string) : option (plotter * result unit) :=
  match fuel with
  | O => None
  | S fuel =>
    match listdir path with
    | None => Some (p, Err OSError)
    | Some names => names_loop (provideDataDirectory fuel characteristics recursive) path characteristics recursive p names
    end
  end.

(** Plotter.py l.146-152. *)
Definition setYScale (p : plotter) (scale : string) : plotter :=
  Plotter (heap p) (plots p) (canvas p) (plot_dashed p) (String.eqb scale "log") (hidden p) (order p) (selection p).
(** Plotter.py l.221-226: the loop over plots; those after an exception are left as they are. *)
Fixpoint replot_loop (dash : bool) (ax : axes) (l : list plot) : axes * list plot * result unit :=
  match l with
  | [] => (ax, [], Ok tt)
  | q :: r =>
    let '(ax, ids) := if pshow q then let (ax, i) := draw dash ax (px q) (py q) (plabel q) in (ax, do i <- i; Ok (Some i)) else (ax, Ok None) in
    match ids with
    | Err e => (ax, q :: r, Err e)
    | Ok ids => let '(ax, r, e) := replot_loop dash ax r in (ax, PlotOf ids (px q) (py q) (pshow q) (plabel q) (pdict q) :: r, e)
    end
  end.
(** Plotter.py l.216-226. *)
Definition replot (p : plotter) : plotter * result unit :=
  let '(ax, l, r) := replot_loop (plot_dashed p) (Axes [] (created (canvas p)) 0) (plots p) in (with_plots (with_canvas p ax) l, r).
(** Plotter.py l.154-157. *)
Definition setPlotDashedIfNegative (p : plotter) (state : bool) : plotter * result unit :=
  replot (Plotter (heap p) (plots p) (canvas p) state (y_log p) (hidden p) (order p) (selection p)).
(** Plotter.py l.159-167. *)
Definition hideCharacteristics (p : plotter) (toHide : list string) : plotter * result unit :=
  updatePlotSelector (Plotter (heap p) (plots p) (canvas p) (plot_dashed p) (y_log p) (hidden p ++ toHide) (order p) (selection p)).
(** Plotter.py l.169-178. *)
Definition setCharacteristicsOrder (p : plotter) (l : list string) : plotter :=
  Plotter (heap p) (plots p) (canvas p) (plot_dashed p) (y_log p) (hidden p) l (selection p).
(** The number of the first column of a name (Plotter.py l.191-195). *)
Fixpoint column_of (name : string) (l : list string) : option nat :=
  match l with [] => None | c :: r => if String.eqb c name then Some O else option_map S (column_of name r) end.
(** Plotter.py l.180-200. *)
Definition setSortingCharacteristic (p : plotter) (name : string) (ascending : bool) : plotter * result unit :=
  match column_of name (columns (selection p)) with
  | None => (p, Err InvalidArgumentException)
  | Some col => sortListItems p col ascending
  end.
(** [axes.lines.remove(line)] (Plotter.py l.209). *)
Fixpoint remove_line (id : nat) (l : list (nat * line2d)) : option (list (nat * line2d)) :=
  match l with [] => None | (i, ln) :: r => if Nat.eqb i id then Some r else option_map (cons (i, ln)) (remove_line id r) end.
(** Plotter.py l.208-209. *)
Fixpoint remove_lines (ids : list nat) (ax : axes) : axes * result unit :=
  match ids with
  | [] => (ax, Ok tt)
  | i :: r => match remove_line i (lines ax) with None => (ax, Err ValueError) | Some l => remove_lines r (Axes l (created ax) (next_color ax)) end
  end.
(** Plotter.py l.202-214. *)
Definition toggleVisibility (p : plotter) (plotID : nat) : plotter * result unit :=
  match nth_error (plots p) plotID with
  | None => (p, Err KeyError)
  | Some q =>
    if negb (pshow q) then
      let (ax, r) := draw (plot_dashed p) (canvas p) (px q) (py q) (plabel q) in
      let p := with_canvas p ax in
      match r with
      | Err e => (p, Err e)
      | Ok ids => updatePlotSelector (with_plots p (replace plotID (PlotOf (Some ids) (px q) (py q) true (plabel q) (pdict q)) (plots p)))
      end
    else
      match plines q with
      | None => (p, Err TypeError)
      | Some ids =>
        let (ax, r) := remove_lines ids (canvas p) in
        let p := with_canvas p ax in
        match r with
        | Err e => (p, Err e)
        | Ok _ => updatePlotSelector (with_plots p (replace plotID (PlotOf None (px q) (py q) false (plabel q) (pdict q)) (plots p)))
        end
      end
  end.

(** * The files that the script writes *)
(** [str.format] and [str] of a number, and with five digits after the dot (transverseVelocityCorrelationFunction.py l.210-217, Data2D.py l.240). *)
Variables (text text5 : Qc -> string).
(** transverseVelocityCorrelationFunction.py l.197-206. *)
Fixpoint listed_rundirs (first : bool) (rundirs : list string) : string :=
  match rundirs with
  | [] => ""
  | r :: l => ((if first then "" else ", ") ++ "'" ++ r ++ "'" ++ listed_rundirs false l)%string
  end.
(** A line (transverseVelocityCorrelationFunction.py l.208-217, Data2D.py l.240-243). *)
Definition text_line (s : string) : string := (s ++ String newline "")%string.
(** transverseVelocityCorrelationFunction.py l.195-219 with Data2D.py l.228-243: the text of a file; [points] are sorted, and without errors. *)
Definition plotfile (rundirs : list string) (k_n simbox : Qc * Qc * Qc) (kT nu : Qc) (points : list (Qc * Qc)) : string :=
  let '(x, y, z) := k_n in
  let '(Lx, Ly, Lz) := simbox in
  (text_line ("#rundirs = [" ++ listed_rundirs true rundirs ++ "]") ++
  text_line ("#k_nx = " ++ text x) ++ text_line ("#k_ny = " ++ text y) ++ text_line ("#k_nz = " ++ text z) ++
  text_line ("#L_x = " ++ text Lx) ++ text_line ("#L_y = " ++ text Ly) ++ text_line ("#L_z = " ++ text Lz) ++
  text_line ("#kT = " ++ text5 kT) ++ text_line ("#nu = " ++ text5 nu) ++
  String.concat "" (map (fun q => text_line (text (fst q) ++ String "009" (text (snd q)))) points))%string.
End Plotter.
