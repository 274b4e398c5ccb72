(** What interactive plots have to show. *)
From Coq Require Import String Ascii.
From Verif Require Import QcBase PyBase EmpModel EmpSpec PtsSpec PloModel.
Open Scope string_scope.
Open Scope list_scope.
Open Scope Qc_scope.

(** * Files *)
Section Files.
Variable float : string -> option Qc.
(** What a text stands for: a number, or else itself. *)
Definition stands_for (value : string) (v : characteristic) : Prop :=
  (exists x, float value = Some x /\ v = Number x) \/ (float value = None /\ v = Text value).
(** The line is a comment with a name, blanks around it being ignored, and the text after the equals sign, which is the only one unless the name is [rundirs]. *)
Definition comment (line name value : string) : Prop :=
  exists before, line = String "#" (before ++ String "=" value) /\ every_char (fun a => a <> "="%char) before /\ stripped before name
  /\ (name = "rundirs" \/ every_char (fun a => a <> "="%char) value).
Definition no_comment (line : string) : Prop := forall r, line <> String "#" r.
Definition known (d : dict) (name : string) : Prop := In name (map fst d).
(** The lines, one after another: from dictionary [d], with coordinates [x] and [y], to dictionary [e]. *)
Inductive says : list string -> dict -> dict -> list Qc -> list Qc -> Prop :=
| says_nothing d : says [] d d [] []
| says_known line name value lines d e x y : comment line name value -> known d name -> says lines d e x y -> says (line :: lines) d e x y
| says_new line name value v lines d e x y : comment line name value -> ~ known d name -> stands_for value v -> says lines (d ++ [(name, v)]) e x y -> says (line :: lines) d e x y
| says_point line u v lines d e x y : no_comment line -> line_has float line (u, v) -> says lines d e x y -> says (line :: lines) d e (u :: x) (v :: y).

(** A plot is that of the given text: hidden, with the coordinates that the text says, and with its characteristics in addition to [given]. *)
Definition plot_of (p : plotter) (given : dict) (lines : list string) (q : plot) : Prop :=
  exists x y, says lines given (dict_at p (pdict q)) x y /\ px q = x /\ py q = y /\ pshow q = false /\ plines q = None /\ plabel q = None.

Variable fs : filesystem.
Variable listdir : string -> option (list string).
(** The files in a directory, with those in directories inside if [recursive], in the order of the names. *)
Inductive files_in (recursive : bool) : string -> list string -> Prop :=
| files_dir path names files : listdir path = Some names -> files_named recursive path names files -> files_in recursive path files
with files_named (recursive : bool) : string -> list string -> list string -> Prop :=
| named_none path : files_named recursive path [] []
| named_file path name names t files : fs (path ++ "/" ++ name)%string = Some t -> files_named recursive path names files ->
    files_named recursive path (name :: names) ((path ++ "/" ++ name)%string :: files)
| named_directory path name names inner files : fs (path ++ "/" ++ name)%string = None -> recursive = true -> files_in recursive (path ++ "/" ++ name)%string inner ->
    files_named recursive path names files -> files_named recursive path (name :: names) (inner ++ files)
| named_ignored path name names files : fs (path ++ "/" ++ name)%string = None -> recursive = false -> files_named recursive path names files ->
    files_named recursive path (name :: names) files.
End Files.

(** A text without blanks at either end, and without equals signs, as a number is written. *)
Definition plain (s : string) : Prop := word s /\ every_char (fun a => a <> "="%char) s.

(** * What is drawn *)
(** Points in pieces: each piece has values of one sign, and successive pieces have different signs. *)
Inductive pieces : option bool -> list (list Qc * list Qc * bool) -> Prop :=
| pieces_none s : pieces s []
| pieces_some s xs ys (negative : bool) r : ys <> [] -> length xs = length ys -> s <> Some negative -> Forall (fun v => if negative then v < 0 else 0 <= v) ys -> pieces (Some negative) r ->
    pieces s ((xs, ys, negative) :: r).
Definition absolute (v : Qc) : Qc := if Qclt_le_dec v 0 then - v else v.
(** Lines of one colour, the first of which has the label. *)
Definition labelled (lab : option string) (ls : list line2d) : Prop :=
  exists c, Forall (fun l => color l = c) ls /\ map label ls = match ls with [] => [] | _ :: r => lab :: map (fun _ => None) r end.
(** [ls] shows the points: as one line, or, for [dash], with positive values and dashed lines for negative ones. *)
Definition depicts (dash : bool) (x y : list Qc) (lab : option string) (ls : list line2d) : Prop :=
  labelled lab ls
  /\ if dash then
       (y = [] /\ x = [] /\ exists l, ls = [l] /\ xdata l = [] /\ ydata l = [] /\ dashed l = false)
       \/ exists ps, ps <> [] /\ pieces None ps /\ concat (map (fun q => fst (fst q)) ps) = firstn (length y) x /\ concat (map (fun q => snd (fst q)) ps) = y
          /\ map (fun l => (xdata l, ydata l, dashed l)) ls = map (fun q => (fst (fst q), map absolute (snd (fst q)), snd q)) ps
     else exists l, ls = [l] /\ xdata l = x /\ ydata l = y /\ dashed l = false /\ length x = length y.

(** Plotters that come about by calls that have not raised an exception. *)
Section Calls.
Variables (float : string -> option Qc) (fs : filesystem) (listdir : string -> option (list string)).
Inductive reachable : plotter -> Prop :=
| reach_new : reachable new_plotter
| reach_dict p d : reachable p -> reachable (fst (new_dict p d))
| reach_data p x y show lab c p' : reachable p -> provideData p x y show lab c = (p', Ok tt) -> reachable p'
| reach_file p path d p' : reachable p -> provideDataFile float fs p path d = (p', Ok tt) -> reachable p'
| reach_directory p fuel c recursive path p' : reachable p -> provideDataDirectory float fs listdir fuel c recursive p path = Some (p', Ok tt) -> reachable p'
| reach_scale p s : reachable p -> reachable (setYScale p s)
| reach_dash p b p' : reachable p -> setPlotDashedIfNegative p b = (p', Ok tt) -> reachable p'
| reach_hide p l p' : reachable p -> hideCharacteristics p l = (p', Ok tt) -> reachable p'
| reach_order p l : reachable p -> reachable (setCharacteristicsOrder p l)
| reach_sort p c a p' : reachable p -> setSortingCharacteristic p c a = (p', Ok tt) -> reachable p'
| reach_toggle p i p' : reachable p -> toggleVisibility p i = (p', Ok tt) -> reachable p'.
End Calls.
(** The line objects that belong to a plot. *)
Definition owned (q : plot) : list nat := match plines q with Some ids => ids | None => [] end.
(** The canvas has exactly the lines of the plots that are shown, each once. *)
Definition canvas_right (p : plotter) : Prop :=
  NoDup (map fst (lines (canvas p))) /\ Permutation (map fst (lines (canvas p))) (flat_map owned (plots p))
  /\ forall q, In q (plots p) ->
       if pshow q then exists ids ls, plines q = Some ids /\ depicts (plot_dashed p) (px q) (py q) (plabel q) ls
                         /\ Forall2 (fun i l => In (i, l) (lines (canvas p))) ids ls
       else plines q = None.

(** * The list of plots *)
(** [c] is in [l], before [d] if that is in [l] at all. *)
Definition before (l : list string) (c d : string) : Prop := exists u v, l = u ++ c :: v /\ ~ In d u /\ c <> d.
Definition has_characteristic (p : plotter) (c : string) : Prop := exists q, In q (plots p) /\ known (dict_at p (pdict q)) c.
Definition first_value (d : dict) (c : string) (v : characteristic) : Prop := exists u w, d = u ++ (c, v) :: w /\ ~ In c (map fst u).
Definition right_cell (p : plotter) (q : plot) (c : string) (e : cell) : Prop :=
  if string_dec c "Plotted" then e = Shown (pshow q)
  else (exists v, first_value (dict_at p (pdict q)) c v /\ e = Value v) \/ (~ known (dict_at p (pdict q)) c /\ e = Nothing).
(** The list has a column for everything that is not hidden, in the chosen order, and the right cells. *)
Definition list_right (p : plotter) : Prop :=
  let s := selection p in
  NoDup (columns s)
  /\ (forall c, In c (columns s) <-> ~ In c (hidden p) /\ (c = "Plotted" \/ has_characteristic p c))
  /\ (forall c d, before (order p) c d -> In c (columns s) -> In d (columns s) -> before (columns s) c d)
  /\ Forall2 (fun q row => Forall2 (right_cell p q) (columns s) row) (plots p) (cells s).
(** The name of the column by which the list is sorted. *)
Definition sorted_column (p : plotter) (c : string) (ascending : bool) : Prop :=
  exists i, sorted_by (selection p) = Some (i, ascending) /\ nth_error (columns (selection p)) i = Some c.

(** * Axes that are merged *)
(** A legend with a text for each line. *)
Definition fully_labelled (a : chart) (texts : list string) : Prop := legend a = Some (combine (seq 0 (length (chart_lines a))) texts) /\ length texts = length (chart_lines a).
(** The text of a line in a legend. *)
Definition labels_line (a : chart) (i : nat) (t : string) : Prop := exists l, legend a = Some l /\ In (i, t) l.
