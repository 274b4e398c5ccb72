(** What collections of points with errors, and files of static data, have to give. *)
From Coq Require Import String Ascii Sorting.
From Verif Require Import QcBase PyBase Data2DModel Data2DSpec EmpSpec MsdSpec RelSpec PtsModel.
Open Scope string_scope.
Open Scope list_scope.
Open Scope Qc_scope.

(** What has been done with an instance: points were added, and it was sorted, which all queries may do. *)
Inductive request := Add (x y : Qc) (e : option Qc) | Sort.
Definition carry_out (d : points) (r : request) : points := match r with Add x y e => pts_add d x y e | Sort => pts_sort d end.
Definition after (h : list request) : points := fold_left carry_out h pts_new.
(** The values, and the errors, that were given. *)
Definition values_given (h : list request) : list (Qc * Qc) := flat_map (fun r => match r with Add x y _ => [(x, y)] | Sort => [] end) h.
Definition errors_given (h : list request) : list (Qc * Qc) := flat_map (fun r => match r with Add x _ (Some e) => [(x, e)] | _ => [] end) h.
(** The error that came with the value of the last addition at [x]. *)
Fixpoint latest_error (h : list request) (x : Qc) : option Qc :=
  match h with
  | [] => None
  | Add x' _ e :: r => match last_value (values_given r) x with Some _ => latest_error r x | None => if qeqb x x' then e else None end
  | Sort :: r => latest_error r x
  end.

Definition row : Type := Qc * Qc * option Qc.
Definition at_x (r : row) : Qc := fst (fst r).
Definition at_y (r : row) : Qc := snd (fst r).
(** [rows] are the points with their errors: for each position the value given last, and the error given last. *)
Definition rows_of (h : list request) (rows : list row) : Prop :=
  NoDup (map at_x rows) /\ forall x y e, In (x, y, e) rows <-> last_value (values_given h) x = Some y /\ e = last_value (errors_given h) x.
(** The same points, in increasing order. *)
Definition sorted_points (h : list request) (ps : list (Qc * Qc)) : Prop := increasing ps /\ forall x y, In (x, y) ps <-> last_value (values_given h) x = Some y.

Definition mean (l : list Qc) : Qc := qsum l / qn (length l).
Definition mean_square_deviation (l : list Qc) : Qc := mean (map (fun y => sqr (y - mean l)) l).

(** The lines of a text with their line breaks. *)
Definition file_lines (ls : list string) (rest : string) : list string := map (fun l => (l ++ String "010" "")%string) ls ++ (if String.eqb rest "" then [] else [rest]).
(** [rest] follows the first occurrence of [d] in [line]. *)
Definition first_at (d line rest : string) : Prop :=
  exists pre, line = (pre ++ d ++ rest)%string /\ forall pre' rest', line = (pre' ++ d ++ rest')%string -> (String.length pre <= String.length pre')%nat.
Definition contains (line d : string) : Prop := exists pre rest, line = (pre ++ d ++ rest)%string.
(** What a line states: the text [rest] for [key]. A line that has several of the descriptions counts for the first of these. *)
Inductive states (line : string) : string -> string -> Prop :=
| states_length r : first_at "dumbbell equilibrium length:" line r -> states line "dumbbellEquilibriumLength" r
| states_wi r : first_at "Weissenberg number:" line r -> ~ contains line "dumbbell equilibrium length:" -> states line "weissenbergNumber" r
| states_ratio r : first_at "lagrangian multiplier ratio:" line r -> ~ contains line "dumbbell equilibrium length:" -> ~ contains line "Weissenberg number:" ->
    states line "lagrangianMultiplierRatio" r.
(** [t] is [s] without white space at its ends. *)
Definition stripped (s t : string) : Prop :=
  exists a b, s = (a ++ t ++ b)%string /\ every_char blank a /\ every_char blank b
  /\ (forall c r, t = String c r -> ~ blank c) /\ (forall r c, t = (r ++ String c "")%string -> ~ blank c).
(** A line states [x] for [key]. *)
Definition states_number (float : string -> option Qc) (line key : string) (x : Qc) : Prop := exists r t, states line key r /\ stripped r t /\ float t = Some x.
Definition states_nonsense (float : string -> option Qc) (line : string) : Prop := exists key r t, states line key r /\ stripped r t /\ float t = None.
