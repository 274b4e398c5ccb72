(** What the relaxation of normal modes is: normalised means of correlations by mode and time
    difference. *)
From Coq Require Import String List ZArith QArith Qcanon Permutation Sorted.
From Verif Require Import PyBase StrBase QcBase VtfModel VtfPyModel.
Import ListNotations.
Open Scope string_scope.
Open Scope list_scope.
Open Scope Qc_scope.

(** A line of the data file. *)
Record entry := Entry { e_t0 : Qc; e_t : Qc; e_mode : Qc; e_value : Qc }.
(** A line that holds an entry. *)
Definition line_of (float : string -> option Qc) (line : string) (e : entry) : Prop :=
  exists a b c d, words is_ws line = [a; b; c; d] /\ float a = Some (e_t0 e) /\ float b = Some (e_t e) /\ float c = Some (e_mode e) /\ float d = Some (e_value e).
(** The entries of a file, and of all files. *)
Definition file_of (float : string -> option Qc) (contents : string) (es : list entry) : Prop := Forall2 (line_of float) (keep_lines contents) es.
Definition files_of (float : string -> option Qc) (rundirs : list (string * string)) (es : list entry) : Prop :=
  exists ess, Forall2 (fun r => file_of float (snd r)) rundirs ess /\ es = concat ess.
Definition lag (round8 : Qc -> Qc) (e : entry) : Qc := round8 (e_t e - e_t0 e).
(** The correlations of a mode with a time difference. *)
Definition samples (round8 : Qc -> Qc) (es : list entry) (i d : Qc) : list Qc :=
  map e_value (filter (fun e => qeqb (e_mode e) i && qeqb (lag round8 e) d) es).
Definition average (l : list Qc) : Qc := qsum l / qn (length l).
(** The elements of a list, each at the place where it appears first. *)
Fixpoint appearing (l : list Qc) : list Qc :=
  match l with [] => [] | x :: l => x :: filter (fun y => negb (qeqb y x)) (appearing l) end.
(** The series of a mode, normalised by the mean for the time difference [d0]. *)
Definition series_of (round8 : Qc -> Qc) (es : list entry) (i d0 : Qc) (l : list (Qc * Qc)) : Prop :=
  StronglySorted (fun p q => fst p < fst q) l /\
  forall d v, In (d, v) l <-> samples round8 es i d <> [] /\ v = average (samples round8 es i d) / average (samples round8 es i d0).
(** The time difference of the first entry for a mode. *)
Definition first_lag (round8 : Qc -> Qc) (es : list entry) (i : Qc) : option Qc :=
  option_map (lag round8) (find (fun e => qeqb (e_mode e) i) es).
(** The text of a file with a series. *)
Definition series_text (str : Qc -> string) (rundirs : list string) (l : list (Qc * Qc)) : string :=
  ("#rundirs = [" ++ String.concat ", " (map (fun r => "'" ++ r ++ "'")%string rundirs) ++ "]" ++ eol ++
   String.concat "" (map (fun p => str (fst p) ++ String "009" (str (snd p) ++ eol)) l))%string.
(** The modes that the option names; all, if it is missing or empty. *)
Definition selected (modes : option string) (i : Qc) : Prop :=
  match modes with None => True | Some s => s = "" \/ exists w z, In w (StrBase.split ","%char s) /\ Z_of_str w = Some z /\ i = qz z end.
Definition valid_modes (modes : option string) : Prop :=
  match modes with None => True | Some s => s = "" \/ forall w, In w (StrBase.split ","%char s) -> Z_of_str w <> None end.
