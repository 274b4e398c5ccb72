(** What reading pairs of numbers has to give. *)
From Coq Require Import String Ascii Sorting.
From Verif Require Import QcBase PyBase.
Open Scope string_scope.
Open Scope list_scope.
Open Scope Qc_scope.

(** White space, and strings with only, or without, white space. *)
Definition blank (a : ascii) : Prop := a = " "%char \/ a = "009"%char \/ a = "010"%char \/ a = "011"%char \/ a = "012"%char \/ a = "013"%char.
Fixpoint every_char (P : ascii -> Prop) (s : string) : Prop :=
  match s with EmptyString => True | String a r => P a /\ every_char P r end.
(** A word: not empty, and without white space. *)
Definition word (s : string) : Prop := s <> "" /\ every_char (fun a => ~ blank a) s.
(** A line with exactly two words. *)
Definition two_columns (line a b : string) : Prop :=
  exists s0 s1 s2, line = (s0 ++ a ++ s1 ++ b ++ s2)%string /\ every_char blank s0 /\ every_char blank s1 /\ every_char blank s2
  /\ s1 <> "" /\ word a /\ word b.
Definition line_has (float : string -> option Qc) (line : string) (p : Qc * Qc) : Prop :=
  exists a b, two_columns line a b /\ float a = Some (fst p) /\ float b = Some (snd p).
(** [ps] are the pairs in the lines, in order; other lines are ignored. *)
Inductive lists (float : string -> option Qc) : list string -> list (Qc * Qc) -> Prop :=
| lists_nil : lists float [] []
| lists_take l ls p ps : line_has float l p -> lists float ls ps -> lists float (l :: ls) (p :: ps)
| lists_skip l ls ps : (forall p, ~ line_has float l p) -> lists float ls ps -> lists float (l :: ls) ps.
(** The text with the given lines, and an unfinished last one if it is not empty. *)
Definition text_of_lines (ls : list string) (rest : string) : string := fold_right (fun l t => (l ++ String "010" t)%string) rest ls.
Definition all_lines (ls : list string) (rest : string) : list string := if String.eqb rest "" then ls else ls ++ [rest].
Definition one_line (l : string) : Prop := every_char (fun a => a <> "010"%char) l.

Definition increasing (l : list (Qc * Qc)) : Prop := StronglySorted (fun p q => fst p < fst q) l.
Definition at_least (m : option Qc) (p : Qc * Qc) : bool := match m with None => true | Some m => if Qclt_le_dec (fst p) m then false else true end.
Definition less_than (m : option Qc) (p : Qc * Qc) : bool := match m with None => true | Some m => if Qclt_le_dec (fst p) m then true else false end.

(** A mean weighted by the second components. *)
Definition weighted_mean (l : list (Qc * Qc)) : Qc := qsum (map (fun p => fst p * snd p) l) / qsum (map snd l).
Definition mean_of (l : list Qc) : Qc := qsum l / qn (length l).
(** [x] and [y] differ by at most [e]. *)
Definition within (e x y : Qc) : Prop := - e <= x - y /\ x - y <= e.
(** The middle of bin [i] of [n] bins between [low] and [high]. *)
Definition bin_middle (low high : Qc) (n i : nat) : Qc := low + (high - low) * (qn i + 1 / (1 + 1)) / qn n.
Definition in_range (low high v : Qc) : bool := if Qclt_le_dec v low then false else if Qclt_le_dec v high then true else false.
