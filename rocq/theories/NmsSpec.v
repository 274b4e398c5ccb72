(** What tables and lists of runs look like in files. *)
From Coq Require Import String Ascii List.
From Verif Require Import NmsModel.
Import ListNotations.
Open Scope string_scope.
Open Scope list_scope.

(** Lines, each of which ends. *)
Definition text_of_lines (l : list string) : string := fold_right (fun a r => append a (String "010" r)) "" l.
(** Columns with tabs between them. *)
Definition columns (l : list string) : string := String.concat (String "009" "") l.
(** The columns of an entry; the last one is empty. *)
Definition entry_columns (e : entry) : list string := [mean e; error e; size e; ""].
(** Names in quotation marks, with commas between them. *)
Definition quoted_names (l : list string) : string := String.concat "," (map (fun n => append """" (append n """")) l).
