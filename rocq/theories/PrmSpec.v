(** What is expected of tables of settings. *)
From Coq Require Import String Ascii List ZArith Bool Sorted Qcanon.
From Verif Require Import PyBase StrBase ConfModel ConfSpec PrmModel.
Import ListNotations.
Open Scope string_scope.
Open Scope list_scope.

(** The setting or further parameter with that name has that value. *)
Definition has_value (c : conf) (additional : list (string * option leaf)) (key : string) (v : option leaf) : Prop :=
  (exists w, at_path c (StrBase.split dot key) w /\ recorded w v) \/ In (key, v) additional.
(** Neither tabulators nor ends of lines. *)
Definition plain_text (s : string) : Prop := has_char tab s = false /\ has_char eol s = false.
(** A program that reads the table: two lines, each with the same number of columns. *)
Definition read_table (text : string) : option (list (string * string)) :=
  match StrBase.split eol text with
  | [header; values] =>
    let h := StrBase.split tab header in
    let v := StrBase.split tab values in
    if Nat.eqb (List.length h) (List.length v) then Some (combine h v) else None
  | _ => None
  end.
(** Alphabetic order, without repetition. *)
Definition in_order (keys : list string) : Prop := StronglySorted (fun a b => String.ltb a b = true) keys.
(** What the file consists of. *)
Definition table_text (columns : list (string * string)) : string :=
  (join tab (map fst columns) ++ String eol "" ++ join tab (map snd columns))%string.
(** An example. *)
Definition sample : conf := CGroup [("name", CLeaf (LStr "run 1")); ("box", CGroup [("x", CLeaf (LInt 10)); ("open", CLeaf (LBool false)); ("walls", CList [])])].
