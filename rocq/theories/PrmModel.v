(** Saving the settings of a run as a table.
    Simplifications: values are those of settings, or None; how a floating-point number is written is an input; writing the
    file succeeds. *)
From Coq Require Import String Ascii List ZArith Bool Qcanon.
From Verif Require Import PyBase StrBase SortBase ConfModel.
Import ListNotations.
Open Scope string_scope.
Open Scope list_scope.

(** The tabulator, Configuration.py l.310. *)
Definition tab : ascii := Ascii.ascii_of_nat 9.
(** The end of a line, Configuration.py l.329. *)
Definition eol : ascii := Ascii.ascii_of_nat 10.

Section Show.
(** [str] of a floating-point number, Configuration.py l.326. *)
Variable show : Qc -> string.
(** Configuration.py l.316-326: how a value is written. *)
Definition value_text (value : option leaf) : string :=
  match value with
  | Some (LStr s) => ("{" ++ s ++ "}")%string
  | None => "None"
  | Some (LBool b) => if b then "true" else "false"
  | Some (LInt z) => str_of_Z z
  | Some (LFloat q) => show q
  end.
(** Configuration.py l.302-304: further parameters are added. *)
Fixpoint add_parameters (flatDict : list (string * option leaf)) (additional : list (string * option leaf)) : result (list (string * option leaf)) :=
  match additional with
  | [] => Ok flatDict
  | (key, value) :: additional =>
    match sget flatDict key with
    | Some _ => Err AssertionError
    | None => add_parameters (sset flatDict key value) additional
    end
  end.
(** Configuration.py l.306-326: the loop over the keys. *)
Fixpoint write_lines (flatDict : list (string * option leaf)) (keys : list string) (headerLine valueLine : string) : string * string :=
  match keys with
  | [] => (headerLine, valueLine)
  | key :: keys =>
    let separator := if String.eqb headerLine "" then "" else String tab "" in
    let value := match sget flatDict key with Some v => v | None => None end in
    write_lines flatDict keys (headerLine ++ separator ++ key)%string (valueLine ++ separator ++ value_text value)%string
  end.
(** Configuration.py l.296-298: the keys of the further parameters must be strings, [None] is another object. *)
Fixpoint string_keys (additional : list (option string * option leaf)) : option (list (string * option leaf)) :=
  match additional with
  | [] => Some []
  | (Some key, value) :: additional => match string_keys additional with Some r => Some ((key, value) :: r) | None => None end
  | (None, _) :: _ => None
  end.
(** Configuration.py l.265-329: the contents of the file. [path] is whether that argument is a string, and [additionalParameters] is
    [None] if it is not a dictionary. *)
Definition saveToParameterFile (self : conf) (path : bool) (additionalParameters : option (list (option string * option leaf))) : result string :=
  if negb path then Err TypeError
  else match additionalParameters with
       | None => Err TypeError
       | Some additional =>
         match string_keys additional with
         | None => Err TypeError
         | Some additional =>
           do flatDict <- add_parameters (flat self) additional;
           let '(headerLine, valueLine) := write_lines flatDict (isort String.leb (map fst flatDict)) "" "" in
           Ok (headerLine ++ String eol "" ++ valueLine)%string
         end
       end.
End Show.
