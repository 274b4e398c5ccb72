(** The script plotDashedIfNegative.py: what it reads and gives to PlotTools.plotDashedIfNegative (see PloModel.v for the latter).
    Simplifications: numbers are exact and finite; files are lists of lines and can be opened; axes, scales and the legend are not modelled. *)
From Coq Require Import String Ascii List ZArith QArith Qcanon Bool.
From Verif Require Import QcBase PyBase StrBase.
Import ListNotations.
Open Scope string_scope.
Open Scope list_scope.
Open Scope Qc_scope.

(** Characters at which [split] splits, Analysis/plotDashedIfNegative.py l.50. *)
Definition is_space (c : ascii) : bool :=
  let n := nat_of_ascii c in (Nat.leb 9 n && Nat.leb n 13) || (Nat.leb 28 n && Nat.leb n 32).
(** The word before, if there is one (Analysis/plotDashedIfNegative.py l.50). *)
Definition flush (word : string) (l : list string) : list string := match word with "" => l | _ => word :: l end.
(** [split()] where [word] has been read of the current word (Analysis/plotDashedIfNegative.py l.50). *)
Fixpoint words (word s : string) : list string :=
  match s with
  | "" => flush word []
  | String c r => if is_space c then flush word (words "" r) else words (append word (String c "")) r
  end.

Section Script.
(** [float], which may raise a [ValueError], Analysis/plotDashedIfNegative.py l.50. *)
Variable float : string -> option Qc.
(** [[float(val) for val in l]], Analysis/plotDashedIfNegative.py l.50. *)
Fixpoint floats (l : list string) : result (list Qc) :=
  match l with
  | [] => Ok []
  | w :: r => match float w with None => Err ValueError | Some q => do qs <- floats r; Ok (q :: qs) end
  end.
(** [x == 0 or x > 1e3], Analysis/plotDashedIfNegative.py l.52. *)
Definition left_out (x : Qc) : bool := qeqb x 0 || qltb (qz 1000) x.
(** Analysis/plotDashedIfNegative.py l.47-56: one pass of the loop over lines. *)
Definition read_line (line : string) (plotX plotY : list Qc) : result (list Qc * list Qc) :=
  match line with
  | "" => Err IndexError
  | String c _ =>
    if Ascii.eqb c "#" then Ok (plotX, plotY)
    else do l <- floats (words "" line);
      match l with
      | [x; y] => if left_out x then Ok (plotX, plotY) else Ok (plotX ++ [x], plotY ++ [y])
      | _ => Err ValueError
      end
  end.
(** Analysis/plotDashedIfNegative.py l.46-56: the loop over lines. *)
Fixpoint read_lines (lines : list string) (plotX plotY : list Qc) : result (list Qc * list Qc) :=
  match lines with
  | [] => Ok (plotX, plotY)
  | line :: r => do p <- read_line line plotX plotY; read_lines r (fst p) (snd p)
  end.
(** Analysis/plotDashedIfNegative.py l.58-63. *)
Definition etaMPC (filename : string) : string :=
  if has_char "1" filename then "8" else if has_char "2" filename then "16" else "4".
(** The label, Analysis/plotDashedIfNegative.py l.65. *)
Definition label (filename : string) : string := append "$\eta_{MPC} = " (append (etaMPC filename) "$").
(** Analysis/plotDashedIfNegative.py l.42-65: what is plotted, in order. *)
Fixpoint curves (files : list (string * list string)) : result (list (list Qc * list Qc * string)) :=
  match files with
  | [] => Ok []
  | (filename, lines) :: r =>
    do p <- read_lines lines [] [];
    do cs <- curves r;
    Ok ((p, label filename) :: cs)
  end.
End Script.
