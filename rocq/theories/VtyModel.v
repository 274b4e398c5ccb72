(** Types of arguments of Vector3DReal.py, comparisons, and access by index.
    Simplifications: floating-point numbers are exact and finite; [bool] is an [int], as in Python; lists and tuples are not told apart. *)
From Coq Require Import List ZArith QArith Qcanon Bool.
From Verif Require Import QcBase PyBase.
Import ListNotations.
Open Scope Qc_scope.

(** [int] or [float], Vector3DReal.py l.46. *)
Inductive num := NInt (z : Z) | NFloat (q : Qc).
(** The number (Vector3DReal.py l.324). *)
Definition num_value (n : num) : Qc := match n with NInt z => qz z | NFloat q => q end.
(** A vector, Vector3DReal.py l.69-71. *)
Record pvec := PVec { px : num; py : num; pz : num }.
(** Arguments, Vector3DReal.py l.37-67. *)
Inductive value := VNum (n : num) | VVec (v : pvec) | VSeq (l : list value) | VNone | VOther.
(** [is None], Vector3DReal.py l.38. *)
Definition is_none (v : value) : bool := match v with VNone => true | _ => false end.
(** [isinstance(v, allowedTypes)], Vector3DReal.py l.46, l.66. *)
Definition as_num (v : value) : result num := match v with VNum n => Ok n | _ => Err TypeError end.
(** Vector3DReal.py l.8-71: the constructor. *)
Definition construct (x y z : value) : result pvec :=
  match x with
  | VVec v => if negb (is_none y) || negb (is_none z) then Err TypeError else Ok (PVec (px v) (py v) (pz v))
  | VSeq l =>
    if negb (is_none y) || negb (is_none z) then Err TypeError
    else match l with
    | [a; b; c] => do a <- as_num a; do b <- as_num b; do c <- as_num c; Ok (PVec a b c)
    | _ => Err TypeError
    end
  | _ => do a <- as_num x; do b <- as_num y; do c <- as_num z; Ok (PVec a b c)
  end.
(** Vector3DReal.py l.464-473. *)
Definition assertIsSameType (v : value) : result pvec := match v with VVec v => Ok v | _ => Err TypeError end.
(** Numbers are the same (Vector3DReal.py l.324). *)
Definition num_eqb (a b : num) : bool := qeqb (num_value a) (num_value b).
(** Vector3DReal.py l.312-330. *)
Definition py_eq (a : pvec) (rhs : value) : result bool :=
  do b <- assertIsSameType rhs;
  if negb (num_eqb (px a) (px b)) then Ok false
  else if negb (num_eqb (py a) (py b)) then Ok false
  else if negb (num_eqb (pz a) (pz b)) then Ok false
  else Ok true.
(** Vector3DReal.py l.333-342. *)
Definition py_ne (a : pvec) (rhs : value) : result bool := do b <- py_eq a rhs; Ok (negb b).
(** [abs] (Vector3DReal.py l.309). *)
Definition qabs (x : Qc) : Qc := if qltb x 0 then - x else x.
(** [numpy.allclose], Vector3DReal.py l.309, for one component. *)
Definition allclose1 (rtol atol : Qc) (a b : num) : bool :=
  qleb (qabs (num_value a - num_value b)) (atol + rtol * qabs (num_value b)).
(** A tolerance, Vector3DReal.py l.293-297. *)
Definition tolerance (v : value) : result (option Qc) :=
  match v with
  | VNone => Ok None
  | VNum (NFloat q) => if qltb q 0 then Err ValueError else Ok (Some q)
  | _ => Err TypeError
  end.
(** What numpy takes for [rtol] (Vector3DReal.py l.309). *)
Definition default_rtol : Qc := Q2Qc (1 # 100000).
(** What numpy takes for [atol] (Vector3DReal.py l.309). *)
Definition default_atol : Qc := Q2Qc (1 # 100000000).
(** A value, or that of numpy (Vector3DReal.py l.302-306). *)
Definition default_to (d : Qc) (o : option Qc) : Qc := match o with Some q => q | None => d end.
(** Vector3DReal.py l.269-309. *)
Definition isClose (a : pvec) (rhs relativeTolerance absoluteTolerance : value) : result bool :=
  do b <- assertIsSameType rhs;
  do r <- tolerance relativeTolerance;
  do t <- tolerance absoluteTolerance;
  let rtol := default_to default_rtol r in
  let atol := default_to default_atol t in
  Ok (allclose1 rtol atol (px a) (px b) && allclose1 rtol atol (py a) (py b) && allclose1 rtol atol (pz a) (pz b)).
(** Products of numbers (Vector3DReal.py l.386). *)
Definition num_mul (a b : num) : num :=
  match a, b with NInt x, NInt y => NInt (x * y) | _, _ => NFloat (num_value a * num_value b) end.
(** Vector3DReal.py l.373-386. *)
Definition py_mul (a : pvec) (rhs : value) : result pvec :=
  do n <- as_num rhs; Ok (PVec (num_mul (px a) n) (num_mul (py a) n) (num_mul (pz a) n)).
(** Vector3DReal.py l.403-424, and l.389-400, which calls it. *)
Definition py_div (a : pvec) (rhs : value) : result pvec :=
  do n <- as_num rhs;
  if qeqb (num_value n) 0 then Err ValueError
  else
    let r := num_value n in
    Ok (PVec (NFloat (num_value (px a) / r)) (NFloat (num_value (py a) / r)) (NFloat (num_value (pz a) / r))).
(** Vector3DReal.py l.435-453. *)
Definition py_item (a : pvec) (index : Z) : result num :=
  if Z.eqb index 0 then Ok (px a) else if Z.eqb index 1 then Ok (py a) else if Z.eqb index 2 then Ok (pz a) else Err KeyError.
(** Iteration over an object that has only [__getitem__] (Vector3DReal.py l.435-453): Python asks for 0, 1, ..., until there is an IndexError;
    at most [fuel] items are asked for. *)
Fixpoint py_iterate (a : pvec) (fuel : nat) (index : Z) : result (list num) :=
  match fuel with
  | O => Ok []
  | S fuel =>
    match py_item a index with
    | Ok n => do l <- py_iterate a fuel (index + 1); Ok (n :: l)
    | Err IndexError => Ok []
    | Err e => Err e
    end
  end.
