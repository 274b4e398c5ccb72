(** Model of the incremental statistics classes
    - Analysis/MPCDAnalysis/OnTheFlyStatistics.py
    - include/OpenMPCD/OnTheFlyStatistics.hpp and
      include/OpenMPCD/ImplementationDetails/OnTheFlyStatistics.hpp
    Simplification: floating point numbers are exact rationals; the sample size
    is a natural number (the Python constructor does not reject negative ones). *)
From Verif Require Export QcBase PyBase.
From Verif Require StrBase.
Set Implicit Arguments.
Open Scope Qc_scope.

(** OnTheFlyStatistics.py l.38-50: members [n], [M], [S];
    OnTheFlyStatistics.hpp l.164-166: [sampleSize], [mean], [varianceHelper]. *)
Record otfs := mk_otfs { o_n : nat; o_M : Qc; o_S : Qc }.

(** OnTheFlyStatistics.py l.38-40 (constructor without arguments). *)
Definition otfs_new : otfs := mk_otfs 0 0 0.

(** OnTheFlyStatistics.py l.20-50 (constructor); [None] models Python's None. *)
Definition otfs_init (mean var : option Qc) (size : option nat) : result otfs :=
  match mean with
  | None =>
    match var, size with
    | None, None => Ok otfs_new
    | _, _ => Err PyException
    end
  | Some m =>
    match var, size with
    | Some v, Some n => Ok (mk_otfs n m (v * (qn n - 1)))
    | _, _ => Err PyException
    end
  end.

(** OnTheFlyStatistics.py l.53-62; OnTheFlyStatistics.hpp l.116-129. *)
Definition addDatum (s : otfs) (x : Qc) : otfs :=
  let delta := x - o_M s in
  let n' := S (o_n s) in
  let M' := o_M s + delta / qn n' in
  mk_otfs n' M' (o_S s + delta * (x - M')).

(** OnTheFlyStatistics.py l.132-137. *)
Definition getSampleSize (s : otfs) : nat := o_n s.

(** OnTheFlyStatistics.py l.139-149. *)
Definition getSampleMean (s : otfs) : result Qc :=
  if Nat.eqb (o_n s) 0 then Err ValueError else Ok (o_M s).

(** OnTheFlyStatistics.py l.151-165. *)
Definition getSampleVariance (s : otfs) : result Qc :=
  if Nat.leb (o_n s) 1 then Err ValueError else Ok (o_S s / (qn (o_n s) - 1)).

(** OnTheFlyStatistics.py l.65-118. [sample] may be the object itself: every
    branch reads all it needs from [sample] before it assigns, except that the
    branch for [self.n == 1] first assigns [sample]'s members to [self], which
    changes nothing if they are the same object. *)
Definition mergeSample (self sample : otfs) : result otfs :=
  if Nat.eqb (o_n self) 0 then
    Ok (mk_otfs (o_n sample) (o_M sample) (o_S sample))
  else if Nat.eqb (o_n self) 1 then
    let myValue := o_M self in
    let self' := mk_otfs (o_n sample) (o_M sample) (o_S sample) in
    Ok (addDatum self' myValue)
  else if Nat.eqb (o_n sample) 0 then Ok self
  else if Nat.eqb (o_n sample) 1 then
    do m <- getSampleMean sample;
    Ok (addDatum self m)
  else
    let mergedSampleSize := (getSampleSize self + getSampleSize sample)%nat in
    do m1 <- getSampleMean self;
    do m2 <- getSampleMean sample;
    let mergedMean :=
      (qn (getSampleSize self) * m1 + qn (getSampleSize sample) * m2)
        / qn mergedSampleSize in
    do v1 <- getSampleVariance self;
    do v2 <- getSampleVariance sample;
    let mergedS0 := (qn (getSampleSize self) - 1) * v1
                  + (qn (getSampleSize sample) - 1) * v2 in
    let n := getSampleSize self in
    let m := getSampleSize sample in
    let c := (m1 - m2) / qn (n + m) in
    let c := c * c in
    let c := c * (qn n * qn m * qn (n + m)) in
    Ok (mk_otfs mergedSampleSize mergedMean (mergedS0 + c)).

(** OnTheFlyStatistics.py l.121-129. *)
Fixpoint mergeSamples (self : otfs) (samples : list otfs) : result otfs :=
  match samples with
  | [] => Ok self
  | s :: r => do self' <- mergeSample self s; mergeSamples self' r
  end.

(** A program using any number of statistics objects, named by numbers.
    [OMerge i j] is [x_i.mergeSample(x_j)], [OMergeAll i js] is
    [x_i.mergeSamples([x_j for j in js])]; [i = j] is allowed (calls of OnTheFlyStatistics.py l.38-129). *)
Inductive op :=
| ONew (i : nat)
| OAdd (i : nat) (x : Qc)
| OMerge (i j : nat)
| OMergeAll (i : nat) (js : list nat).

(** Changing an object, OnTheFlyStatistics.py l.38-129. *)
Definition upd {A} (f : nat -> A) (i : nat) (v : A) : nat -> A :=
  fun k => if Nat.eqb k i then v else f k.

(** [mergeSamples] on objects in the store: each sample is looked up when its
    turn comes, as the Python loop does (OnTheFlyStatistics.py l.121-129). *)
Fixpoint merge_all (st : nat -> otfs) (i : nat) (js : list nat)
  : result (nat -> otfs) :=
  match js with
  | [] => Ok st
  | j :: r => do s <- mergeSample (st i) (st j); merge_all (upd st i s) i r
  end.

(** One call, OnTheFlyStatistics.py l.38-129. *)
Definition exec (st : nat -> otfs) (o : op) : result (nat -> otfs) :=
  match o with
  | ONew i => Ok (upd st i otfs_new)
  | OAdd i x => Ok (upd st i (addDatum (st i) x))
  | OMerge i j => do s <- mergeSample (st i) (st j); Ok (upd st i s)
  | OMergeAll i js => merge_all st i js
  end.

(** A sequence of calls, OnTheFlyStatistics.py l.38-129. *)
Fixpoint run (st : nat -> otfs) (os : list op) : result (nat -> otfs) :=
  match os with
  | [] => Ok st
  | o :: r => do st' <- exec st o; run st' r
  end.

(** Before anything is done, every name denotes a fresh object (OnTheFlyStatistics.py l.22-40). *)
Definition store0 : nat -> otfs := fun _ => otfs_new.

(** OnTheFlyStatistics.py l.182-189 ([getStandardErrorOfTheMean]), squared so
    that no square root is needed: variance divided by the sample size. *)
Definition getStandardErrorOfTheMean_squared (s : otfs) : result Qc :=
  do v <- getSampleVariance s; Ok (v / qn (getSampleSize s)).

(** C++ getters: OnTheFlyStatistics.hpp l.59-62 and l.73-79. *)
Definition cpp_getSampleMean (s : otfs) : Qc := o_M s.
(** OnTheFlyStatistics.hpp l.73-79. *)
Definition cpp_getSampleVariance (s : otfs) : Qc :=
  if Nat.ltb (o_n s) 2 then 0 else o_S s / (qn (o_n s) - 1).

Section Serialization.
Import StrBase.
Open Scope string_scope.

(** Printing and parsing of floating point numbers ([str], [float] in Python;
    [std::ostream] with 17 digits and [boost::lexical_cast] in C++). *)
Variable fmt : Qc -> string.
Variable parse : string -> option Qc.

(** OnTheFlyStatistics.py l.192-206;
    ImplementationDetails/OnTheFlyStatistics.hpp l.22-37. *)
Definition serialize (s : otfs) : string :=
  "1;" ++ str_of_Z (Z.of_nat (o_n s)) ++ ";" ++ fmt (o_M s) ++ ";" ++ fmt (o_S s).

(** Conversion that may raise, OnTheFlyStatistics.py l.209-248. *)
Definition oget {A} (e : exc) (o : option A) : result A :=
  match o with Some a => Ok a | None => Err e end.

(** OnTheFlyStatistics.py l.209-248 (the argument is a [str]). The first
    component is the object after the call. *)
Definition unserialize (self : otfs) (state : string) : otfs * result unit :=
  let parts := split ";" state in
  match
    (do v <- oget ValueError (Z_of_str (nth 0 parts ""));
     if negb (Z.eqb v 1) then Err ValueError else
     if negb (Nat.eqb (List.length parts) 4) then Err ValueError else
     do n <- oget ValueError (Z_of_str (nth 1 parts ""));
     do M <- oget ValueError (parse (nth 2 parts ""));
     do S_ <- oget ValueError (parse (nth 3 parts ""));
     if Z.ltb n 0 then Err ValueError else
     if Z.eqb n 0 && (negb (qeqb M 0) || negb (qeqb S_ 0)) then Err ValueError else
     if qltb S_ 0 then Err ValueError else
     Ok (mk_otfs (Z.to_nat n) M S_))
  with
  | Ok s => (s, Ok tt)
  | Err e => (self, Err e)
  end.

(** ImplementationDetails/OnTheFlyStatistics.hpp l.39-84. *)
Definition leading_minus (s : string) : bool :=
  match s with String a _ => Ascii.eqb a "-" | EmptyString => false end.

(** [boost::lexical_cast<unsigned int>] after the leading minus sign has been
    excluded. Simplified: values of 2^32 (2^64) and above, which
    [boost::lexical_cast] rejects, are accepted; a leading plus sign, which it
    accepts, is rejected (ImplementationDetails/OnTheFlyStatistics.hpp l.39-84). *)
Definition cpp_unserialize (self : otfs) (state : string) : otfs * result unit :=
  let parts := split ";" state in
  match
    (if leading_minus (nth 0 parts "") then Err InvalidArgumentException else
     do v <- oget InvalidArgumentException (Z_of_str (nth 0 parts ""));
     if negb (Z.eqb v 1) then Err InvalidArgumentException else
     if negb (Nat.eqb (List.length parts) 4) then Err InvalidArgumentException else
     if leading_minus (nth 1 parts "") then Err InvalidArgumentException else
     do n <- oget InvalidArgumentException (Z_of_str (nth 1 parts ""));
     do M <- oget InvalidArgumentException (parse (nth 2 parts ""));
     do S_ <- oget InvalidArgumentException (parse (nth 3 parts ""));
     if Z.eqb n 0 && (negb (qeqb M 0) || negb (qeqb S_ 0))
     then Err InvalidArgumentException else
     if qltb S_ 0 then Err InvalidArgumentException else
     Ok (mk_otfs (Z.to_nat n) M S_))
  with
  | Ok s => (s, Ok tt)
  | Err e => (self, Err e)
  end.
End Serialization.
