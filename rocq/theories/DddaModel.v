(** Model of the dynamic distributable decorrelation algorithm (DDDA)
    - Analysis/MPCDAnalysis/OnTheFlyStatisticsDDDA.py
    - include/OpenMPCD/ImplementationDetails/OnTheFlyStatisticsDDDA.hpp
    Simplifications: exact rationals; the parallel lists [_blocks] and
    [_waiting], which every method grows together, are one list of pairs. *)
From Verif Require Export QcBase PyBase OtfsModel.
From Verif Require StrBase.
Set Implicit Arguments.
Open Scope Qc_scope.

Notation level := (otfs * option Qc)%type.
Notation ddda := (list (otfs * option Qc)).

(** The number 2, OnTheFlyStatisticsDDDA.py l.579-593. *)
Definition two : Qc := 1 + 1.

(** OnTheFlyStatisticsDDDA.py l.29-37; .hpp l.20-27. *)
Definition ddda_new : ddda := [(otfs_new, None)].

(** OnTheFlyStatisticsDDDA.py l.579-593 ([_addDatum]), on the list of levels
    starting at [blockID]; the empty list stands for the level that is appended
    (l.588-591) before the recursive call. .hpp l.206-232. *)
Fixpoint add_lv (lv : list level) (x : Qc) : list level :=
  match lv with
  | [] => [(addDatum otfs_new x, Some x)]
  | (b, None) :: r => (addDatum b x, Some x) :: r
  | (b, Some y) :: r => (addDatum b x, None) :: add_lv r ((y + x) / two)
  end.

(** OnTheFlyStatisticsDDDA.py l.40-49. *)
Definition ddda_add (d : ddda) (x : Qc) : ddda := add_lv d x.

(** OnTheFlyStatisticsDDDA.py l.86-88: append empty levels. *)
Definition pad (d : ddda) (n : nat) : ddda :=
  d ++ repeat (otfs_new, None) (n - length d).

(** OnTheFlyStatisticsDDDA.py l.90-93: merge the blocks level by level. *)
Fixpoint merge_blocks (lv rv : list level) : result (list level) :=
  match lv, rv with
  | (b, w) :: lv', (c, _) :: rv' =>
    do b' <- mergeSample b c;
    do t <- merge_blocks lv' rv';
    Ok ((b', w) :: t)
  | _, _ => Ok lv
  end.

(** OnTheFlyStatisticsDDDA.py l.95-113: merge the waiting data; [rw] are the
    waiting slots of [rhs] from level [i] on. *)
Fixpoint merge_wait (lv : list level) (rw : list (option Qc)) : list level :=
  match rw, lv with
  | None :: rw', l :: lv' => l :: merge_wait lv' rw'
  | Some y :: rw', (b, None) :: lv' => (b, Some y) :: merge_wait lv' rw'
  | Some y :: rw', (b, Some x) :: lv' =>
    (b, None) :: merge_wait (add_lv lv' ((x + y) / two)) rw'
  | _, _ => lv
  end.

(** OnTheFlyStatisticsDDDA.py l.52-113, [rhs] a different object. *)
Definition ddda_merge (self rhs : ddda) : result ddda :=
  do d <- merge_blocks (pad self (length rhs)) rhs;
  Ok (merge_wait d (map snd rhs)).

(** OnTheFlyStatisticsDDDA.py l.95-113 with [rhs] the same object as [self]:
    [rhs._waiting[i]] is the slot as left by the earlier iterations. *)
Fixpoint self_wait (k : nat) (lv : list level) : list level :=
  match k, lv with
  | S k', (b, None) :: lv' => (b, None) :: self_wait k' lv'
  | S k', (b, Some x) :: lv' =>
    (b, None) :: self_wait k' (add_lv lv' ((x + x) / two))
  | _, _ => lv
  end.
(** OnTheFlyStatisticsDDDA.py l.52-113, with [other] being [self]. *)
Definition ddda_merge_self (d : ddda) : result ddda :=
  do d' <- merge_blocks d d;
  Ok (self_wait (length d) d').

(** OnTheFlyStatisticsDDDA.py l.116-121, 124-142, 145-164. *)
Definition block (d : ddda) (i : nat) : otfs := fst (nth i d (otfs_new, None)).
(** OnTheFlyStatisticsDDDA.py l.95-113. *)
Definition waiting (d : ddda) (i : nat) : option Qc := snd (nth i d (otfs_new, None)).
(** OnTheFlyStatisticsDDDA.py l.116-121. *)
Definition ddda_size (d : ddda) : nat := getSampleSize (block d 0).
(** OnTheFlyStatisticsDDDA.py l.124-142. *)
Definition ddda_mean (d : ddda) : result Qc :=
  if Nat.eqb (ddda_size d) 0 then Err PyException else getSampleMean (block d 0).
(** OnTheFlyStatisticsDDDA.py l.145-164. *)
Definition maxBlockID (d : ddda) : nat := length d - 1.
(** OnTheFlyStatisticsDDDA.py l.145-164. *)
Definition maxBlockSize (d : ddda) : result nat :=
  if Nat.eqb (ddda_size d) 0 then Err PyException else Ok (Nat.pow 2 (maxBlockID d)).

(** OnTheFlyStatisticsDDDA.py l.167-206. *)
Definition hasBlockVariance (d : ddda) (i : nat) : result bool :=
  if Nat.ltb (maxBlockID d) i then Err ValueError
  else Ok (Nat.leb 2 (getSampleSize (block d i))).
(** OnTheFlyStatisticsDDDA.py l.167-206. *)
Definition blockVariance (d : ddda) (i : nat) : result Qc :=
  do h <- hasBlockVariance d i;
  if h then getSampleVariance (block d i) else Err RuntimeError.

(** The test [blockSize ** 3 > 2 * N * quotient ** 4], OnTheFlyStatisticsDDDA.py l.340-347.
    [(se_b / se_0) ** 4] is computed as [((se_b^2) / (se_0^2))^2], which avoids
    the square roots of the code and is the same number. *)
Definition threshold_exceeded (N blockID : nat) (se2_b se2_0 : Qc) : bool :=
  let quotient2 := se2_b / se2_0 in
  qltb (two * qn N * (quotient2 * quotient2)) (qn (Nat.pow 2 blockID ^ 3)).

(** The loop OnTheFlyStatisticsDDDA.py l.333-349, [k] iterations left, handling block [k - 1] next. *)
Fixpoint optimal_loop (d : ddda) (raw2 : Qc) (k optimal : nat) : result nat :=
  match k with
  | O => Ok optimal
  | S blockID =>
    do h <- hasBlockVariance d blockID;
    if negb h then
      if Nat.eqb blockID (maxBlockID d)
      then optimal_loop d raw2 blockID (optimal - 1)
      else Err AssertionError
    else
      do se2 <- getStandardErrorOfTheMean_squared (block d blockID);
      if threshold_exceeded (ddda_size d) blockID se2 raw2
      then optimal_loop d raw2 blockID blockID
      else optimal_loop d raw2 blockID optimal
  end.

(** OnTheFlyStatisticsDDDA.py l.305-351; .hpp l.145-185. *)
Definition optimalBlockID (d : ddda) : result nat :=
  if Nat.ltb (ddda_size d) 2 then Err RuntimeError else
  do raw2 <- getStandardErrorOfTheMean_squared (block d 0);
  if qeqb raw2 0 then Ok 0%nat else
  optimal_loop d raw2 (S (maxBlockID d)) (maxBlockID d).

(** OnTheFlyStatisticsDDDA.py l.354-375. *)
Definition optimalIsReliable (d : ddda) : result bool :=
  do b <- optimalBlockID d;
  Ok (Nat.ltb (50 * Nat.pow 2 b) (ddda_size d)).

(** OnTheFlyStatisticsDDDA.py l.378-399, squared. *)
Definition optimalStandardError_squared (d : ddda) : result Qc :=
  do b <- optimalBlockID d;
  do h <- hasBlockVariance d b;
  if h then getStandardErrorOfTheMean_squared (block d b) else Err RuntimeError.

(** C++ [size_t] arithmetic in the same test
    (.hpp l.166-177: [blockSize * blockSize * blockSize] is taken modulo 2^64). *)
Definition cpp_threshold_exceeded (N blockID : nat) (se2_b se2_0 : Qc) : bool :=
  let quotient2 := se2_b / se2_0 in
  qltb (two * qn N * (quotient2 * quotient2))
       (qz ((2 ^ Z.of_nat blockID) ^ 3 mod 2 ^ 64)).

(** .hpp l.145-185; the unsigned loop variable never wraps because the loop is
    left at block 0, which always has a variance here. *)
Fixpoint cpp_optimal_loop (d : ddda) (raw2 : Qc) (k optimal : nat) : result nat :=
  match k with
  | O => Ok optimal
  | S blockID =>
    do h <- hasBlockVariance d blockID;
    if negb h then
      if Nat.eqb blockID (maxBlockID d)
      then cpp_optimal_loop d raw2 blockID (optimal - 1)
      else Err AssertionError
    else
      do se2 <- getStandardErrorOfTheMean_squared (block d blockID);
      if cpp_threshold_exceeded (ddda_size d) blockID se2 raw2
      then cpp_optimal_loop d raw2 blockID blockID
      else cpp_optimal_loop d raw2 blockID optimal
  end.
(** OnTheFlyStatisticsDDDA.hpp l.145-185. *)
Definition cpp_optimalBlockID (d : ddda) : result nat :=
  if Nat.ltb (ddda_size d) 2 then Err RuntimeError else
  do raw2 <- getStandardErrorOfTheMean_squared (block d 0);
  if qeqb raw2 0 then Ok 0%nat else
  cpp_optimal_loop d raw2 (S (maxBlockID d)) (maxBlockID d).

(** A program over any number of accumulators. [DMerge i j] with [i = j] is
    [x.merge(x)] (calls of OnTheFlyStatisticsDDDA.py l.40-113). *)
Inductive dop :=
| DNew (i : nat)
| DAdd (i : nat) (x : Qc)
| DMerge (i j : nat).

(** One call, OnTheFlyStatisticsDDDA.py l.40-113. *)
Definition dexec (st : nat -> ddda) (o : dop) : result (nat -> ddda) :=
  match o with
  | DNew i => Ok (upd st i ddda_new)
  | DAdd i x => Ok (upd st i (ddda_add (st i) x))
  | DMerge i j =>
    if Nat.eqb i j
    then do d <- ddda_merge_self (st i); Ok (upd st i d)
    else do d <- ddda_merge (st i) (st j); Ok (upd st i d)
  end.
(** Several calls, OnTheFlyStatisticsDDDA.py l.40-113. *)
Fixpoint drun (st : nat -> ddda) (os : list dop) : result (nat -> ddda) :=
  match os with
  | [] => Ok st
  | o :: r => do st' <- dexec st o; drun st' r
  end.
(** Fresh objects, OnTheFlyStatisticsDDDA.py l.29-37. *)
Definition dstore0 : nat -> ddda := fun _ => ddda_new.

Section Serialization.
Import StrBase.
Open Scope string_scope.
Variable fmt : Qc -> string.
Variable parse : string -> option Qc.

(** OnTheFlyStatisticsDDDA.py l.402-420; .hpp l.234-257. *)
Definition ser_wait (w : option Qc) : string :=
  match w with None => "" | Some x => fmt x end.
(** OnTheFlyStatisticsDDDA.py l.402-420, .hpp l.234-257. *)
Definition ddda_serialize (d : ddda) : string :=
  "1|" ++ str_of_Z (Z.of_nat (List.length d))
  ++ String.concat "" (map (fun l => "|" ++ serialize fmt (fst l)) d)
  ++ String.concat "" (map (fun l => "|" ++ ser_wait (snd l)) d).

(** The loops reading the blocks and the waiting data, OnTheFlyStatisticsDDDA.py l.451-464. *)
Fixpoint read_blocks (ps : list string) : result (list otfs) :=
  match ps with
  | [] => Ok []
  | p :: r =>
    match unserialize parse otfs_new p with
    | (b, Ok _) => do t <- read_blocks r; Ok (b :: t)
    | (_, Err e) => Err e
    end
  end.
(** OnTheFlyStatisticsDDDA.py l.451-464. *)
Fixpoint read_wait (ps : list string) : result (list (option Qc)) :=
  match ps with
  | [] => Ok []
  | p :: r =>
    do w <- (if Nat.eqb (String.length p) 0 then Ok None
             else do x <- oget ValueError (parse p); Ok (Some x));
    do t <- read_wait r; Ok (w :: t)
  end.

(** OnTheFlyStatisticsDDDA.py l.423-473 (argument is a [str]). *)
Definition ddda_unserialize (self : ddda) (state : string) : ddda * result unit :=
  let parts := split "|" state in
  match
    (do v <- oget ValueError (Z_of_str (nth 0 parts ""));
     if negb (Z.eqb v 1) then Err ValueError else
     if Nat.ltb (List.length parts) 2 then Err IndexError else
     do n <- oget ValueError (Z_of_str (nth 1 parts ""));
     if Z.ltb n 0 then Err ValueError else
     let blockCount := Z.to_nat n in
     if negb (Nat.eqb (List.length parts) (2 + 2 * blockCount)) then Err ValueError else
     do blocks <- read_blocks (firstn blockCount (skipn 2 parts));
     do waits <- read_wait (firstn blockCount (skipn (2 + blockCount) parts));
     if Nat.eqb blockCount 0 then Ok ddda_new else
     Ok (combine blocks waits))
  with
  | Ok d => (d, Ok tt)
  | Err e => (self, Err e)
  end.
End Serialization.
