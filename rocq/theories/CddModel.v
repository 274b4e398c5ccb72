(** The accumulators of correlated data in C++: include/OpenMPCD/ImplementationDetails/OnTheFlyStatisticsDDDA.hpp; adding data and the optimal block are in DddaModel.v.
    Simplifications: for the text, finite numbers of type [double] (DigModel.v); for the rest, exact numbers, and real numbers for roots; [hasBlockVariance] compares without overflow. *)
From Coq Require Import String Ascii List ZArith Bool Reals.
From Verif Require Import QcBase PyBase StrBase OtfsModel DddaModel AxsModel ChainModel.
From Verif Require DigModel.
Import ListNotations.
Open Scope string_scope.
Open Scope list_scope.
Open Scope Z_scope.

(** What a call does: it may also read beyond the end of a vector (ImplementationDetails/OnTheFlyStatisticsDDDA.hpp l.83, 277). *)
Inductive call A := Value (a : A) | Throw (e : exc) | Undefined.
Arguments Value {A} a.
Arguments Throw {A} e.
Arguments Undefined {A}.
(** One call after the other (ImplementationDetails/OnTheFlyStatisticsDDDA.hpp l.104). *)
Definition andthen {A B} (c : call A) (f : A -> call B) : call B :=
  match c with Value a => f a | Throw e => Throw e | Undefined => Undefined end.

(** * Text *)

(** A block, and the state of an accumulator (ImplementationDetails/OnTheFlyStatisticsDDDA.hpp l.236-256, [blocks] and [waiting]). *)
Definition block_state : Type := DigModel.state 53 (-1074) 971.
(** ImplementationDetails/OnTheFlyStatisticsDDDA.hpp l.19-27: a number that waits, if any. *)
Definition waiting_state : Type := option DigModel.double.
(** ImplementationDetails/OnTheFlyStatisticsDDDA.hpp l.19-27, the members. *)
Record accumulator := Accumulator { blocks : list block_state; waits : list waiting_state }.
(** ImplementationDetails/OnTheFlyStatisticsDDDA.hpp l.19-27: zero, without data. *)
Definition zero : DigModel.double := exist _ (DigModel.Number false 0 (-1074)) eq_refl.
(** ImplementationDetails/OnTheFlyStatisticsDDDA.hpp l.19-27. *)
Definition new_accumulator : accumulator := Accumulator [DigModel.State 53 (-1074) 971 0 zero zero] [None].

(** The loop ImplementationDetails/OnTheFlyStatisticsDDDA.hpp l.245-246. *)
Fixpoint blocks_text (bs : list block_state) : string :=
  match bs with [] => "" | b :: r => ("|" ++ DigModel.serializeToString 53 (-1074) 971 b ++ blocks_text r)%string end.
(** The loop ImplementationDetails/OnTheFlyStatisticsDDDA.hpp l.249-254, with as many iterations as there are blocks. *)
Fixpoint waits_text (n : nat) (ws : list waiting_state) : call string :=
  match n, ws with
  | O, _ => Value ""
  | S n, w :: r => andthen (waits_text n r) (fun t => Value ("|" ++ match w with Some x => DigModel.double_text DigModel.file_precision x | None => "" end ++ t)%string)
  | S _, [] => Undefined
  end.
(** ImplementationDetails/OnTheFlyStatisticsDDDA.hpp l.234-257. *)
Definition serialize (debug : bool) (x : accumulator) : call string :=
  if debug && negb (Nat.eqb (length (blocks x)) (length (waits x))) then Throw AssertionError else
  andthen (waits_text (length (blocks x)) (waits x)) (fun t =>
    Value ("1|" ++ str_of_Z (Z.of_nat (length (blocks x))) ++ blocks_text (blocks x) ++ t)%string).

(** The loop ImplementationDetails/OnTheFlyStatisticsDDDA.hpp l.285-291. *)
Fixpoint read_blocks (ps : list string) : option (list block_state) :=
  match ps with
  | [] => Some []
  | p :: r => match DigModel.unserializeFromString 53 (-1074) 971 p with None => None | Some b => match read_blocks r with None => None | Some bs => Some (b :: bs) end end
  end.
(** The loop ImplementationDetails/OnTheFlyStatisticsDDDA.hpp l.293-301. *)
Fixpoint read_waits (ps : list string) : option (list waiting_state) :=
  match ps with
  | [] => Some []
  | p :: r =>
    match (if Nat.ltb 0 (String.length p) then match DigModel.double_cast p with Some x => Some (Some x) | None => None end else Some None) with
    | None => None
    | Some w => match read_waits r with None => None | Some ws => Some (w :: ws) end
    end
  end.
(** ImplementationDetails/OnTheFlyStatisticsDDDA.hpp l.259-316: the state afterwards, and what the call does. [boost::bad_lexical_cast] becomes an [InvalidArgumentException];
    a minus sign is refused explicitly at l.269 and l.277, and is no digit. *)
Definition unserialize (self : accumulator) (state : string) : accumulator * call unit :=
  let parts := StrBase.split "|" state in
  let invalid := (self, Throw InvalidArgumentException) in
  match DigModel.unsigned_cast 32 (nth 0 parts "") with
  | None => invalid
  | Some version =>
    if negb (version =? 1) then invalid else
    match parts with
    | _ :: count :: rest =>
      match DigModel.unsigned_cast 32 count with
      | None => invalid
      | Some blockCount =>
        if negb (Z.of_nat (length parts) =? 2 + 2 * blockCount) then invalid else
        match read_blocks (firstn (Z.to_nat blockCount) rest) with
        | None => invalid
        | Some bs =>
          match read_waits (skipn (Z.to_nat blockCount) rest) with
          | None => invalid
          | Some ws => (if blockCount =? 0 then new_accumulator else Accumulator bs ws, Value tt)
          end
        end
      end
    | _ => (self, Undefined)
    end
  end.

(** * Statistics *)

(** The precondition ImplementationDetails/OnTheFlyStatisticsDDDA.hpp l.79-81, 90-92, 117-119 and 132-134, then access to the block. *)
Definition checked {A} (debug : bool) (d : ddda) (id : nat) (k : call A) : call A :=
  if Nat.leb id (maxBlockID d) then k else if debug then Throw InvalidArgumentException else Undefined.
(** ImplementationDetails/OnTheFlyStatisticsDDDA.hpp l.41-52. *)
Definition cpp_mean (d : ddda) : call Qc :=
  if Nat.eqb (ddda_size d) 0 then Throw InvalidCallException else Value (cpp_getSampleMean (block d 0)).
(** ImplementationDetails/OnTheFlyStatisticsDDDA.hpp l.54-65; shifts by 64 or more are undefined. *)
Definition cpp_maxBlockSize (d : ddda) : call Z :=
  if Nat.eqb (ddda_size d) 0 then Throw InvalidCallException else
  if Z.of_nat (maxBlockID d) <? 64 then Value (2 ^ Z.of_nat (maxBlockID d)) else Undefined.
(** ImplementationDetails/OnTheFlyStatisticsDDDA.hpp l.75-84. *)
Definition cpp_hasBlockVariance (debug : bool) (d : ddda) (id : nat) : call bool :=
  checked debug d id (Value (Nat.leb 2 (getSampleSize (block d id)))).
(** ImplementationDetails/OnTheFlyStatisticsDDDA.hpp l.86-98. *)
Definition cpp_blockVariance (debug : bool) (d : ddda) (id : nat) : call Qc :=
  checked debug d id (andthen (cpp_hasBlockVariance debug d id) (fun h =>
    if negb h then Throw InvalidCallException else Value (cpp_getSampleVariance (block d id)))).
(** ImplementationDetails/OnTheFlyStatisticsDDDA.hpp l.100-105. *)
Definition cpp_blockStandardDeviation (debug : bool) (d : ddda) (id : nat) : call R :=
  andthen (cpp_blockVariance debug d id) (fun v => Value (sqrt (toR v))).
(** ImplementationDetails/OnTheFlyStatisticsDDDA.hpp l.107-111. *)
Definition cpp_sampleStandardDeviation (debug : bool) (d : ddda) : call R := cpp_blockStandardDeviation debug d 0.
(** OnTheFlyStatistics.hpp l.103-109. *)
Definition cpp_standardError (debug : bool) (s : otfs) : call R :=
  if debug && Nat.eqb (getSampleSize s) 0 then Throw InvalidCallException else
  Value (sqrt (toR (cpp_getSampleVariance s)) / sqrt (INR (getSampleSize s)))%R.
(** ImplementationDetails/OnTheFlyStatisticsDDDA.hpp l.113-125. *)
Definition cpp_blockStandardError (debug : bool) (d : ddda) (id : nat) : call R :=
  checked debug d id (andthen (cpp_hasBlockVariance debug d id) (fun h =>
    if negb h then Throw InvalidCallException else cpp_standardError debug (block d id))).
(** ImplementationDetails/OnTheFlyStatisticsDDDA.hpp l.127-143. *)
Definition cpp_blockStandardErrorDeviation (debug : bool) (d : ddda) (id : nat) : call R :=
  checked debug d id (andthen (cpp_hasBlockVariance debug d id) (fun h =>
    if negb h then Throw InvalidCallException else
    andthen (cpp_blockStandardError debug d id) (fun se =>
      Value (se / sqrt (INR (2 * getSampleSize (block d id))))%R))).
