(** The text of floating-point numbers in files: [file.precision(std::numeric_limits<FP>::digits10 + 2)] and [file << x]
    (src/OpenMPCD/VTFSnapshotFile.cpp l.51, l.205-213; src/OpenMPCD/Graph.cpp l.13-20; src/OpenMPCD/Histogram.cpp l.80-90;
    include/OpenMPCD/ImplementationDetails/OnTheFlyStatistics.hpp l.29-34), and [boost::lexical_cast<FP>(s)] or [float(s)]
    (include/OpenMPCD/VTFSnapshotFile.hpp l.506-517; Analysis/MPCDAnalysis/Utilities.py l.92-93).
    Simplified: finite numbers; reading and writing round to nearest, ties to even. *)
From Coq Require Import String Ascii List ZArith Bool.
From Verif Require Import StrBase.
Import ListNotations.
Open Scope string_scope.
Open Scope Z_scope.

(** Finite values of IEEE 754 formats with [bits] bits and exponents from [emin] to [emax] (include/OpenMPCD/Types.hpp l.13: [FP] is [double]):
    sign, mantissa and exponent. *)
Record number := Number { negative : bool; mantissa : Z; exponent : Z }.

Section Format.
Variable bits emin emax : Z.
(** Each value has one such representation (Types.hpp l.13). *)
Definition valid (x : number) : bool :=
  (0 <=? mantissa x) && (mantissa x <? 2 ^ bits) && (emin <=? exponent x) && (exponent x <=? emax)
  && ((2 ^ (bits - 1) <=? mantissa x) || (exponent x =? emin)).
(** The values of the type (Types.hpp l.13). *)
Definition float := { x : number | valid x = true }.

(** * Writing *)

(** [std::numeric_limits<T>::digits10], the largest [q] with [10^q <= 2^(bits-1)] (VTFSnapshotFile.cpp l.51). *)
Definition digits10 : Z := Z.of_nat (length (filter (fun q => 10 ^ Z.of_nat q <=? 2 ^ (bits - 1)) (seq 1 (Z.to_nat bits)))).
(** The largest [k] with [b^k <= n] (VTFSnapshotFile.cpp l.205). *)
Fixpoint log_loop (b : Z) (fuel : nat) (n : Z) : Z :=
  match fuel with O => 0 | S f => if n <? b then 0 else 1 + log_loop b f (n / b) end.
(** The same for a quotient (VTFSnapshotFile.cpp l.205). *)
Definition log_quotient (b num den : Z) : Z :=
  let j := Z.log2 den + 1 in
  let t := num * b ^ j / den in
  log_loop b (Z.to_nat (Z.log2 t + 1)) t - j.
(** The integer that is nearest to a quotient, even ones in the case of ties (VTFSnapshotFile.cpp l.205). *)
Definition round_even (num den : Z) : Z :=
  let q := num / den in
  let r := num mod den in
  if 2 * r <? den then q else if den <? 2 * r then q + 1 else if Z.even q then q else q + 1.
(** [num / den / b^s] (VTFSnapshotFile.cpp l.205). *)
Definition round_at (b num den s : Z) : Z := round_even (num * b ^ Z.max 0 (- s)) (den * b ^ Z.max 0 s).
(** [p] digits of the quotient and the exponent of the last one, which is at least [low] if given (VTFSnapshotFile.cpp l.205). *)
Definition round_digits (b p : Z) (low : option Z) (num den : Z) : Z * Z :=
  let s := log_quotient b num den - (p - 1) in
  let s := match low with Some l => Z.max l s | None => s end in
  let n := round_at b num den s in
  if n =? b ^ p then (b ^ (p - 1), s + 1) else (n, s).
(** [k] digits (VTFSnapshotFile.cpp l.205). *)
Definition digit (d : Z) : ascii := ascii_of_nat (48 + Z.to_nat d).
(** VTFSnapshotFile.cpp l.205. *)
Fixpoint digits (k : nat) (n : Z) : string :=
  match k with O => "" | S k => digits k (n / 10) ++ String (digit (n mod 10)) "" end.
(** VTFSnapshotFile.cpp l.205: without zeros at the end. *)
Fixpoint strip (s : string) : string :=
  match s with
  | "" => ""
  | String c r => match strip r with "" => if Ascii.eqb c "0" then "" else String c "" | t => String c t end
  end.
(** VTFSnapshotFile.cpp l.205. *)
Fixpoint zeros (k : nat) : string := match k with O => "" | S k => String "0" (zeros k) end.
(** The fraction, if any, with its point (VTFSnapshotFile.cpp l.205). *)
Definition fraction (s : string) : string := match strip s with "" => "" | t => String "." t end.
(** The exponent: a sign and at least two digits (VTFSnapshotFile.cpp l.205). *)
Definition exponent_text (e : Z) : string :=
  "e" ++ (if e <? 0 then "-" else "+") ++ digits (Nat.max 2 (Z.to_nat (log_loop 10 (Z.to_nat (Z.log2 (Z.abs e) + 1)) (Z.abs e)) + 1)) (Z.abs e).
(** The [p] digits of [n], the first of which is worth [10^e], as [%g] writes them (VTFSnapshotFile.cpp l.205). *)
Definition general (p : nat) (n e : Z) : string :=
  let s := digits p n in
  if (e <? -4) || (Z.of_nat p <=? e) then
    substring 0 1 s ++ fraction (substring 1 (p - 1) s) ++ exponent_text e
  else if e <? 0 then "0" ++ fraction (zeros (Z.to_nat (- e - 1)) ++ s)
  else let i := Z.to_nat (e + 1) in substring 0 i s ++ fraction (substring i (p - i) s).
(** The value as a quotient (VTFSnapshotFile.cpp l.205). *)
Definition numerator (x : number) : Z := mantissa x * 2 ^ Z.max 0 (exponent x).
(** The same, VTFSnapshotFile.cpp l.205. *)
Definition denominator (x : number) : Z := 2 ^ Z.max 0 (- exponent x).
(** [file << x] with the given precision (VTFSnapshotFile.cpp l.205). *)
Definition print (p : nat) (x : float) : string :=
  let x := proj1_sig x in
  (if negative x then "-" else "") ++
  (if mantissa x =? 0 then "0"
   else let (n, s) := round_digits 10 (Z.of_nat p) None (numerator x) (denominator x) in general p n (s + (Z.of_nat p - 1))).

(** * Reading *)

(** The value of a digit (VTFSnapshotFile.hpp l.506-517). *)
Definition digit_value (c : ascii) : Z := Z.of_nat (nat_of_ascii c) - 48.
(** The digits at the beginning: their number, their value and the rest (VTFSnapshotFile.hpp l.506-517). *)
Fixpoint read_digits (s : string) (count value : Z) : Z * Z * string :=
  match s with
  | "" => (count, value, "")
  | String c r => if is_digit c then read_digits r (count + 1) (10 * value + digit_value c) else (count, value, s)
  end.
(** A minus sign, if any (VTFSnapshotFile.hpp l.506-517). *)
Definition read_sign (s : string) : bool * string :=
  match s with
  | String c r => if Ascii.eqb c "-" then (true, r) else if Ascii.eqb c "+" then (false, r) else (false, s)
  | "" => (false, s)
  end.
(** The exponent (VTFSnapshotFile.hpp l.506-517). *)
Definition read_exponent (s : string) : option Z :=
  match s with
  | "" => Some 0
  | String c r =>
    if Ascii.eqb c "e" || Ascii.eqb c "E" then
      let (neg, r) := read_sign r in
      match read_digits r 0 0 with
      | (count, value, "") => if count =? 0 then None else Some (if neg then - value else value)
      | _ => None
      end
    else None
  end.
(** Sign, digits, and the exponent of the last digit (VTFSnapshotFile.hpp l.506-517). *)
Definition read_decimal (s : string) : option (bool * Z * Z) :=
  let (neg, s) := read_sign s in
  let '(count, value, s) := read_digits s 0 0 in
  let '(count', value, s) := match s with String "." r => read_digits r 0 value | _ => (0, value, s) end in
  if count + count' =? 0 then None
  else match read_exponent s with Some e => Some (neg, value, e - count') | None => None end.
(** The nearest value, unless it is too large (VTFSnapshotFile.hpp l.506-517). *)
Definition nearest_number (neg : bool) (value e : Z) : number :=
  if value =? 0 then Number neg 0 emin
  else let (m, f) := round_digits 2 bits (Some emin) (value * 10 ^ Z.max 0 e) (10 ^ Z.max 0 (- e)) in Number neg m f.
(** VTFSnapshotFile.hpp l.506-517. *)
Definition make (x : number) : option float :=
  match bool_dec (valid x) true with left h => Some (exist _ x h) | right _ => None end.
(** [boost::lexical_cast<FP>(s)] (VTFSnapshotFile.hpp l.506-517). *)
Definition lexical_cast (s : string) : option float :=
  match read_decimal s with None => None | Some (neg, value, e) => make (nearest_number neg value e) end.

(** * The state of an accumulator *)

(** The members [sampleSize], [mean] and [varianceHelper] (include/OpenMPCD/OnTheFlyStatistics.hpp l.164-166). *)
Record state := State { sampleSize : Z; mean : float; varianceHelper : float }.
(** [std::numeric_limits<T>::digits10 + 2] (ImplementationDetails/OnTheFlyStatistics.hpp l.29). *)
Definition precision : nat := Z.to_nat (digits10 + 2).
(** [x == 0] and [x < 0] (ImplementationDetails/OnTheFlyStatistics.hpp l.67-74). *)
Definition is_zero (x : float) : bool := mantissa (proj1_sig x) =? 0.
(** ImplementationDetails/OnTheFlyStatistics.hpp l.73. *)
Definition is_negative (x : float) : bool := negative (proj1_sig x) && negb (is_zero x).
(** ImplementationDetails/OnTheFlyStatistics.hpp l.23-36. *)
Definition serializeToString (x : state) : string :=
  "1;" ++ str_of_Z (sampleSize x) ++ ";" ++ print precision (mean x) ++ ";" ++ print precision (varianceHelper x).
(** [boost::lexical_cast] to an unsigned type of [w] bits; texts that begin with a minus sign, which it would accept, have been refused before
    (ImplementationDetails/OnTheFlyStatistics.hpp l.47-50 and l.58-62). *)
Definition unsigned_cast (w : Z) (s : string) : option Z :=
  let s := match s with String "+" r => r | _ => s end in
  if negb (String.eqb s "") && all_chars is_digit s then
    match Z_of_str s with Some n => if n <? 2 ^ w then Some n else None | None => None end
  else None.
(** ImplementationDetails/OnTheFlyStatistics.hpp l.38-82; [None] is an exception. *)
Definition unserializeFromString (s : string) : option state :=
  match split ";" s with
  | [version; n; m; h] =>
    match unsigned_cast 32 version, unsigned_cast 64 n, lexical_cast m, lexical_cast h with
    | Some v, Some n, Some m, Some h =>
      if negb (v =? 1) then None
      else if (n =? 0) && (negb (is_zero m) || negb (is_zero h)) then None
      else if is_negative h then None
      else Some (State n m h)
    | _, _, _, _ => None
    end
  | _ => None
  end.
End Format.

(** [FP] (Types.hpp l.13). *)
Definition double : Type := float 53 (-1074) 971.
(** VTFSnapshotFile.cpp l.205. *)
Definition double_text (p : nat) : double -> string := print 53 (-1074) 971 p.
(** VTFSnapshotFile.hpp l.506-517. *)
Definition double_cast : string -> option double := lexical_cast 53 (-1074) 971.
(** The precision set for files of numbers of type [FP] (VTFSnapshotFile.cpp l.51, Graph.cpp l.13, Histogram.cpp l.80, DensityProfile.cpp l.50, FlowProfile.cpp l.79). *)
Definition file_precision : nat := precision 53.
(** The precision of a new stream, which src/OpenMPCD/CUDA/MPCFluid/Instrumentation/GaussianChains.cpp l.79-107 does not change. *)
Definition default_precision : nat := 6.
(** [str(x)] of a float in Python 2: twelve digits, and [.0] if it looks like an integer (Analysis/MPCDAnalysis/OnTheFlyStatistics.py l.203-204). *)
Definition python2_str (x : double) : string :=
  let t := double_text 12 x in if has_char "." t || has_char "e" t then t else t ++ ".0".
