(** What is expected of devices and their addresses. *)
From Coq Require Import String Ascii List ZArith Bool.
From Verif Require Import StrBase PciModel.
Import ListNotations.
Open Scope Z_scope.

(** Value of a digit, lower case only. *)
Definition digit_value (c : ascii) : option Z :=
  let n := Z.of_nat (nat_of_ascii c) in
  if (48 <=? n) && (n <=? 57) then Some (n - 48) else if (97 <=? n) && (n <=? 102) then Some (n - 87) else None.
(** Value of digits, after others of value [acc]. *)
Fixpoint hex_value (acc : Z) (s : string) : option Z :=
  match s with
  | EmptyString => Some acc
  | String c s => match digit_value c with Some d => hex_value (acc * 16 + d) s | None => None end
  end.
(** A program that reads addresses. *)
Definition read_address (s : string) : option (Z * Z * Z) :=
  match StrBase.split ":"%char s with
  | [d; b; x] => match hex_value 0 d, hex_value 0 b, hex_value 0 x with Some d, Some b, Some x => Some (d, b, x) | _, _, _ => None end
  | _ => None
  end.
(** The lengths of the parts between colons. *)
Definition parts (s : string) : list nat := map String.length (StrBase.split ":"%char s).
(** Examples. *)
Definition card : properties := Properties 0 59 10 "Some device" 8000000000.
(** Two devices, the second one active. *)
Definition node : system := System [Properties 0 4 0 "First" 4000; card] 1 (fun _ => 1024) (fun z => z <=? 65536) false.
