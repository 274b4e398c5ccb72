(** What the text of an accumulator says, and when accumulators in C++ and Python agree. *)
From Coq Require Import String Ascii List ZArith Bool.
From Verif Require Import PyBase StrBase CddModel.
From Verif Require DigModel.
Import ListNotations.
Open Scope string_scope.
Open Scope list_scope.
Open Scope Z_scope.

(** Blocks as adding data leaves them: no negative sum of squares, and no sums without data. *)
Definition sound (b : block_state) : Prop :=
  0 <= DigModel.sampleSize _ _ _ b < 2 ^ 64 /\ DigModel.is_negative _ _ _ (DigModel.varianceHelper _ _ _ b) = false /\
  (DigModel.sampleSize _ _ _ b = 0 -> DigModel.is_zero _ _ _ (DigModel.mean _ _ _ b) = true /\ DigModel.is_zero _ _ _ (DigModel.varianceHelper _ _ _ b) = true).
(** A field for a block or for a number that waits; an empty field says that none does. *)
Definition says_block (field : string) (b : block_state) : Prop := DigModel.unserializeFromString _ _ _ field = Some b.
Definition says_waiting (field : string) (w : waiting_state) : Prop :=
  match w with None => field = "" | Some x => field <> "" /\ DigModel.double_cast field = Some x end.
(** The version, the number of blocks, the blocks, and what waits, separated by bars; no blocks stand for a new accumulator. *)
Definition says (text : string) (x : accumulator) : Prop :=
  exists version count bs ws b w, split "|" text = version :: count :: bs ++ ws /\
    DigModel.unsigned_cast 32 version = Some 1 /\ DigModel.unsigned_cast 32 count = Some (Z.of_nat (length bs)) /\ length ws = length bs /\
    Forall2 says_block bs b /\ Forall2 says_waiting ws w /\ x = match bs with [] => new_accumulator | _ => Accumulator b w end.
(** A call in C++ that does the same as one in Python.  Where Python complains about the block, C++ does so only if debugging. *)
Definition agree {A} (debug : bool) (c : call A) (r : result A) : Prop :=
  match r with
  | Ok a => c = Value a
  | Err ValueError => c = if debug then Throw InvalidArgumentException else Undefined
  | Err _ => c = Throw InvalidCallException
  end.
