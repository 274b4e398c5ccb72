(** What a decorrelation accumulator has to contain. *)
From Verif Require Import QcBase PyBase OtfsModel OtfsSpec DddaModel.
Set Implicit Arguments.
Open Scope Qc_scope.

(** Data of block [i] after feeding [l] in order: the averages of the complete
    consecutive groups of 2^i data. *)
Definition group_mean (l : list Qc) (i k : nat) : Qc :=
  mean (firstn (2 ^ i) (skipn (k * 2 ^ i) l)).
Definition block_data (l : list Qc) (i : nat) : list Qc :=
  map (group_mean l i) (seq 0 (length l / 2 ^ i)).

(** Number of blocks after feeding [n] data. *)
Definition block_count (n : nat) : nat := S (Nat.log2 n).

(** The waiting datum of a block holding [l]: its last datum if the number is
    odd. *)
Definition last_if_odd (l : list Qc) : option Qc :=
  if Nat.odd (length l) then Some (last l 0) else None.

(** Merged accumulators: each level's data are paired up, except for the one
    waiting datum, and the next level holds the averages of the pairs. *)
Definition avg (p : Qc * Qc) : Qc := (fst p + snd p) / (1 + 1).
Definition flat (ps : list (Qc * Qc)) : list Qc :=
  flat_map (fun p => [fst p; snd p]) ps.
Definition opt {A} (w : option A) : list A := match w with None => [] | Some x => [x] end.
Inductive paired : list level -> list Qc -> Prop :=
| paired_nil : paired [] []
| paired_cons b w r D ps :
    answers b D -> Permutation D (flat ps ++ opt w) -> paired r (map avg ps) ->
    paired ((b, w) :: r) D.

(** Everything promised about an accumulator that has received the data [D], in
    whatever pieces: pairing structure, number of blocks, block sizes, presence
    of waiting data, and the overall statistics. *)
Definition structure_ok (d : ddda) (D : list Qc) : Prop :=
  paired d D /\
  length d = block_count (length D) /\
  (forall i, getSampleSize (block d (S i)) = (getSampleSize (block d i) / 2)%nat) /\
  (forall i, (i < length d)%nat ->
     (waiting d i <> None <-> Nat.odd (getSampleSize (block d i)) = true)) /\
  answers (block d 0) D.

(** The data fed into each accumulator. *)
Definition ddata_op (d : nat -> list Qc) (o : dop) : nat -> list Qc :=
  match o with
  | DNew i => setl d i []
  | DAdd i x => setl d i (d i ++ [x])
  | DMerge i j => setl d i (d i ++ d j)
  end.
Definition ddata_of (os : list dop) : nat -> list Qc :=
  fold_left ddata_op os (fun _ => []).

(** Programs that never merge an accumulator with itself. *)
Definition no_self (os : list dop) : Prop := forall i, ~ In (DMerge i i) os.

(** The criterion of Lee et al. for a block ID, in terms of variance/size. *)
Definition se2 (s : otfs) : Qc := match getSampleVariance s with
  | Ok v => v / qn (getSampleSize s) | Err _ => 0 end.
Definition criterion (d : ddda) (b : nat) : Prop :=
  let q2 := se2 (block d b) / se2 (block d 0) in
  (1 + 1) * qn (ddda_size d) * (q2 * q2) < qn ((2 ^ b) ^ 3).

(** The block the documentation asks for: the smallest one meeting the
    criterion, or the largest one with a variance if none does; block 0 if the
    data do not vary. *)
Definition documented_block (d : ddda) (m b : nat) : Prop :=
  if qeqb (se2 (block d 0)) 0 then b = 0%nat
  else ((b <= m)%nat /\ criterion d b /\ forall b', (b' < b)%nat -> ~ criterion d b')
       \/ (b = m /\ forall b', (b' <= m)%nat -> ~ criterion d b').
