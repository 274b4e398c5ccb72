(** Model of the point collections of Analysis/MPCDAnalysis/Data2D.py, of
    PlotTools.findRangesOfEqualSign and of OnTheFlyStatisticsCollection. *)
From Verif Require Export QcBase PyBase DictBase SortBase OtfsModel.
Set Implicit Arguments.
Open Scope Qc_scope.

Notation data2d := (list (Qc * Qc)).

(** Data2D.py l.18-22 ([self.errors] is not modelled: nothing below reads it). *)
Definition addPoint (d : data2d) (point value : Qc) : data2d := dset qeqb d point value.

(** Data2D.py l.23-25. Sorting items compares the keys first; keys are
    distinct, so values are never compared. *)
Definition key_le {V : Type} (a b : Qc * V) : bool := qleb (fst a) (fst b).
(** Data2D.py l.23-25: [sorted]. *)
Definition d2_sort (d : data2d) : data2d := isort key_le d.

(** Data2D.py l.40-52: the loop. *)
Fixpoint nearest_loop (x lastX lastY lastDistance : Qc) (rest : data2d) : Qc * Qc :=
  match rest with
  | [] => (lastX, lastY)
  | (currentX, currentY) :: r =>
    let newDistance := x - currentX in
    if qltb newDistance 0 then
      if qltb (- newDistance) lastDistance then (currentX, currentY) else (lastX, lastY)
    else nearest_loop x currentX currentY (x - currentX) r
  end.
(** Data2D.py l.27-52. *)
Definition getNearestPoint (d : data2d) (x : Qc) : result (Qc * Qc) :=
  match d2_sort d with
  | [] => Err StopIteration
  | (firstX, firstY) :: r =>
    if qleb x firstX then Ok (firstX, firstY)
    else Ok (nearest_loop x firstX firstY (x - firstX) r)
  end.

(** Data2D.py l.98-111: the loop; [window] is the deque. *)
Fixpoint sma_loop (windowsize : Qc) (window rest : data2d) : data2d :=
  match rest with
  | [] => []
  | (x, y) :: r =>
    let window := window ++ [(x, y)] in
    let firstX := fst (nth 0 window (0, 0)) in
    if qleb windowsize (x - firstX) then
      let sum_ := fold_left (fun s v => s + snd v) window 0 in
      let count := fold_left (fun c _ => S c) window 0%nat in
      (x, sum_ / qn count) :: sma_loop windowsize (tl window) r
    else sma_loop windowsize window r
  end.
(** Data2D.py l.92-113. *)
Definition getSimpleMovingAverageDict (d : data2d) (windowsize : Qc) : data2d :=
  sma_loop windowsize [] (d2_sort d).

(** Data2D.py l.133-166, one index.  [None] means that the index is not
    reported. *)
Definition extremum_at (cmp : Qc -> Qc -> bool) (incl : bool) (items : data2d) (i : nat)
  : option (Qc * Qc) :=
  match nth_error items i with
  | None => None
  | Some (x, y) =>
    if Nat.eqb i 0 then
      if negb incl then None else
      match nth_error items (i + 1) with
      | None => Some (x, y)
      | Some (_, y') => if cmp y y' then Some (x, y) else None
      end
    else
      let yl := snd (nth (i - 1) items (0, 0)) in
      match nth_error items (i + 1) with
      | None => if negb incl then None else if cmp y yl then Some (x, y) else None
      | Some (_, yr) =>
        if negb (cmp y yl) then None else if negb (cmp y yr) then None else Some (x, y)
      end
  end.
(** The loop that collects extrema, Data2D.py l.126-168. *)
Fixpoint omap {A B} (f : A -> option B) (l : list A) : list B :=
  match l with
  | [] => []
  | a :: r => match f a with Some b => b :: omap f r | None => omap f r end
  end.
(** Data2D.py l.126-168. The debugging output is not modelled. *)
Definition getLocalExtremaByComparisonFunction (cmp : Qc -> Qc -> bool) (incl : bool) (d : data2d)
  : data2d :=
  let items := d2_sort d in
  omap (extremum_at cmp incl items) (seq 0 (length items)).
(** Data2D.py l.171-177. *)
Definition getLocalMaxima := getLocalExtremaByComparisonFunction (fun x y => qltb y x).
(** Data2D.py l.175-177. *)
Definition getLocalMinima := getLocalExtremaByComparisonFunction (fun x y => qltb x y).

(** PlotTools.py l.12-24: the loop, after the first value. *)
Fixpoint ranges_loop (sign : bool) (lastPos index : nat) (rest : list Qc)
  : list ((nat * nat) * bool) :=
  match rest with
  | [] => [((lastPos, index), sign)]
  | v :: r =>
    let pos := qleb 0 v in
    if negb (Bool.eqb pos sign)
    then ((lastPos, index), sign) :: ranges_loop (negb sign) index (S index) r
    else ranges_loop sign lastPos (S index) r
  end.
(** PlotTools.py l.5-29. *)
Definition findRangesOfEqualSign (data : list Qc) : list ((nat * nat) * bool) :=
  match data with
  | [] => []
  | v :: r => ranges_loop (qleb 0 v) 0 1 r
  end.

(** OnTheFlyStatisticsCollection.py l.13: keys are numbers here. *)
Notation collection := (list (Qc * otfs)).

(** Values accepted by [addData]; anything else raises [TypeError] (OnTheFlyStatisticsCollection.py l.33-44). *)
Inductive cvalue := VNum (x : Qc) | VStat (s : otfs) | VOther.

(** OnTheFlyStatisticsCollection.py l.33-44, the loop. An exception leaves the
    object with the entries processed so far. *)
Fixpoint coll_add (c : collection) (data : list (Qc * cvalue)) : collection * result unit :=
  match data with
  | [] => (c, Ok tt)
  | (key, value) :: r =>
    match value with
    | VOther => (c, Err TypeError)
    | _ =>
      let s0 := match dget qeqb c key with Some s => s | None => otfs_new end in
      match value with
      | VStat t =>
        match mergeSample s0 t with
        | Ok s1 => coll_add (dset qeqb c key s1) r
        | Err e => (dset qeqb c key s0, Err e)
        end
      | VNum x => coll_add (dset qeqb c key (addDatum s0 x)) r
      | VOther => (c, Err TypeError)
      end
    end
  end.

(** A sequence of calls of [addData] on one collection (OnTheFlyStatisticsCollection.py l.33-44). *)
Fixpoint coll_run (c : collection) (calls : list (list (Qc * cvalue))) : result collection :=
  match calls with
  | [] => Ok c
  | e :: r =>
    match coll_add c e with
    | (c', Ok _) => coll_run c' r
    | (_, Err e) => Err e
    end
  end.

(** OnTheFlyStatisticsCollection.py l.97-104, the loop. *)
Fixpoint keep_loop {V} (n skipped : nat) (l : list (Qc * V)) : list (Qc * V) :=
  match l with
  | [] => []
  | kv :: r =>
    let skipped := S skipped in
    if negb (Nat.eqb skipped n) then keep_loop n skipped r
    else kv :: keep_loop n 0 r
  end.
(** OnTheFlyStatisticsCollection.py l.73-104. *)
Definition keepOnlyEveryNthDataPoint {V} (c : list (Qc * V)) (n : Z) : result (list (Qc * V)) :=
  if Z.leb n 0 then Err ValueError else
  if Z.eqb n 1 then Ok c else
  Ok (keep_loop (Z.to_nat n) 0 (isort key_le c)).
(** OnTheFlyStatisticsCollection.py l.55-70. *)
Definition getOrderedData {V} (c : list (Qc * V)) : list (Qc * V) := isort key_le c.
