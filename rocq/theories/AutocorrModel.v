(** Model of Analysis/MPCDAnalysis/Autocorrelation.py *)
From Verif Require Export QcBase PyBase OtfsModel DddaModel.
Set Implicit Arguments.
Open Scope Qc_scope.

Section Autocorrelation.
(** The type of the data and the multiplicator handed to [addDatum]. *)
Variable A : Type.
Variable mul : A -> A -> Qc.

(** Autocorrelation.py l.50-57: for each correlation time [N] an accumulator
    [_correlations[N]] and a buffer [_dataBuffers[N]]. *)
Record autocorr := mk_ac {
  ac_max : nat;
  ac_corr : list ddda;
  ac_buf : list (list A) }.

(** Autocorrelation.py l.29-57. A negative (or non-integer) argument raises. *)
Definition ac_new (maxCorrelationTime : Z) : result autocorr :=
  if Z.ltb maxCorrelationTime 0 then Err ValueError else
  let n := Z.to_nat maxCorrelationTime in
  Ok (mk_ac n (repeat ddda_new (S n)) (repeat [] (S n))).

(** Autocorrelation.py l.161-168, the loop body for one correlation time [N]. *)
Definition ac_step (N : nat) (datum : A) (c : ddda) (b : list A) : ddda * list A :=
  if Nat.eqb (length b) N then
    match b with
    | [] => (c, b)   (* unreachable: N >= 1 *)
    | x :: r => (ddda_add c (mul datum x), r ++ [datum])
    end
  else (c, b ++ [datum]).

(** The loop Autocorrelation.py l.161-168 over the correlation times from [N] on. *)
Fixpoint ac_loop (N : nat) (datum : A) (cs : list ddda) (bs : list (list A))
  : list ddda * list (list A) :=
  match cs, bs with
  | c :: cs', b :: bs' =>
    let (c', b') := ac_step N datum c b in
    let (cs'', bs'') := ac_loop (S N) datum cs' bs' in
    (c' :: cs'', b' :: bs'')
  | _, _ => (cs, bs)
  end.

(** Autocorrelation.py l.134-168. *)
Definition ac_add (s : autocorr) (datum : A) : autocorr :=
  match ac_corr s, ac_buf s with
  | c0 :: cs, b0 :: bs =>
    let (cs', bs') := ac_loop 1 datum cs bs in
    mk_ac (ac_max s) (ddda_add c0 (mul datum datum) :: cs') (b0 :: bs')
  | _, _ => s
  end.

(** Autocorrelation.py l.68-96. *)
Definition ac_available (s : autocorr) (N : Z) : result bool :=
  if Z.ltb N 0 then Err ValueError else
  if Z.ltb (Z.of_nat (ac_max s)) N then Err ValueError else
  Ok (Nat.ltb (Z.to_nat N) (ddda_size (nth 0 (ac_corr s) ddda_new))).

(** Autocorrelation.py l.99-131. *)
Definition ac_get (s : autocorr) (N : Z) : result ddda :=
  if Z.ltb N 0 then Err ValueError else
  if Z.ltb (Z.of_nat (ac_max s)) N then Err ValueError else
  do a <- ac_available s N;
  if negb a then Err ValueError else Ok (nth (Z.to_nat N) (ac_corr s) ddda_new).
End Autocorrelation.
