(** Models of measurement containers: velocity autocorrelation files
    (VelocityAutocorrelation.py), histograms (Histogram.cpp) and density profiles
    (DensityProfile.hpp, DensityProfile.cpp, DensityProfile.py).  Exact arithmetic. *)
From Coq Require Import Qround.
From Verif Require Export QcBase PyBase DictBase DddaModel.
Set Implicit Arguments.
Open Scope Qc_scope.

(** [<] on numbers, VelocityAutocorrelation.py l.57-65. *)
Definition qltb (a b : Qc) : bool := negb (Qle_bool (this b) (this a)).
(** [<=] on numbers, VelocityAutocorrelation.py l.57-65. *)
Definition qleb (a b : Qc) : bool := Qle_bool (this a) (this b).

(** * Velocity autocorrelation (Python) *)
Section Vac.
(** Python's [round], to an integer (the two language versions differ in how
    they treat halves). *)
Variable round : Qc -> Z.

(** VelocityAutocorrelation.py l.57-65: the attributes used below. *)
Record vac := mk_vac { v_min : Qc; v_dt : Qc; v_stats : list (Qc * ddda) }.

(** VelocityAutocorrelation.py l.140-164. *)
Definition getDeltaT (dt t1 t2 : Qc) : result Qc :=
  if qltb t1 0 || qltb t2 t1 then Err ValueError
  else Ok (qz (round ((t2 - t1) / dt)) * dt).

(** VelocityAutocorrelation.py l.181-195: one line, given by its numbers. *)
Definition vac_line (s : vac) (parts : list Qc) : result vac :=
  match parts with
  | [t1; t2; value] =>
    if qltb t2 (v_min s) then Ok s else
    do k <- getDeltaT (v_dt s) t1 t2;
    let st := match dget qeqb (v_stats s) k with
              | None => dset qeqb (v_stats s) k ddda_new
              | Some _ => v_stats s
              end in
    let d := match dget qeqb st k with Some d => d | None => ddda_new end in
    Ok (mk_vac (v_min s) (v_dt s) (dset qeqb st k (ddda_add d value)))
  | _ => Err ValueError
  end.
(** VelocityAutocorrelation.py l.167-197. *)
Fixpoint vac_parse (s : vac) (f : list (list Qc)) : result vac :=
  match f with [] => Ok s | l :: r => do s' <- vac_line s l; vac_parse s' r end.
(** VelocityAutocorrelation.py l.67-105: the files of the run directories.
    Simplified: configurations are taken to be equivalent. *)
Definition vac_new (minimum dt : Qc) (files : list (list (list Qc))) : result vac :=
  match files with
  | [] => Err ValueError
  | _ => vac_parse (mk_vac minimum dt []) (concat files)
  end.
(** VelocityAutocorrelation.py l.108-129, l.197: the valid times are the keys. *)
Definition vac_get (s : vac) (k : Qc) : result ddda :=
  match dget qeqb (v_stats s) k with Some d => Ok d | None => Err ValueError end.
End Vac.

(** * Histogram (C++) *)
(** Histogram.hpp l.127-132. *)
Record hist := mk_hist {
  h_bins : list nat; h_under : nat; h_over : nat; h_low : Qc; h_high : Qc; h_size : Qc }.
(** Histogram.hpp l.40-44. *)
Definition hist_new (low high : Qc) (n : nat) : hist :=
  mk_hist (repeat 0%nat n) 0 0 low high ((high - low) / qn n).
(** [++bins[i]] (Histogram.cpp l.21-43) *)
Fixpoint incr (l : list nat) (i : nat) : list nat :=
  match l, i with
  | [], _ => []
  | a :: r, 0%nat => S a :: r
  | a :: r, S i => a :: incr r i
  end.
(** [static_cast<unsigned int>] of a number that is not negative (Histogram.cpp l.21-43). *)
Definition trunc (x : Qc) : nat := Z.to_nat (Qfloor (this x)).
(** Histogram.cpp l.21-43, with the check of the debug build. *)
Definition hist_fill (h : hist) (v : Qc) : result hist :=
  if qltb v (h_low h)
  then Ok (mk_hist (h_bins h) (S (h_under h)) (h_over h) (h_low h) (h_high h) (h_size h))
  else if qleb (h_high h) v
  then Ok (mk_hist (h_bins h) (h_under h) (S (h_over h)) (h_low h) (h_high h) (h_size h))
  else
    let id := trunc ((v - h_low h) / h_size h) in
    if negb (Nat.ltb id (length (h_bins h))) then Err OutOfBoundsException
    else Ok (mk_hist (incr (h_bins h) id) (h_under h) (h_over h) (h_low h) (h_high h) (h_size h)).
(** Several calls, Histogram.cpp l.21-43. *)
Fixpoint hist_fill_all (h : hist) (l : list Qc) : result hist :=
  match l with [] => Ok h | v :: r => do h' <- hist_fill h v; hist_fill_all h' r end.
(** Histogram.cpp l.45-53. *)
Definition hist_integral (h : hist) : Qc :=
  fold_left (fun s b => s + qn b) (h_bins h) 0 * h_size h.
(** Histogram.cpp l.64-70. *)
Fixpoint graph_points (h : hist) (bp integral : Qc) (i : nat) (bins : list nat) : list (Qc * Qc) :=
  match bins with
  | [] => []
  | b :: r => (h_low h + qn i * h_size h + bp * h_size h, qn b / integral)
              :: graph_points h bp integral (S i) r
  end.
(** Histogram.cpp l.55-73. *)
Definition hist_graph (h : hist) (bp : Qc) : result (list (Qc * Qc)) :=
  if qltb bp 0 || qltb 1 bp then Err InvalidArgumentException
  else Ok (graph_points h bp (hist_integral h) 0 (h_bins h)).
(** Histogram.cpp l.85-91: the lines written by [save] after the counters. *)
Definition hist_save (h : hist) (bp : Qc) : result (list (Qc * Qc)) :=
  Ok (graph_points h bp 1 0 (h_bins h)).

(** * Density profile (C++) *)
Notation cell := (nat * nat * nat)%type.
(** Comparison of indices, DensityProfile.hpp l.95-124. *)
Definition cell_eqb (a b : cell) : bool :=
  let '(x, y, z) := a in let '(x', y', z') := b in
  Nat.eqb x x' && Nat.eqb y y' && Nat.eqb z z'.
(** DensityProfile.hpp l.136-143. *)
Record dens := mk_dens { d_shape : cell; d_subs : cell; d_points : cell -> Qc; d_fills : nat }.
(** DensityProfile.cpp l.9-45, for positive box sizes. *)
Definition dens_new (box subs : cell) : result dens :=
  let '(bx, by_, bz) := box in
  let '(sx, sy, sz) := subs in
  if Nat.eqb sx 0 || Nat.eqb sy 0 || Nat.eqb sz 0 then Err InvalidConfigurationException
  else Ok (mk_dens (bx * sx, by_ * sy, bz * sz)%nat subs (fun _ => 0) 0).
(** DensityProfile.hpp l.95-124, with the checks of the debug build. *)
Inductive dop := DFill | DMass (c : cell) (m : Qc).
(** DensityProfile.hpp l.95-124: one call. *)
Definition dens_op (s : dens) (o : dop) : result dens :=
  match o with
  | DFill => Ok (mk_dens (d_shape s) (d_subs s) (d_points s) (S (d_fills s)))
  | DMass c m =>
    let '(x, y, z) := c in let '(nx, ny, nz) := d_shape s in
    if negb (Nat.ltb x nx && Nat.ltb y ny && Nat.ltb z nz) then Err OutOfBoundsException
    else Ok (mk_dens (d_shape s) (d_subs s)
              (fun c' => if cell_eqb c' c then d_points s c' + m else d_points s c') (d_fills s))
  end.
(** DensityProfile.hpp l.95-124: a sequence of calls. *)
Fixpoint dens_run (s : dens) (os : list dop) : result dens :=
  match os with [] => Ok s | o :: r => do s' <- dens_op s o; dens_run s' r end.
(** DensityProfile.cpp l.47-69: the numbers on each line of the file. *)
Definition dens_rows (s : dens) : list (Qc * Qc * Qc * Qc) :=
  let '(nx, ny, nz) := d_shape s in
  let '(sx, sy, sz) := d_subs s in
  flat_map (fun x => flat_map (fun y => map (fun z =>
      (qn x / qn sx, qn y / qn sy, qn z / qn sz, d_points s (x, y, z) / qn (d_fills s)))
    (seq 0 nz)) (seq 0 ny)) (seq 0 nx).

(** * Density profile (Python) *)
Notation dpoints := (list (Qc * list (Qc * list (Qc * Qc)))).
(** The value of a key or a default, DensityProfile.py l.46-53. *)
Definition odflt {A} (d : A) (o : option A) : A := match o with Some a => a | None => d end.
(** DensityProfile.py l.46-53. *)
Definition setPoint (p : dpoints) (r : Qc * Qc * Qc * Qc) : dpoints :=
  let '(x, y, z, d) := r in
  let px := odflt [] (dget qeqb p x) in
  let py := odflt [] (dget qeqb px y) in
  dset qeqb p x (dset qeqb px y (dset qeqb py z d)).
(** DensityProfile.py l.5-12, 39-44. *)
Definition dens_read (rows : list (Qc * Qc * Qc * Qc)) : dpoints := fold_left setPoint rows [].
(** DensityProfile.py l.55-67. *)
Definition reduceToXY (p : dpoints) : list (Qc * list (Qc * Qc)) :=
  map (fun xv => (fst xv, map (fun yv =>
    (fst yv, fold_left (fun s zv => s + snd zv) (snd yv) 0 / qn (length (snd yv)))) (snd xv))) p.
