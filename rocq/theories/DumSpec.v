(** Gaussian dumbbells in shear flow, after Kowalik and Winkler, J. Chem. Phys. 138, 104903 (2013),
    and what a plot of measured and predicted bond components shows. *)
From Coq Require Import String.
From Verif Require Import PyBase InitSpec DumModel.
From Coq Require Import Reals ZArith List Bool Sorted.
Import ListNotations.
Open Scope string_scope.
Open Scope list_scope.
Open Scope R_scope.

(** The complex numbers that are roots of x^3 + a x^2 + b x + c, as pairs of real and imaginary
    parts, each as often as it is a root. *)
Definition cmul (z w : R * R) : R * R := (fst z * fst w - snd z * snd w, fst z * snd w + snd z * fst w).
Definition cadd (z w : R * R) : R * R := (fst z + fst w, snd z + snd w).
Definition roots_of (a b c : R) (l : list (R * R)) : Prop :=
  exists x y z, l = [x; y; z] /\ cadd (cadd x y) z = (- a, 0) /\ cadd (cadd (cmul x y) (cmul x z)) (cmul y z) = (b, 0) /\ cmul (cmul x y) z = (- c, 0).

(** A run of the present format: the data files can be read and the length is set. *)
Definition present_run (r : regular) (xx yy l : R) : Prop := r_xx r = Ok xx /\ r_yy r = Ok yy /\ r_length r = Some l.
(** A run of the former format, without that setting, or without data files: its values are in
    histograms and static data. *)
Definition former_run (r : regular) (Wi l xx yy : R) : Prop :=
  (r_xx r = Err ValueError \/ (exists x y, r_xx r = Ok x /\ r_yy r = Ok y) /\ r_length r = None) /\
  r_static r = Ok (Wi, l) /\ r_hist_xx r = Ok xx /\ r_hist_yy r = Ok yy.

(** What is measured in a run: the Weissenberg number, 3 <x^2> / l^2, 3 <y^2> / l^2, and the
    conditions: l, initial positions, and the number of molecular dynamics steps, if streaming is
    not analytical. *)
Record measurement := Measurement { m_Wi : R; m_xx : R; m_yy : R; m_l : R; m_positions : string; m_steps : option Z }.
Definition measured (r : regular) (m : measurement) : Prop := exists xx yy l, present_run r xx yy l /\
  let f := 3 / (l * l) * match r_revision r with Some s => if String.eqb s "c80019d3fd5b78b760eba9b021ec3d200f0440f7" then 2 else 1 | None => 1 end in
  m = Measurement (r_rate r * r_tau r) (f * xx) (f * yy) l (r_positions r) match r_streaming r with Some false => Some (r_steps r) | _ => None end.
(** The title of the curves for the conditions. *)
Definition title (str : R -> string) (str_int : Z -> string) (m : measurement) : string :=
  (", l=" ++ str (m_l m) ++ ", " ++ m_positions m ++ match m_steps m with None => ", AS" | Some n => ", MD " ++ str_int n ++ " steps" end)%string.
Fixpoint curve (c : curves) (name : string) : list (R * R) :=
  match c with [] => [] | (k, l) :: r => if String.eqb k name then l else curve r name end.
Definition is_Wi {A} (key : A -> R) (w : R) (a : A) : bool := if Req_EM_T (key a) w then true else false.
(** [l] has the measurements [ms] in the order of Weissenberg numbers; those with the same number
    stay in their order. *)
Definition in_order (l ms : list measurement) : Prop :=
  StronglySorted (fun a b => m_Wi a <= m_Wi b) l /\ forall w, filter (is_Wi m_Wi w) l = filter (is_Wi m_Wi w) ms.
(** The first of the roots found is the real one. *)
Definition real_first (roots : R -> R -> R -> list (R * R)) : Prop :=
  forall Wi, Wi <> 0 -> exists x y z, roots (-1) 0 (- Wi * Wi / 6) = [x; y; z] /\ roots_of (-1) 0 (- Wi * Wi / 6) [x; y; z] /\ snd x = 0.
(** The components of the bond in shear, with l^2 / 3 as the unit. *)
Definition components (Wi xx yy : R) : Prop := exists mu, 1 <= mu /\ multiplier_ratio Wi mu /\ xx = 1 / mu * (1 + Wi ^ 2 / (2 * mu ^ 2)) /\ yy = 1 / mu.
(** [n] points of a curve, equally spaced from [lo] to [hi]. *)
Definition sampled (n : nat) (lo hi : R) (f : R -> R -> Prop) (l : list (R * R)) : Prop :=
  length l = n /\ forall i p, nth_error l i = Some p -> fst p = lo + INR i * (hi - lo) / INR (n - 1) /\ f (fst p) (snd p).
(** A quick run with values. *)
Definition quick_run (q : quick) : Prop := q_rate q <> None /\ q_xx q <> [] /\ q_yy q <> [].
