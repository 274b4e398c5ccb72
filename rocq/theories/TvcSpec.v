(** Correlation functions of complex vectors. *)
From Coq Require Import List ZArith Reals.
From Verif Require Import VecBase VecSpec.
Import ListNotations.
Open Scope R_scope.

Definition mean_of (l : list R) : R := fold_right Rplus 0 l / INR (length l).
(** The part of a complex vector that is perpendicular to a real vector: what remains when a multiple of that vector is subtracted. *)
Definition transverse (k : vec) (v w : cvec) : Prop :=
  (exists a b, cre v = plus3 (cre w) (times3 a k) /\ cim v = plus3 (cim w) (times3 b k)) /\ dot3 k (cre w) = 0 /\ dot3 k (cim w) = 0.
Definition complex3 (a b : vec) : cvec := CVec (Cplx (vx a) (vx b)) (Cplx (vy a) (vy b)) (Cplx (vz a) (vz b)).
(** That part, computed. *)
Definition part_across (k : vec) (v : cvec) : cvec :=
  let f x := minus3 x (times3 (dot3 k x / dot3 k k) k) in complex3 (f (cre v)) (f (cim v)).
(** The real part of the scalar product. *)
Definition product (a b : cvec) : R := dot3 (cre a) (cre b) + dot3 (cim a) (cim b).
(** The pairs of entries of a list where the first is [s] places behind the second. *)
Definition lag_pairs {A} (s : nat) (l : list A) : list (A * A) := combine (skipn s l) l.
(** The products of all such pairs, run by run. *)
Definition lag_data (s : nat) (runs : list (list cvec)) : list R :=
  flat_map (fun run => map (fun p => product (fst p) (snd p)) (lag_pairs s run)) runs.
(** Measurements at regular times. *)
Definition regular (dt : R) (times : list R) : Prop := forall i j d, (i < length times)%nat -> (j < length times)%nat ->
  nth i times d - nth j times d = (INR i - INR j) * dt.
Definition nonzero_box (box : Z * Z * Z) : Prop := let '(x, y, z) := box in (x <> 0 /\ y <> 0 /\ z <> 0)%Z.
(** The wave vector with the given integer components. *)
Definition wave_vector (box : Z * Z * Z) (n : vec) : vec :=
  let '(x, y, z) := box in Vec (2 * PI * vx n / IZR x) (2 * PI * vy n / IZR y) (2 * PI * vz n / IZR z).
Definition vec_dec (a b : vec) : {a = b} + {a <> b}.
Proof.
  destruct a as [a b' c], b as [d e f]. destruct (Req_EM_T a d) as [<-|N]; [|right; congruence].
  destruct (Req_EM_T b' e) as [<-|N]; [|right; congruence]. destruct (Req_EM_T c f) as [<-|N]; [left; reflexivity|right; congruence].
Defined.
Section Samples.
Variables (F : Type) (value : F -> R).
(** Time and velocity of a measurement. *)
Definition time_of (s : F * (F * F * F * F * F * F)) : R := value (fst s).
Definition velocity_of (s : F * (F * F * F * F * F * F)) : cvec :=
  let '(a, b, c, d, e, f) := snd s in complex3 (Vec (value a) (value c) (value e)) (Vec (value b) (value d) (value f)).
Definition vector_of (n : F * F * F) : vec := let '(x, y, z) := n in Vec (value x) (value y) (value z).
(** The measurements that are not too early. *)
Definition late (minimumTime : R) (l : list (F * (F * F * F * F * F * F))) := filter (fun s => if Rlt_dec (time_of s) minimumTime then false else true) l.
(** The runs, given by wave vector and measurements, that have this wave vector. *)
Definition of_vector (n : vec) (runs : list (F * F * F * list (F * (F * F * F * F * F * F)))) := filter (fun r => if vec_dec (vector_of (fst r)) n then true else false) runs.
(** All products of transverse velocities [s] measurements apart. *)
Definition correlated (box : Z * Z * Z) (minimumTime : R) runs (n : vec) (s : nat) : list R :=
  lag_data s (map (fun r => map (fun x => part_across (wave_vector box n) (velocity_of x)) (late minimumTime (snd r))) (of_vector n runs)).
(** At least two products for all times up to the given one. *)
Definition complete (box : Z * Z * Z) (minimumTime maximumTime dt : R) runs (n : vec) : Prop :=
  forall s, INR s * dt < maximumTime -> (2 <= length (correlated box minimumTime runs n s))%nat.
End Samples.
Definition longest {A} (runs : list (list A)) : nat := fold_right Nat.max 0%nat (map (@length A) runs).
