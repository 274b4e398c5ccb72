(** What it means to sample a distribution by rejection, and the gamma distribution. *)
From Coq Require Import Reals.
Open Scope R_scope.

(** The density of the gamma distribution, up to the factor that normalises it. *)
Definition gamma_weight (k theta x : R) : R := Rpower x (k - 1) * exp (- (x / theta)).
(** The density of the standard normal distribution, up to the factor that normalises it. *)
Definition normal_weight (x : R) : R := exp (- (x * x / 2)).

(** One round of drawing from a source until the value is allowed: the value [x] is the first one
    that is. *)
Inductive first_allowed {St} (draw : St -> R * St) (allowed : R -> Prop) : St -> R -> St -> Prop :=
| allowed_now : forall s x s', draw s = (x, s') -> allowed x -> first_allowed draw allowed s x s'
| allowed_later : forall s x s' y s'', draw s = (x, s') -> ~ allowed x -> first_allowed draw allowed s' y s'' -> first_allowed draw allowed s y s''.

(** Sampling by rejection: a proposal [x] is kept with probability [keep x], which is decided by a
    number that is uniform in (0, 1). *)
Inductive rejection {St} (normal uniform : St -> R * St) (allowed : R -> Prop) (keep : R -> R) : St -> R -> St -> Prop :=
| kept : forall s x s1 u s2, first_allowed normal allowed s x s1 -> first_allowed uniform (fun u => u <> 1) s1 u s2 ->
    u < keep x -> rejection normal uniform allowed keep s x s2
| rejected : forall s x s1 u s2 y s3, first_allowed normal allowed s x s1 -> first_allowed uniform (fun u => u <> 1) s1 u s2 ->
    ~ u < keep x -> rejection normal uniform allowed keep s2 y s3 -> rejection normal uniform allowed keep s y s3.

(** The recipe (proposals allowed, probability to keep them, transformation of what is kept) turns
    a normal variate into a gamma variate.  By the rule for the change of variables, the density
    of the result at [to x] is that of the kept proposals at [x] divided by the derivative of
    [to]. *)
Record turns_normal_into_gamma (k theta : R) (allowed : R -> Prop) (keep to : R -> R) : Prop := {
  (* these are probabilities *)
  keep_probability : forall x, allowed x -> 0 < keep x <= 1;
  (* the results are the positive numbers, each from one proposal *)
  to_positive : forall x, allowed x -> 0 < to x;
  to_onto : forall y, 0 < y -> exists x, allowed x /\ to x = y;
  to_increasing : forall x y, allowed x -> allowed y -> x < y -> to x < to y;
  (* the densities agree *)
  to_density : exists C, 0 < C /\ forall x, allowed x -> exists slope, derivable_pt_lim to x slope /\ 0 < slope /\
    normal_weight x * keep x / slope = C * gamma_weight k theta (to x) }.

(** The draws of a generator that yields numbers from (0, 1]. *)
Definition unit_draws {St} (uniform : St -> R * St) : Prop := forall s, 0 < fst (uniform s) <= 1.

(** Multiplying a gamma variate [x] of shape k + 1 with a function of a uniform variate gives a
    gamma variate of shape k: [uni x y] is the uniform number that turns [x] into [y], the density
    of the pair (x, y) is that of [x] times the derivative of [uni x], and its integral over all
    [x], which lie between y and infinity, is the density wanted. *)
Record turns_into_lower_shape (k theta : R) (combine : R -> R -> R) : Prop := {
  combine_between : forall x u, 0 < x -> 0 < u < 1 -> 0 < combine x u < x;
  combine_density : exists (uni slope : R -> R -> R) (C : R), 0 < C /\
    (forall x y, 0 < y < x -> 0 < uni x y < 1 /\ combine x (uni x y) = y) /\
    (forall x u, 0 < x -> 0 < u < 1 -> uni x (combine x u) = u) /\
    (forall x y, 0 < y < x -> derivable_pt_lim (uni x) y (slope x y) /\ 0 < slope x y) /\
    forall y, 0 < y -> exists integral : R -> R,
      (forall x, y <= x -> derivable_pt_lim integral x (gamma_weight (k + 1) theta x * slope x y)) /\
      (forall eps, 0 < eps -> exists B, forall x, B < x -> Rabs (integral x) < eps) /\
      0 - integral y = C * gamma_weight k theta y }.
