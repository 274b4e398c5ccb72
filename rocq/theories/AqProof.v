(** Proofs about the analytic predictions. *)
From Coq Require Import Reals Lra Psatz ZArith String List.
From Verif Require Import PyBase AqModel AqSpec.
Import ListNotations.
Open Scope string_scope.
Open Scope list_scope.
Open Scope R_scope.

Ltac decimals := unfold Q2R in *; cbn [QArith_base.Qnum QArith_base.Qden] in *.

Lemma fluctuations_range M : 0 < M -> 0 < fluctuations M < M.
Proof.
  intros P. unfold fluctuations. split.
  - pose proof (exp_ineq1 (- M) ltac:(lra)). lra.
  - assert (exp (- M) < 1); [rewrite <- exp_0; apply exp_increasing; lra|lra].
Qed.
Lemma angle_factor a : cos a <> 1 -> 0 < 1 - cos a <= 2 /\ 0 < 2 - cos a - cos (2 * a) < 5.
Proof.
  intros N. pose proof (COS_bound a) as [L U]. rewrite cos_2a_cos. set (c := cos a) in *. assert (c < 1) by lra.
  split; [lra|]. replace (2 - c - (2 * c * c - 1)) with ((1 - c) * (3 + 2 * c)) by ring. split; [apply Rmult_lt_0_compat; lra|].
  assert (0 <= (4 * c + 1) * (4 * c + 1)) by apply Rle_0_sqr. nra.
Qed.
Lemma quotient_above n d : 0 < d -> d < n -> 0 < n / d - 1.
Proof. intros D L. apply Rmult_lt_reg_r with d; [exact D|]. replace ((n / d - 1) * d) with (n - d) by (field; lra). lra. Qed.
Lemma kinetic_positive kT m M a h : 0 < kT -> 0 < m -> 0 < M -> 0 < h -> cos a <> 1 -> 0 < viscosity_kinetic kT m M a h.
Proof.
  intros A B C D N. unfold viscosity_kinetic. destruct (fluctuations_range M C) as [F G]. destruct (angle_factor a N) as [_ [P Q]].
  apply Rmult_lt_0_compat; [apply Rdiv_lt_0_compat; [apply Rmult_lt_0_compat; assumption|lra]|].
  apply quotient_above; [apply Rmult_lt_0_compat; assumption|]. set (f := fluctuations M) in *. set (q := 2 - cos a - cos (2 * a)) in *. nra.
Qed.
Lemma collisional_positive l M a h : 0 < l -> 0 < M -> 0 < h -> cos a <> 1 -> 0 < viscosity_collisional l M a h.
Proof.
  intros A C D N. unfold viscosity_collisional. destruct (fluctuations_range M C) as [F G]. destruct (angle_factor a N) as [[P _] _].
  apply Rmult_lt_0_compat; [|exact P]. apply Rmult_lt_0_compat; apply Rdiv_lt_0_compat; try lra. apply pow_lt, A.
Qed.
Lemma diffusion_positive d kT m M a h : (2 <= d)%nat -> 0 < kT -> 0 < m -> 0 < M -> 0 < h -> cos a <> 1 -> 0 < diffusion d kT m M a h.
Proof.
  intros Hd A B C D N. unfold diffusion. destruct (fluctuations_range M C) as [F G]. destruct (angle_factor a N) as [[P Q] _].
  apply Rmult_lt_0_compat; [apply Rdiv_lt_0_compat; [apply Rmult_lt_0_compat; assumption|lra]|].
  apply quotient_above; [apply Rmult_lt_0_compat; assumption|]. apply le_INR in Hd. cbn in Hd. set (f := fluctuations M) in *. set (q := 1 - cos a) in *. nra.
Qed.

(** ** Python's numbers *)
Lemma real_padd x y : real (padd x y) = real x + real y.
Proof. destruct x, y; cbn; try reflexivity. apply plus_IZR. Qed.
Lemma real_psub x y : real (psub x y) = real x - real y.
Proof. destruct x, y; cbn; try reflexivity. apply minus_IZR. Qed.
Lemma real_pmul x y : real (pmul x y) = real x * real y.
Proof. destruct x, y; cbn; try reflexivity. apply mult_IZR. Qed.
Lemma real_pneg x : real (pneg x) = - real x.
Proof. destruct x; cbn; [apply opp_IZR|reflexivity]. Qed.
Lemma pdiv_real p x y : real y <> 0 -> p = true \/ is_float x \/ is_float y -> exists q, pdiv p x y = Ok q /\ real q = real x / real y /\ is_float q.
Proof.
  intros N H. unfold pdiv. destruct (Req_EM_T (real y) 0) as [E|_]; [contradiction|].
  destruct x as [a|a], y as [b|b]; cbn in H |- *; try (eexists; split; [reflexivity|split; [reflexivity|exact Logic.I]]).
  destruct p; [|destruct H as [H|[H|H]]; [discriminate|contradiction|contradiction]]. eexists; split; [reflexivity|split; [reflexivity|exact Logic.I]].
Qed.
Lemma pdiv_zero p x y : real y = 0 -> pdiv p x y = Err ZeroDivisionError.
Proof. intros E. unfold pdiv. destruct (Req_EM_T (real y) 0); [reflexivity|contradiction]. Qed.
Lemma float_l x y : is_float x -> is_float (pmul x y).
Proof. destruct x, y; cbn; tauto. Qed.
Lemma float_r x y : is_float y -> is_float (pmul x y).
Proof. destruct x, y; cbn; tauto. Qed.
Lemma float_add_r x y : is_float y -> is_float (padd x y).
Proof. destruct x, y; cbn; tauto. Qed.
Lemma float_sub_l x y : is_float x -> is_float (psub x y).
Proof. destruct x, y; cbn; tauto. Qed.
Lemma float_sub_r x y : is_float y -> is_float (psub x y).
Proof. destruct x, y; cbn; tauto. Qed.
Lemma float_is x r : is_float x -> real x = r -> x = PFloat r.
Proof. destruct x; cbn; [tauto|intros _ ->; reflexivity]. Qed.

Lemma kinetic_python p M kT m h a : 0 < real M -> real m <> 0 -> cos (real a) <> 1 -> no_integer_division p [kT; h; m] ->
  py_kinetic p M kT m h a = Ok (PFloat (viscosity_kinetic (real kT) (real m) (real M) (real a) (real h))).
Proof.
  intros P Nm Na D. unfold py_kinetic.
  destruct (pdiv_real p (pmul kT h) (pmul (PInt 2) m)) as [f1 [E1 [R1 F1]]].
  { rewrite real_pmul. cbn. intros E. apply Nm. lra. }
  { destruct D as [->|[x [I F]]]; [left; reflexivity|]. destruct I as [<-|[<-|[<-|[]]]]; right; [left; apply float_l, F|left; apply float_r, F|right; apply float_r, F]. }
  rewrite E1. cbn [bind].
  destruct (fluctuations_range _ P) as [Q _]. destruct (angle_factor _ Na) as [_ [S _]]. unfold fluctuations in Q.
  destruct (pdiv_real p (pmul (PInt 5) M) (pmul (padd (psub M (PInt 1)) (pexp (pneg M))) (psub (psub (PInt 2) (pcos a)) (pcos (pmul (PInt 2) a))))) as [f2 [E2 [R2 F2]]].
  { rewrite real_pmul, real_padd, !real_psub. cbn [pexp pcos real]. rewrite real_pneg, real_pmul. cbn [real]. apply Rgt_not_eq, Rmult_lt_0_compat; assumption. }
  { right; right. apply float_l, float_add_r. exact Logic.I. }
  rewrite E2. cbn [bind]. f_equal. apply float_is; [apply float_l, F1|]. rewrite real_pmul, real_psub, R1, R2, !real_pmul, real_padd, !real_psub. cbn [pexp pcos real]. rewrite real_pneg, real_pmul. reflexivity.
Qed.
Lemma collisional_python p l M h a : 0 < real M -> real h <> 0 -> no_integer_division p [l; h] ->
  py_collisional p l M h a = Ok (PFloat (viscosity_collisional (real l) (real M) (real a) (real h))).
Proof.
  intros P Nh D. unfold py_collisional.
  destruct (pdiv_real p (pmul l l) (pmul (PInt 18) h)) as [f1 [E1 [R1 F1]]].
  { rewrite real_pmul. cbn. intros E. apply Nh. lra. }
  { destruct D as [->|[x [I F]]]; [left; reflexivity|]. destruct I as [<-|[<-|[]]]; right; [left; apply float_l, F|right; apply float_r, F]. }
  rewrite E1. cbn [bind].
  destruct (pdiv_real p (padd (psub M (PInt 1)) (pexp (pneg M))) M) as [f2 [E2 [R2 F2]]]; [lra|right; left; apply float_add_r; exact Logic.I|].
  rewrite E2. cbn [bind]. f_equal. apply float_is; [apply float_l, float_l, F1|]. rewrite !real_pmul, real_psub, R1, R2, !real_pmul, real_padd, !real_psub. cbn [pexp pcos real]. rewrite real_pneg. unfold viscosity_collisional, fluctuations. cbn [pow]. rewrite Rmult_1_r. reflexivity.
Qed.
Lemma diffusion_python p n M m kT h d a : 0 < real M -> real m <> 0 -> cos (real a) <> 1 -> real d = INR n ->
  py_self_diffusion p M m kT h d a = Ok (PFloat (diffusion n (real kT) (real m) (real M) (real a) (real h))).
Proof.
  intros P Nm Na Ed. unfold py_self_diffusion.
  destruct (pdiv_real p (pmul kT h) (pmul (PFloat 2.0) m)) as [f1 [E1 [R1 F1]]].
  { rewrite real_pmul. cbn. intros E. apply Nm. lra. }
  { right; right. apply float_l. exact Logic.I. }
  rewrite E1. cbn [bind].
  destruct (fluctuations_range _ P) as [Q _]. destruct (angle_factor _ Na) as [[S _] _]. unfold fluctuations in Q.
  destruct (pdiv_real p (pmul d M) (pmul (psub (PInt 1) (pcos a)) (padd (psub M (PInt 1)) (pexp (pneg M))))) as [f2 [E2 [R2 F2]]].
  { rewrite real_pmul, real_padd, !real_psub. cbn [pexp pcos real]. rewrite real_pneg. apply Rgt_not_eq, Rmult_lt_0_compat; assumption. }
  { right; right. apply float_r, float_add_r. exact Logic.I. }
  rewrite E2. cbn [bind]. f_equal. apply float_is; [apply float_l, F1|]. rewrite real_pmul, real_psub, R1, R2, !real_pmul, real_padd, !real_psub. cbn [pexp pcos real]. rewrite real_pneg, Ed.
  unfold diffusion, fluctuations. replace 2.0 with 2 by lra. reflexivity.
Qed.
