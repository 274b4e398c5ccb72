(** Property C99: the analytic predictions for simple fluids. *)
From Coq Require Import Reals Lra Psatz ZArith String List.
From Verif Require Import PyBase AqModel AqSpec AqProof.
Import ListNotations.
Open Scope string_scope.
Open Scope list_scope.
Open Scope R_scope.

(** C99: the C++ functions return the predictions of the table, the totals are the sums of the
    contributions, and the dynamic viscosities are the kinematic ones times the mass density. *)
Theorem prediction_formulas : forall kT m l M a h, l <> 0 -> h <> 0 ->
  kinetic_kinematic kT m M a h = viscosity_kinetic kT m M a h /\
  collisional_kinematic l M a h = viscosity_collisional l M a h /\
  srd_kinematic kT m l M a h = viscosity kT m l M a h /\
  let density := m * M / l ^ 3 in
  kinetic_dynamic kT m l M a h = density * viscosity_kinetic kT m M a h /\
  collisional_dynamic m l M a h = density * viscosity_collisional l M a h /\
  srd_dynamic kT m l M a h = density * viscosity kT m l M a h.
Proof.
  intros kT m l M a h L H. assert (K : kinetic_kinematic kT m M a h = viscosity_kinetic kT m M a h) by reflexivity.
  assert (C : collisional_kinematic l M a h = viscosity_collisional l M a h).
  { unfold collisional_kinematic, viscosity_collisional, fluctuations. replace (l ^ 2) with (l * l) by ring. replace (6 * 3 * h) with (18 * h) by ring. reflexivity. }
  unfold srd_kinematic, srd_dynamic, kinetic_dynamic, collisional_dynamic, viscosity. rewrite K, C. repeat split; field; exact L.
Qed.
Print Assumptions prediction_formulas.

(** C99: the mean free path is how far a particle goes in a time step with the thermal velocity, for which m v^2 = kT. *)
Theorem prediction_mean_free_path : forall kT m h, 0 <= kT -> 0 < m -> 0 <= h -> exists v, meanFreePath kT m h = v * h /\ 0 <= v /\ m * v ^ 2 = kT.
Proof.
  intros kT m h K M H. exists (sqrt (kT / m)). split; [unfold meanFreePath; ring|]. split; [apply sqrt_pos|].
  assert (P : 0 <= kT / m) by (apply Rmult_le_pos; [exact K|apply Rlt_le, Rinv_0_lt_compat, M]). rewrite pow2_sqrt by exact P. field. lra.
Qed.
Print Assumptions prediction_mean_free_path.
Example prediction_mean_free_path_ex : meanFreePath 4 1 (1 / 10) = 2 / 10.
Proof. unfold meanFreePath. replace (4 / 1) with (2 * 2) by lra. rewrite sqrt_square by lra. lra. Qed.
(** C99: the predicted viscosities are positive for every simple fluid, and so are the coefficients
    of self-diffusion in two and more dimensions; the hydrodynamic radius then obeys the relation of
    Stokes and Einstein. *)
Theorem prediction_positive : forall kT m l M a h, simple_fluid kT m l M a h ->
  0 < kinetic_kinematic kT m M a h /\ 0 < collisional_kinematic l M a h /\ 0 < srd_kinematic kT m l M a h /\ 0 < srd_dynamic kT m l M a h /\
  forall d, (2 <= d)%nat -> let D := self_diffusion d kT m M a h in D = diffusion d kT m M a h /\ 0 < D /\
    let R := hydrodynamicRadius kT (srd_dynamic kT m l M a h) D in 0 < R /\ D = kT / (6 * PI * srd_dynamic kT m l M a h * R).
Proof.
  intros kT m l M a h [A [B [C [D [E F]]]]]. destruct (prediction_formulas kT m l M a h) as [P1 [P2 [P3 [_ [_ P6]]]]]; [lra|lra|].
  rewrite P1, P2, P3, P6. pose proof (kinetic_positive kT m M a h A B D E F) as K. pose proof (collisional_positive l M a h C D E F) as L.
  assert (V : 0 < viscosity kT m l M a h) by (unfold viscosity; lra).
  assert (W : 0 < m * M / l ^ 3 * viscosity kT m l M a h) by (apply Rmult_lt_0_compat; [apply Rdiv_lt_0_compat; [apply Rmult_lt_0_compat; assumption|apply pow_lt, C]|exact V]).
  repeat (split; [assumption|]). intros d Hd. cbv zeta.
  assert (S : self_diffusion d kT m M a h = diffusion d kT m M a h) by (unfold self_diffusion, diffusion, fluctuations; replace 2.0 with 2 by lra; reflexivity).
  rewrite S. pose proof (diffusion_positive d kT m M a h Hd A B D E F) as G. split; [reflexivity|]. split; [exact G|].
  unfold hydrodynamicRadius. pose proof PI_RGT_0 as PI0. set (eta := m * M / l ^ 3 * viscosity kT m l M a h) in *. set (dd := diffusion d kT m M a h) in *. clearbody eta dd.
  split; [apply Rdiv_lt_0_compat; [exact A|apply Rmult_lt_0_compat; [apply Rmult_lt_0_compat; lra|lra]]|]. field. repeat split; lra.
Qed.
Print Assumptions prediction_positive.
Example prediction_positive_ex : simple_fluid 1 1 1 10 PI 0.1.
Proof. unfold simple_fluid. rewrite cos_PI. repeat split; lra. Qed.

(** C99: in one dimension the formula for self-diffusion gives negative coefficients. *)
Theorem prediction_one_dimension : exists kT m l M a h, simple_fluid kT m l M a h /\ self_diffusion 1 kT m M a h < 0.
Proof.
  exists 1, 1, 1, 10, PI, 1. split; [unfold simple_fluid; rewrite cos_PI; repeat split; lra|].
  unfold self_diffusion. rewrite cos_PI. cbn [INR]. pose proof (exp_pos (- (10))) as E.
  replace (1 * 1 / (2.0 * 1)) with (1 / 2) by (decimals; field). replace (1 - -1) with 2 by lra.
  set (e := exp (- (10))) in *. assert (1 * 10 / (2 * (10 - 1 + e)) < 1); [|lra]. apply Rmult_lt_reg_r with (2 * (10 - 1 + e)); [lra|]. unfold Rdiv. rewrite Rmult_assoc, Rinv_l by lra. lra.
Qed.
Print Assumptions prediction_one_dimension.

(** C99: the Python functions return the same, unless they divide integers in Python 2. *)
Theorem prediction_python : forall python3 l M kT m h a, 0 < real M -> real m <> 0 -> real h <> 0 -> cos (real a) <> 1 ->
  (no_integer_division python3 [kT; h; m] -> py_kinetic python3 M kT m h a = Ok (PFloat (kinetic_kinematic (real kT) (real m) (real M) (real a) (real h)))) /\
  (no_integer_division python3 [l; h] -> py_collisional python3 l M h a = Ok (PFloat (viscosity_collisional (real l) (real M) (real a) (real h)))) /\
  forall n, py_self_diffusion python3 M m kT h (PInt (Z.of_nat n)) a = Ok (PFloat (self_diffusion n (real kT) (real m) (real M) (real a) (real h))).
Proof.
  intros p l M kT m h a P Nm Nh Na. split; [intros D; apply kinetic_python; assumption|]. split; [intros D; apply collisional_python; assumption|].
  intros n. rewrite (diffusion_python p n) by (try assumption; cbn; symmetry; apply INR_IZR_INZ). unfold self_diffusion, diffusion, fluctuations. replace 2.0 with 2 by lra. reflexivity.
Qed.
Print Assumptions prediction_python.

(** C99: with integers in Python 2, the predicted viscosity of a fluid can be zero. *)
Theorem prediction_python2_refuted : exists M kT m h a l, simple_fluid (real kT) (real m) (real l) (real M) (real a) (real h) /\
  py_kinetic false M kT m h a = Ok (PFloat 0) /\ py_collisional false l M h a = Ok (PFloat 0) /\
  0 < srd_kinematic (real kT) (real m) (real l) (real M) (real a) (real h).
Proof.
  exists (PInt 10), (PInt 1), (PInt 1), (PInt 1), (PFloat PI), (PInt 1).
  assert (F : simple_fluid 1 1 1 10 PI 1) by (unfold simple_fluid; rewrite cos_PI; repeat split; lra).
  split; [exact F|]. destruct (fluctuations_range 10) as [Q _]; [lra|]. unfold fluctuations in Q. split; [|split; [|apply (prediction_positive _ _ _ _ _ _ F)]].
  - unfold py_kinetic. assert (E1 : pdiv false (pmul (PInt 1) (PInt 1)) (pmul (PInt 2) (PInt 1)) = Ok (PInt 0)) by (unfold pdiv; cbn; destruct (Req_EM_T 2 0) as [N|_]; [exfalso; lra|reflexivity]). rewrite E1. cbn [bind].
    destruct (pdiv_real false (pmul (PInt 5) (PInt 10)) (pmul (padd (psub (PInt 10) (PInt 1)) (pexp (pneg (PInt 10)))) (psub (psub (PInt 2) (pcos (PFloat PI))) (pcos (pmul (PInt 2) (PFloat PI)))))) as [f2 [E2 [R2 F2]]].
    { rewrite real_pmul, real_padd, !real_psub. cbn [pexp pcos real pneg pmul]. rewrite cos_PI, cos_2PI. pose proof (exp_pos (-10)); cbn [Z.opp]; apply Rgt_not_eq, Rmult_lt_0_compat; lra. }
    { right; right. exact Logic.I. }
    rewrite E2. cbn [bind]. f_equal. apply float_is; [apply float_r, float_sub_l, F2|]. rewrite real_pmul. cbn. ring.
  - unfold py_collisional. assert (E1 : pdiv false (pmul (PInt 1) (PInt 1)) (pmul (PInt 18) (PInt 1)) = Ok (PInt 0)) by (unfold pdiv; cbn; destruct (Req_EM_T 18 0) as [N|_]; [exfalso; lra|reflexivity]). rewrite E1. cbn [bind].
    destruct (pdiv_real false (padd (psub (PInt 10) (PInt 1)) (pexp (pneg (PInt 10)))) (PInt 10)) as [f2 [E2 [R2 F2]]]; [cbn; lra|right; left; exact Logic.I|].
    rewrite E2. cbn [bind]. f_equal. apply float_is; [apply float_l, float_r, F2|]. rewrite !real_pmul. cbn. ring.
Qed.
Print Assumptions prediction_python2_refuted.

(** C99: the script, in Python 2 and 3, prints the numbers given or the defaults and then the
    contributions and their sum, for cells of size 1. *)
Theorem prediction_script_values : forall python3 o,
  let kT := given (o_kT o) 1 in let M := match o_M o with Some z => z | None => 10%Z end in let m := given (o_m o) 1 in let h := given (o_timestep o) 0.1 in let a := given (o_angle o) 2.27 in
  0 < kT -> (0 < M)%Z -> 0 < m -> 0 < h -> 0 < a -> cos a <> 1 ->
  exists echo k c t, prediction_script python3 o = (echo ++ [Value "Kinetic Contribution" k; Value "Collisional Contribution" c; Value "Total" t], Finished) /\
    map (fun l => match l with Value s x => (s, real x) | Text s => (s, 0) end) echo =
      [("kT", kT); ("meanParticleCountPerCell", IZR M); ("m", m); ("MPCTimestep", h); ("SRDAngle", a); ("", 0)] /\
    real k = kinetic_kinematic kT m (IZR M) a h /\ real c = collisional_kinematic 1 (IZR M) a h /\ real t = srd_kinematic kT m 1 (IZR M) a h.
Proof.
  intros p o kT M m h a A B C D E F. unfold prediction_script.
  assert (R : forall q x r, real x = r -> real (default q x) = given q r) by (intros [q|] x r <-; reflexivity).
  assert (N : forall x, 0 < real x -> nonpositive x = false) by (intros x P; unfold nonpositive; destruct (Rle_dec (real x) 0); [lra|reflexivity]).
  pose proof (R (o_kT o) (PInt 1) 1 eq_refl) as R1. pose proof (R (o_m o) (PInt 1) 1 eq_refl) as R2. pose proof (R (o_timestep o) (PFloat 0.1) 0.1 eq_refl) as R3. pose proof (R (o_angle o) (PFloat 2.27) 2.27 eq_refl) as R4.
  fold kT in R1. fold m in R2. fold h in R3. fold a in R4. fold M.
  set (pkT := default (o_kT o) (PInt 1)) in *. set (pm := default (o_m o) (PInt 1)) in *.
  assert (Fh : is_float (default (o_timestep o) (PFloat 0.1))) by (destruct (o_timestep o); exact Logic.I).
  set (ph := default (o_timestep o) (PFloat 0.1)) in *. set (pa := default (o_angle o) (PFloat 2.27)) in *.
  assert (B' : 0 < IZR M) by (apply IZR_lt; exact B).
  rewrite !N by (try rewrite R1; try rewrite R2; try rewrite R3; try rewrite R4; assumption).
  rewrite kinetic_python by (cbn [real]; try rewrite R2; try rewrite R4; try assumption; try lra; right; exists ph; cbn; tauto).
  rewrite collisional_python by (cbn [real]; try rewrite R3; try assumption; try lra; right; exists ph; cbn; tauto).
  destruct (prediction_formulas kT m 1 (IZR M) a h) as [P1 [P2 [P3 _]]]; [lra|lra|].
  eexists _, _, _, _. split; [reflexivity|]. split; [cbn [map real]; rewrite R1, R2, R3, R4; reflexivity|].
  cbn [real padd]. rewrite R1, R2, R3, R4, P1, P2, P3. repeat split.
Qed.
Print Assumptions prediction_script_values.
Example prediction_script_ex : exists echo k c t, prediction_script true (Options None None None None (Some PI)) = (echo ++ [Value "Kinetic Contribution" k; Value "Collisional Contribution" c; Value "Total" t], Finished)
  /\ real t = srd_kinematic 1 1 1 10 PI 0.1.
Proof.
  destruct (prediction_script_values true (Options None None None None (Some PI))) as [echo [k [c [t [H [_ [_ [_ T]]]]]]]]; cbn; try lra; try reflexivity; [apply PI_RGT_0|rewrite cos_PI; lra|].
  exists echo, k, c, t. split; [exact H|exact T].
Qed.

(** C99: a number that is not positive is reported, the first one if there are several, and the
    script exits with 1. *)
Theorem prediction_script_invalid : forall python3 o,
  let values := [("--kT is invalid.", given (o_kT o) 1); ("--meanParticleCountPerCell is invalid.", IZR match o_M o with Some z => z | None => 10%Z end);
    ("--m is invalid.", given (o_m o) 1); ("--MPCTimestep is invalid.", given (o_timestep o) 0.1); ("--SRDAngle is invalid.", given (o_angle o) 2.27)] in
  forall before message x after, values = before ++ (message, x) :: after -> (forall v, In v before -> 0 < snd v) -> x <= 0 ->
  prediction_script python3 o = ([Text message], Exit 1).
Proof.
  intros p o values before message x after E B X. unfold prediction_script.
  assert (R : forall q y r, real y = r -> real (default q y) = given q r) by (intros [q|] y r <-; reflexivity).
  assert (N : forall y, 0 < real y -> nonpositive y = false) by (intros y P; unfold nonpositive; destruct (Rle_dec (real y) 0); [lra|reflexivity]).
  assert (Y : forall y, real y <= 0 -> nonpositive y = true) by (intros y P; unfold nonpositive; destruct (Rle_dec (real y) 0); [reflexivity|lra]).
  pose proof (R (o_kT o) (PInt 1) 1 eq_refl) as R1. pose proof (R (o_m o) (PInt 1) 1 eq_refl) as R2. pose proof (R (o_timestep o) (PFloat 0.1) 0.1 eq_refl) as R3. pose proof (R (o_angle o) (PFloat 2.27) 2.27 eq_refl) as R4.
  unfold values in E.
  set (v1 := given (o_kT o) 1) in *. set (v3 := given (o_m o) 1) in *. set (v4 := given (o_timestep o) 0.1) in *. set (v5 := given (o_angle o) 2.27) in *. set (z := match o_M o with Some z => z | None => 10%Z end) in *.
  set (a1 := default (o_kT o) (PInt 1)) in *. set (a3 := default (o_m o) (PInt 1)) in *. set (a4 := default (o_timestep o) (PFloat 0.1)) in *. set (a5 := default (o_angle o) (PFloat 2.27)) in *.
  clearbody v1 v3 v4 v5 a1 a3 a4 a5 z.
  destruct before as [|b1 before]; cbn in E; [injection E as <- <- _|injection E as E1 E].
  { rewrite Y by (rewrite R1; exact X). reflexivity. }
  rewrite (N a1) by (rewrite R1; apply (B b1 (or_introl eq_refl)) || (specialize (B b1 (or_introl eq_refl)); subst b1; exact B)).
  destruct before as [|b2 before]; cbn in E; [injection E as <- <- _|injection E as E2 E].
  { rewrite (Y (PInt z)) by exact X. reflexivity. }
  rewrite (N (PInt z)) by (specialize (B b2 (or_intror (or_introl eq_refl))); subst b2; exact B).
  destruct before as [|b3 before]; cbn in E; [injection E as <- <- _|injection E as E3 E].
  { rewrite (Y a3) by (rewrite R2; exact X). reflexivity. }
  rewrite (N a3) by (rewrite R2; specialize (B b3 (or_intror (or_intror (or_introl eq_refl)))); subst b3; exact B).
  destruct before as [|b4 before]; cbn in E; [injection E as <- <- _|injection E as E4 E].
  { rewrite (Y a4) by (rewrite R3; exact X). reflexivity. }
  rewrite (N a4) by (rewrite R3; specialize (B b4 (or_intror (or_intror (or_intror (or_introl eq_refl))))); subst b4; exact B).
  destruct before as [|b5 before]; cbn in E; [injection E as <- <- _|injection E as E5 E].
  { rewrite (Y a5) by (rewrite R4; exact X). reflexivity. }
  destruct before; discriminate.
Qed.
Print Assumptions prediction_script_invalid.
Example prediction_script_invalid_ex : prediction_script false (Options None (Some 0%Z) (Some 0) None None) = ([Text "--meanParticleCountPerCell is invalid."], Exit 1).
Proof. apply (prediction_script_invalid false (Options None (Some 0%Z) (Some 0) None None) [("--kT is invalid.", 1)] _ 0 _ eq_refl); [intros v [<-|[]]; cbn; lra|lra]. Qed.
