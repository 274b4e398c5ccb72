(** Property C98: the random energies of the thermostat follow the gamma distribution. *)
From Coq Require Import Reals Lra Psatz Lia.
From Verif Require Import GamModel GamSpec GamCalc GamProof.
Open Scope R_scope.

(** C98: [Gamma_shape_ge_1] samples, for every shape k that is at least 1 and every positive scale,
    the gamma distribution: it takes the first allowed and kept proposal of a rejection method
    whose densities match those of the gamma distribution, whatever its generator draws. *)
Theorem gamma_sampled : forall k theta, 1 <= k -> 0 < theta ->
  exists allowed keep to, turns_normal_into_gamma k theta allowed keep to /\
  forall (St : Type) (g : generator St), unit_draws (uniform_double g) -> forall s y s',
    (exists fuel, gamma1_draw g (gamma1_make k theta) fuel s = Some (y, s')) <->
    (exists x, rejection (normal_double g) (uniform_double g) allowed keep s x s' /\ y = to x).
Proof.
  intros k theta K P. set (o := gamma1_make k theta). exists (good o), (probability o), (value o). split; [apply recipe; assumption|].
  intros St g U s y s'. split.
  - intros [f H]. apply (draw_sound g o (probability o) (make_quick k theta K) (make_slow k theta K) U f), H.
  - intros [x [H ->]]. apply (draw_complete g o (probability o) (make_quick k theta K) (make_slow k theta K) U), H.
Qed.
Print Assumptions gamma_sampled.

(** C98: once a value has been returned, allowing more rounds changes nothing. *)
Theorem gamma_rounds : forall (St : Type) (g : generator St) o f f' s r, gamma1_draw g o f s = Some r -> (f <= f')%nat -> gamma1_draw g o f' s = Some r.
Proof. intros St g o f f' s r H L. exact (draw_more g o f s r H f' L). Qed.
Print Assumptions gamma_rounds.

(** C98: the quick test that is made first never keeps a proposal that the exact test would
    reject. *)
Theorem gamma_squeeze : forall k x u, 1 <= k -> 0 < u ->
  let d := k - 1 / 3 in let v := (1 + x / sqrt (9 * d)) ^ 3 in
  0 < 1 + x / sqrt (9 * d) -> u < 1 - 0.0331 * x ^ 4 -> ln u < x ^ 2 / 2 + d * (1 - v + ln v).
Proof.
  intros k x u K U d v A L. destruct (make_c k 1 K) as [D [C0 [C [_ [_ Ed]]]]]. set (o := gamma1_make k 1) in *.
  assert (Ec : g_c o = / sqrt (9 * d)) by (unfold o, gamma1_make, d; cbn [g_c]; replace (1.0 / 3) with (1 / 3) by lra; unfold Rdiv; apply Rmult_1_l).
  assert (E : x / sqrt (9 * d) = g_c o * x) by (rewrite Ec; unfold Rdiv; ring).
  assert (G : good o x) by (unfold good; rewrite <- E; exact A).
  assert (F : 0 <= x ^ 4) by (replace (x ^ 4) with ((x ^ 2) ^ 2) by ring; apply pow2_ge_0).
  pose proof (make_quick k 1 K x u G ltac:(split; [exact U|lra]) ltac:(replace (0.0331 * x * x * x * x) with (0.0331 * x ^ 4) by ring; exact L)) as Q.
  apply (make_slow k 1 K x u G ltac:(split; [exact U|lra])) in Q. fold o in Q. cbv zeta in Q.
  unfold v. rewrite E. unfold d. rewrite <- Ed. replace ((1 + g_c o * x) ^ 3) with ((1 + g_c o * x) * (1 + g_c o * x) * (1 + g_c o * x)) by ring.
  replace (x ^ 2 / 2) with (0.5 * x * x) by lra. exact Q.
Qed.
Print Assumptions gamma_squeeze.

(** C98: [Gamma] does so for every positive shape: if the shape k is at least 1 as above, and
    otherwise by scaling down, with a further uniform variate, a variate of shape k + 1. *)
Theorem gamma_any_shape : forall k theta, 0 < k -> 0 < theta ->
  (1 <= k -> forall (St : Type) (g : generator St) fuel s, gamma_draw g (gamma_make k theta) fuel s = gamma1_draw g (gamma1_make k theta) fuel s) /\
  (k < 1 -> exists combine, turns_into_lower_shape k theta combine /\
    forall (St : Type) (g : generator St) s y s',
    (exists fuel, gamma_draw g (gamma_make k theta) fuel s = Some (y, s')) <->
    (exists x s1 u, (exists fuel, gamma1_draw g (gamma1_make (k + 1) theta) fuel s = Some (x, s1)) /\
      first_allowed (uniform_double g) (fun u => u <> 1) s1 u s' /\ y = combine x u)).
Proof.
  intros k theta K P. split; intros L.
  - intros St g fuel s. unfold gamma_draw, gamma_make. cbn [gg_inverse_k gg_ge_1]. destruct (Rge_dec k 1) as [G|G]; [|lra]. destruct (Req_EM_T 0 0) as [_|N]; [reflexivity|lra].
  - exists (fun x u => x * Rpower u (1 / k)). split; [apply lower_recipe; assumption|]. intros St g s y s'.
    assert (I : 1 / k <> 0) by (apply Rgt_not_eq, Rdiv_lt_0_compat; lra).
    assert (E : forall fuel, gamma_draw g (gamma_make k theta) fuel s = match gamma1_draw g (gamma1_make (k + 1) theta) fuel s with None => None | Some (y, s) =>
      match uniform0e1e g fuel s with None => None | Some (u, s) => Some (y * Rpower u (1 / k), s) end end).
    { intros fuel. unfold gamma_draw, gamma_make. cbn [gg_inverse_k gg_ge_1]. destruct (Rge_dec k 1) as [G|G]; [lra|]. destruct (Req_EM_T (1 / k) 0); [contradiction|]. rewrite (Rplus_comm 1 k). reflexivity. }
    split.
    + intros [f H]. rewrite E in H. destruct (gamma1_draw g (gamma1_make (k + 1) theta) f s) as [[x s1]|] eqn:Q; [|discriminate].
      destruct (uniform0e1e g f s1) as [[u s2]|] eqn:W; [|discriminate]. injection H as <- <-. exists x, s1, u. split; [exists f; exact Q|]. split; [apply uniform_sound with f, W|reflexivity].
    + intros [x [s1 [u [[f Q] [W ->]]]]]. destruct (uniform_complete g _ _ _ W) as [f2 W2]. exists (f + f2)%nat. rewrite E.
      rewrite (draw_more _ _ _ _ _ Q) by lia. rewrite (uniform_more _ _ _ _ W2) by lia. reflexivity.
Qed.
Print Assumptions gamma_any_shape.

(** C98: the factor by which the thermostat scales the relative velocities in a collision cell
    makes the kinetic energy in the frame of the cell a gamma variate of shape 3 (N - 1) / 2 and
    scale kT, which is its distribution at temperature T; cells with fewer than two particles, or
    without such energy, are left alone. *)
Theorem thermostat_energy : forall count energy kT, 0 <= energy -> 0 < kT ->
  ((count < 2)%nat \/ energy = 0 -> forall (St : Type) (g : generator St) fuel s, mbs_factor g fuel count energy kT s = Some (1, s)) /\
  ((2 <= count)%nat -> 0 < energy ->
   exists allowed keep to, turns_normal_into_gamma (3 * (INR count - 1) / 2) kT allowed keep to /\
   forall (St : Type) (g : generator St), unit_draws (uniform_double g) -> forall s factor s',
    (exists fuel, mbs_factor g fuel count energy kT s = Some (factor, s')) <->
    (exists x, rejection (normal_double g) (uniform_double g) allowed keep s x s' /\ 0 < factor /\ factor * factor * energy = to x)).
Proof.
  intros n e kT E0 P. split.
  - intros H St g fuel s. unfold mbs_factor. destruct (Nat.ltb_spec n 2) as [L|L]; [reflexivity|]. destruct H as [H|H]; [lia|]. destruct (Req_EM_T e 0); [reflexivity|contradiction].
  - intros N E. assert (K : 1.5 * INR (n - 1) = 3 * (INR n - 1) / 2) by (rewrite minus_INR by lia; cbn [INR]; lra).
    assert (K1 : 1 <= 3 * (INR n - 1) / 2) by (apply le_INR in N; cbn in N; lra).
    destruct (gamma_sampled _ kT K1 P) as [allowed [keep [to [T H]]]]. exists allowed, keep, to. split; [exact T|]. intros St g U s f s'.
    assert (EQ : forall fuel, mbs_factor g fuel n e kT s = match gamma1_draw g (gamma1_make (3 * (INR n - 1) / 2) kT) fuel s with None => None | Some (y, s) => Some (sqrt (y / e), s) end).
    { intros fuel. unfold mbs_factor. destruct (Nat.ltb_spec n 2) as [L|L]; [lia|]. destruct (Req_EM_T e 0); [lra|]. rewrite K. reflexivity. }
    assert (OK : forall x s', rejection (normal_double g) (uniform_double g) allowed keep s x s' -> 0 < to x).
    { intros x s2 R. apply (to_positive _ _ _ _ _ T). clear - R. induction R as [s x s1 u s2 A _ _|]; [|assumption]. clear - A. induction A; assumption. }
    split.
    + intros [fuel Q]. rewrite EQ in Q. destruct (gamma1_draw g (gamma1_make (3 * (INR n - 1) / 2) kT) fuel s) as [[y s1]|] eqn:D; [|discriminate]. injection Q as <- <-.
      destruct (proj1 (H St g U s y s1) (ex_intro _ fuel D)) as [x [R ->]]. exists x. split; [exact R|]. specialize (OK x s1 R).
      assert (0 < to x / e) by (apply Rdiv_lt_0_compat; assumption). split; [apply sqrt_lt_R0; assumption|]. rewrite sqrt_sqrt by lra. field. lra.
    + intros [x [R [F Q]]]. destruct (proj2 (H St g U s (to x) s')) as [fuel D]; [exists x; split; [exact R|reflexivity]|]. exists fuel. rewrite EQ, D. f_equal. f_equal.
      rewrite <- Q. replace (f * f * e / e) with (f * f) by (field; lra). apply sqrt_square. lra.
Qed.
Print Assumptions thermostat_energy.

(** A generator that first draws a proposal that is not allowed, then one that is, then the
    excluded number 1 and then 1/2: the value is the scale times d = 1. *)
Definition ex_generator : generator nat :=
  Generator nat (fun s => (if Nat.eqb s 0 then -10 else 0, Datatypes.S s)) (fun s => (if Nat.eqb s 2 then 1 else / 2, Datatypes.S s)).
Example gamma_example : unit_draws (uniform_double ex_generator) /\ gamma1_draw ex_generator (gamma1_make (4 / 3) 5) 3 0%nat = Some (5, 4%nat).
Proof.
  split; [intros s; cbn; destruct (Nat.eqb s 2); cbn; lra|].
  assert (E : gamma1_make (4 / 3) 5 = Gamma1 (4 / 3) 5 1 (/ 3)).
  { unfold gamma1_make. replace (4 / 3 - 1.0 / 3) with 1 by lra. f_equal. replace (9 * 1) with (3 * 3) by ring. rewrite sqrt_square by lra. unfold Rdiv. ring. }
  rewrite E. cbn [gamma1_draw gamma1_propose uniform0e1e normal_double uniform_double ex_generator Nat.eqb g_c g_theta g_d].
  destruct (Rle_dec (1 + / 3 * -10) 0) as [_|N]; [|lra]. destruct (Rle_dec (1 + / 3 * 0) 0) as [N|_]; [lra|].
  cbn [Nat.eqb]. destruct (Req_EM_T 1 1) as [_|N]; [|lra]. destruct (Req_EM_T (/ 2) 1) as [N|_]; [lra|]. cbv beta iota. match goal with |- context [Rlt_dec ?a ?b] => destruct (Rlt_dec a b) as [_|N] end; [|exfalso; apply N; lra]. f_equal. f_equal. field.
Qed.
Example thermostat_example : mbs_factor ex_generator 3 1 7 2 5%nat = Some (1, 5%nat).
Proof. apply (proj1 (thermostat_energy 1 7 2 ltac:(lra) ltac:(lra))). left. lia. Qed.
