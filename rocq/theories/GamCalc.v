(** The inequalities behind the sampling of gamma variates. *)
From Coq Require Import Reals Lra Psatz.
Open Scope R_scope.

Lemma mono (f f' : R -> R) a b : a <= b -> (forall x, a <= x <= b -> derivable_pt_lim f x (f' x)) -> (forall x, a <= x <= b -> 0 <= f' x) -> f a <= f b.
Proof.
  intros [L| ->] D P; [|lra]. destruct (MVT_cor2 f f' a b L D) as [c [E [A B]]].
  assert (0 <= f' c) by (apply P; lra). nra.
Qed.
Lemma anti (f f' : R -> R) a b : a <= b -> (forall x, a <= x <= b -> derivable_pt_lim f x (f' x)) -> (forall x, a <= x <= b -> f' x <= 0) -> f b <= f a.
Proof.
  intros [L| ->] D P; [|lra]. destruct (MVT_cor2 f f' a b L D) as [c [E [A B]]].
  assert (f' c <= 0) by (apply P; lra). nra.
Qed.
Lemma slow (f f' : R -> R) K a b : a <= b -> (forall x, a <= x <= b -> derivable_pt_lim f x (f' x)) -> (forall x, a <= x <= b -> f' x <= K) -> f b - K * (b - a) <= f a.
Proof.
  intros [L| ->] D P; [|lra]. destruct (MVT_cor2 f f' a b L D) as [c [E [A B]]].
  assert (f' c <= K) by (apply P; lra). nra.
Qed.

Ltac decimals := unfold Q2R in *; cbn [QArith_base.Qnum QArith_base.Qden] in *.
Lemma D_eq f x l l' : derivable_pt_lim f x l -> l = l' -> derivable_pt_lim f x l'.
Proof. intros H <-. exact H. Qed.
Lemma D_pow n x : derivable_pt_lim (fun y => y ^ n) x (INR n * x ^ pred n).
Proof. apply derivable_pt_lim_pow. Qed.
Lemma D_scal a n x : derivable_pt_lim (fun y => a * y ^ n) x (a * (INR n * x ^ pred n)).
Proof. apply (derivable_pt_lim_scal (fun y => y ^ n)), D_pow. Qed.
Lemma D_ln (f : R -> R) x l : derivable_pt_lim f x l -> 0 < f x -> derivable_pt_lim (fun y => ln (f y)) x (/ f x * l).
Proof. intros H P. apply (derivable_pt_lim_comp f ln); [exact H|apply derivable_pt_lim_ln, P]. Qed.
Lemma D_plus (f g : R -> R) x a b : derivable_pt_lim f x a -> derivable_pt_lim g x b -> derivable_pt_lim (fun y => f y + g y) x (a + b).
Proof. intros A B. apply (derivable_pt_lim_plus f g); assumption. Qed.
Lemma D_minus (f g : R -> R) x a b : derivable_pt_lim f x a -> derivable_pt_lim g x b -> derivable_pt_lim (fun y => f y - g y) x (a - b).
Proof. intros A B. apply (derivable_pt_lim_minus f g); assumption. Qed.
Lemma D_scale (f : R -> R) a x l : derivable_pt_lim f x l -> derivable_pt_lim (fun y => a * f y) x (a * l).
Proof. intros A. apply (derivable_pt_lim_scal f); assumption. Qed.
Lemma D_const a x : derivable_pt_lim (fun _ => a) x 0.
Proof. apply derivable_pt_lim_const. Qed.
Lemma D_id x : derivable_pt_lim (fun y => y) x 1.
Proof. apply derivable_pt_lim_id. Qed.

(** The logarithm minus its expansion to third order. *)
Definition rest (y : R) : R := ln (1 + y) - y + y ^ 2 / 2 - y ^ 3 / 3.
Lemma rest_D y : -1 < y -> derivable_pt_lim rest y (- y ^ 3 / (1 + y)).
Proof.
  intros P. unfold rest. eapply D_eq.
  - apply D_minus; [apply D_plus; [apply D_minus; [apply D_ln; [apply D_plus; [apply D_const|apply D_id]|lra]|apply D_id]|]|].
    + unfold Rdiv. apply (D_eq _ _ (2 * y * / 2)); [|reflexivity].
      apply (derivable_pt_lim_ext (fun y => / 2 * y ^ 2)); [intros; ring|]. eapply D_eq; [apply D_scal|cbn; lra].
    + apply (D_eq _ _ (y ^ 2)); [|reflexivity]. apply (derivable_pt_lim_ext (fun y => / 3 * y ^ 3)); [intros; field|]. eapply D_eq; [apply D_scal|cbn; field].
  - field. lra.
Qed.
Lemma rest_0 : rest 0 = 0.
Proof. unfold rest. rewrite Rplus_0_r, ln_1. field. Qed.
Lemma rest_nonpos y : -1 < y -> rest y <= 0.
Proof.
  intros P. rewrite <- rest_0. destruct (Rle_dec 0 y) as [L|L].
  - apply (anti rest (fun y => - y ^ 3 / (1 + y))); [exact L|intros x [A B]; apply rest_D; lra|].
    intros x [A B]. assert (0 <= x ^ 3) by (apply pow_le; exact A). assert (0 < / (1 + x)) by (apply Rinv_0_lt_compat; lra). unfold Rdiv. nra.
  - apply (mono rest (fun y => - y ^ 3 / (1 + y))); [lra|intros x [A B]; apply rest_D; lra|].
    intros x [A B]. assert (0 <= - x ^ 3) by (replace (- x ^ 3) with ((- x) ^ 3) by ring; apply pow_le; lra). assert (0 < / (1 + x)) by (apply Rinv_0_lt_compat; lra). unfold Rdiv. nra.
Qed.
Lemma rest_pos_side y : 0 <= y -> - (y ^ 4 / 4) <= rest y.
Proof.
  intros P. assert (H : rest 0 + 0 ^ 4 / 4 <= rest y + y ^ 4 / 4).
  { apply (mono (fun y => rest y + y ^ 4 / 4) (fun y => - y ^ 3 / (1 + y) + y ^ 3)); [exact P| |].
    - intros x [A B]. apply D_plus; [apply rest_D; lra|]. apply (derivable_pt_lim_ext (fun y => / 4 * y ^ 4)); [intros; field|]. eapply D_eq; [apply D_scal|cbn; field].
    - intros x [A B]. assert (0 <= x ^ 3) by (apply pow_le; exact A). assert (/ (1 + x) <= 1) by (rewrite <- Rinv_1; apply Rinv_le_contravar; lra).
      unfold Rdiv. nra. }
  rewrite rest_0 in H. lra.
Qed.

Lemma exp_square a x : 0 <= a -> a <= exp (x / 2) -> a * a <= exp x.
Proof. intros P H. replace x with (x / 2 + x / 2) by field. rewrite exp_plus. apply Rmult_le_compat; assumption. Qed.
Lemma exp_square_down b a x : 0 <= a -> a <= exp (x / 2) -> b <= a * a -> b <= exp x.
Proof. intros. eapply Rle_trans; [eassumption|]. apply exp_square; assumption. Qed.
Lemma exp_value : 19.82 <= exp 2.9877.
Proof.
  apply (exp_square_down _ (44536046883125 / 10000000000000)); [lra| |lra].
  apply (exp_square_down _ (21103565310896 / 10000000000000)); [lra| |lra].
  apply (exp_square_down _ (14527066225118 / 10000000000000)); [lra| |lra].
  apply (exp_square_down _ (12052827977333 / 10000000000000)); [lra| |lra].
  apply (exp_square_down _ (10978537232862 / 10000000000000)); [lra| |lra].
  apply (exp_square_down _ (10477851513007 / 10000000000000)); [lra| |lra].
  apply (exp_square_down _ (10236137705701 / 10000000000000)); [lra| |lra].
  apply (exp_square_down _ (10117379950215 / 10000000000000)); [lra| |lra].
  apply (exp_square_down _ (10058518752886 / 10000000000000)); [lra| |lra].
  apply (exp_square_down _ (10029216695678 / 10000000000000)); [lra| |lra].
  apply (exp_square_down _ (10014597693207 / 10000000000000)); [lra| |lra].
  apply (exp_square_down _ (10007296184888 / 10000000000000)); [lra| |lra].
  apply (exp_square_down _ (10003647427258 / 10000000000000)); [lra| |lra].
  apply (exp_square_down _ (10001823547363 / 10000000000000)); [lra| |lra].
  eapply Rle_trans; [|apply exp_ineq1_le]. lra.
Qed.

(** The case of the smallest shape on the negative side, where the inequality is tight. *)
Definition gap (z : R) : R := 2 * rest (- z) - ln (1 - 1.1916 * z ^ 4).
Definition gap' (z : R) : R := z ^ 3 * (2.7664 - 4.7664 * z + 2.3832 * z ^ 4) * / ((1 - z) * (1 - 1.1916 * z ^ 4)).
Lemma gap_D z : z < 1 -> 1.1916 * z ^ 4 < 1 -> derivable_pt_lim gap z (gap' z).
Proof.
  intros P Q. unfold gap. eapply D_eq.
  - apply D_minus.
    + apply D_scale. apply (derivable_pt_lim_comp (fun z => - z) rest); [apply (D_eq _ _ (0 - 1)); [|reflexivity]|apply rest_D; lra].
      apply (derivable_pt_lim_ext (fun z => 0 - z)); [intros; ring|]. apply D_minus; [apply D_const|apply D_id].
    + apply D_ln; [apply D_minus; [apply D_const|apply D_scal]|lra].
  - unfold gap'. cbn [INR pred]. decimals. field. split; decimals; lra.
Qed.
Lemma fourth_le a b : 0 <= a -> a <= b -> a ^ 4 <= b ^ 4.
Proof. intros. apply pow_incr. lra. Qed.
Lemma gap_factor_pos z : 0 <= z -> z < 1 -> 1.1916 * z ^ 4 < 1 -> 0 <= z ^ 3 /\ 0 < / ((1 - z) * (1 - 1.1916 * z ^ 4)).
Proof. intros A B C. split; [apply pow_le, A|]. apply Rinv_0_lt_compat. apply Rmult_lt_0_compat; lra. Qed.
Lemma tangent a z : 0 <= a -> 0 <= z -> a ^ 4 + 4 * a ^ 3 * (z - a) <= z ^ 4.
Proof. intros A B. assert (0 <= (z - a) ^ 2 * (z ^ 2 + 2 * a * z + 3 * a ^ 2)); [|nra]. apply Rmult_le_pos; [apply pow2_ge_0|]. assert (0 <= z ^ 2) by apply pow2_ge_0. assert (0 <= a ^ 2) by apply pow2_ge_0. nra. Qed.
Lemma chord a b z : 0 <= a -> a <= z <= b -> z ^ 4 <= a ^ 4 + (a + b) * (a ^ 2 + b ^ 2) * (z - a).
Proof.
  intros A [B C]. assert (0 <= (z - a) * (b - z) * (z ^ 2 + b ^ 2 + a ^ 2 + z * a + z * b + a * b)); [|nra].
  apply Rmult_le_pos; [apply Rmult_le_pos; lra|]. assert (0 <= z * a) by nra. assert (0 <= z * b) by nra. assert (0 <= a * b) by nra. nra.
Qed.
Lemma gap_0 : gap 0 = 0.
Proof. unfold gap. rewrite Ropp_0, rest_0. replace (1 - 1.1916 * 0 ^ 4) with 1 by ring. rewrite ln_1. ring. Qed.
Lemma gap_left z : 0 <= z <= 0.7 -> 0 <= gap z.
Proof.
  intros [A B]. rewrite <- gap_0. assert (F : forall x, 0 <= x <= z -> 1.1916 * x ^ 4 < 1) by (intros x [U V]; assert (x ^ 4 <= 0.7 ^ 4) by (apply fourth_le; lra); lra).
  apply (mono gap gap'); [exact A|intros x [U V]; apply gap_D; [lra|apply F; lra]|].
  intros x [U V]. destruct (gap_factor_pos x U ltac:(lra) (F x ltac:(lra))) as [G H]. pose proof (tangent 0.7 x ltac:(lra) U) as T.
  unfold gap'. apply Rmult_le_pos; [|lra]. apply Rmult_le_pos; [exact G|]. lra.
Qed.
Lemma gap_point : 0.001 <= gap 0.88.
Proof.
  unfold gap, rest. replace (1 + - (0.88)) with 0.12 by lra.
  assert (E : ln 19.82 <= 2.9877) by (rewrite <- (ln_exp 2.9877); destruct exp_value as [L|L]; [left; apply ln_increasing; lra|rewrite L; lra]).
  assert (L : ln (1 - 1.1916 * 0.88 ^ 4) <= ln 0.12 + ln 0.12 + ln 19.82).
  { rewrite <- !ln_mult by lra. assert (H : 1 - 1.1916 * 0.88 ^ 4 < 0.12 * 0.12 * 19.82) by lra. left. apply ln_increasing; lra. }
  set (A := ln 0.12) in *. set (B := ln (1 - 1.1916 * 0.88 ^ 4)) in *. set (C := ln 19.82) in *. clearbody A B C. decimals. lra.
Qed.
Lemma gap_middle z : 0.7 <= z <= 0.88 -> 0 <= gap z.
Proof.
  intros [A B].
  assert (F : forall x, 0.7 <= x <= 0.88 -> x < 1 /\ 1.1916 * x ^ 4 < 1) by (intros x [U V]; split; [lra|]; assert (x ^ 4 <= 0.88 ^ 4) by (apply fourth_le; lra); lra).
  assert (D : forall a b x, 0.7 <= a -> b <= 0.88 -> a <= x <= b -> derivable_pt_lim gap x (gap' x)) by (intros a b x L M [U V]; destruct (F x ltac:(lra)); apply gap_D; assumption).
  assert (I : forall x, 0.7 <= x <= 0.88 -> / ((1 - x) * (1 - 1.1916 * x ^ 4)) <= 30).
  { intros x [U V]. assert (x ^ 4 <= 0.88 ^ 4) by (apply fourth_le; lra). replace 30 with (/ (1 / 30)) by field. apply Rinv_le_contravar; [lra|].
    apply Rle_trans with (0.12 * (1 - 1.1916 * 0.88 ^ 4)); [lra|]. apply Rmult_le_compat; lra. }
  assert (C : forall x, 0.7 <= x <= 0.88 -> x ^ 3 <= 1 /\ 0 <= x ^ 3) by (intros x [U V]; split; [rewrite <- (pow1 3); apply pow_incr; lra|apply pow_le; lra]).
  assert (K : forall x e, 0 <= e -> 0.7 <= x <= 0.88 -> 2.7664 - 4.7664 * x + 2.3832 * x ^ 4 <= e -> gap' x <= 30 * e).
  { intros x e P U V. destruct (C x U) as [C1 C2]. pose proof (I x U) as I1. destruct (F x U) as [F1 F2]. destruct (gap_factor_pos x ltac:(lra) F1 F2) as [_ G].
    unfold gap'. apply Rle_trans with (x ^ 3 * e * / ((1 - x) * (1 - 1.1916 * x ^ 4))).
    - apply Rmult_le_compat_r; [lra|]. apply Rmult_le_compat_l; assumption.
    - rewrite (Rmult_comm 30). apply Rmult_le_compat; [apply Rmult_le_pos; assumption|lra| |exact I1]. nra. }
  pose proof gap_point as P.
  assert (S1 : forall x, 0.879 <= x <= 0.88 -> 0.0009 <= gap x).
  { intros x [U V]. pose proof (slow gap gap' 0.06 x 0.88 V (fun y => D x 0.88 y ltac:(lra) ltac:(lra))) as S. 
    assert (0.88 - x <= 0.001) by lra. enough (gap 0.88 - 0.06 * (0.88 - x) <= gap x) by nra. apply S. intros y [Y1 Y2]. replace 0.06 with (30 * 0.002) by lra.
    apply K; [lra|lra|]. pose proof (chord 0.879 0.88 y ltac:(lra) ltac:(lra)). lra. }
  assert (S2 : forall x, 0.71 <= x <= 0.879 -> 0.0009 <= gap x).
  { intros x [U V]. eapply Rle_trans; [apply (S1 0.879); lra|]. apply (anti gap gap'); [exact V|intros y Y; apply (D x 0.879); lra|].
    intros y [Y1 Y2]. replace 0 with (30 * 0) by ring. apply K; [lra|lra|]. pose proof (chord 0.71 0.879 y ltac:(lra) ltac:(lra)). lra. }
  destruct (Rle_dec z 0.71) as [L|L].
  - pose proof (slow gap gap' 0.08 z 0.71 L (fun y => D z 0.71 y ltac:(lra) ltac:(lra))) as S. specialize (S2 0.71 ltac:(lra)).
    enough (gap 0.71 - 0.08 * (0.71 - z) <= gap z) by lra.
    apply S. intros y [Y1 Y2]. replace 0.08 with (30 * (0.08 / 30)) by field. apply K; [lra|lra|]. pose proof (chord 0.7 0.71 y ltac:(lra) ltac:(lra)). lra.
  - destruct (Rle_dec z 0.879) as [M|M]; [specialize (S2 z ltac:(lra)); lra|specialize (S1 z ltac:(lra)); lra].
Qed.
Lemma gap_nonneg z : 0 <= z < 1 -> 1.1916 * z ^ 4 < 1 -> 0 <= gap z.
Proof.
  intros [A B] C. destruct (Rle_dec z 0.7) as [L|L]; [apply gap_left; lra|]. destruct (Rle_dec z 0.88) as [M|M]; [apply gap_middle; lra|].
  eapply Rle_trans; [|apply (mono gap gap' 0.88 z)]; [pose proof gap_point; lra|lra| |].
  - intros x [U V]. apply gap_D; [lra|]. assert (x ^ 4 <= z ^ 4) by (apply fourth_le; lra). lra.
  - intros x [U V]. assert (x ^ 4 <= z ^ 4) by (apply fourth_le; lra). destruct (gap_factor_pos x ltac:(lra) ltac:(lra) ltac:(lra)) as [G H0].
    pose proof (tangent 0.88 x ltac:(lra) ltac:(lra)). unfold gap'. apply Rmult_le_pos; [|lra]. apply Rmult_le_pos; [exact G|]. lra.
Qed.

(** Bernoulli's inequality for real exponents. *)
Lemma bernoulli m s : 1 <= m -> 0 <= s -> m * s < 1 -> ln (1 - m * s) <= m * ln (1 - s).
Proof.
  intros M P Q. assert (H : m * ln (1 - 0) - ln (1 - m * 0) <= m * ln (1 - s) - ln (1 - m * s)).
  { apply (mono (fun s => m * ln (1 - s) - ln (1 - m * s)) (fun s => m * (/ (1 - s) * (0 - 1)) - / (1 - m * s) * (0 - m * 1))); [exact P| |].
    - intros x [U V]. assert (x * m <= s * m) by (apply Rmult_le_compat_r; lra). assert (x <= x * m) by nra. apply D_minus; [apply D_scale; apply (D_ln (fun s => 1 - s)); [apply (D_minus (fun _ => 1)); [apply D_const|apply D_id]|lra]|].
      apply (D_ln (fun s => 1 - m * s)); [apply (D_minus (fun _ => 1)); [apply D_const|apply D_scale, D_id]|lra].
    - intros x [U V]. assert (x * m <= s * m) by (apply Rmult_le_compat_r; lra). assert (x <= m * x) by nra. assert (/ (1 - x) <= / (1 - m * x)) by (apply Rinv_le_contravar; lra). nra. }
  rewrite Rmult_0_r, Rminus_0_r, ln_1 in H. lra.
Qed.
Lemma ln_below t : 0 <= t -> t < 1 -> ln (1 - t) <= - t.
Proof. intros A B. rewrite <- (ln_exp (- t)). pose proof (exp_ineq1_le (- t)) as E. destruct (Req_dec (1 - t) (exp (- t))) as [->|N]; [lra|]. left. apply ln_increasing; lra. Qed.
Lemma ln_le a b : 0 < a -> a <= b -> ln a <= ln b.
Proof. intros A [B| ->]; [left; apply ln_increasing; assumption|lra]. Qed.

(** The quick test is stricter than the exact one. *)
Lemma squeeze d y : 2 / 3 <= d -> -1 < y -> 2.6811 * d ^ 2 * y ^ 4 < 1 -> ln (1 - 2.6811 * d ^ 2 * y ^ 4) <= 3 * d * rest y.
Proof.
  intros L P Q. assert (F : 0 <= y ^ 4) by (replace (y ^ 4) with ((y ^ 2) ^ 2) by ring; apply pow2_ge_0).
  assert (S : 4 / 9 <= d ^ 2) by (replace (4 / 9) with ((2 / 3) ^ 2) by field; apply pow_incr; lra).
  assert (N : 0 <= 2.6811 * d ^ 2 * y ^ 4) by (apply Rmult_le_pos; lra).
  destruct (Rle_dec 0 y) as [A|A].
  - apply Rle_trans with (1 := ln_below _ N Q). pose proof (rest_pos_side y A) as H.
    apply Rle_trans with (3 * d * - (y ^ 4 / 4)); [|apply Rmult_le_compat_l; lra].
    assert (H0 : 3 / 4 * d <= 2.6811 * d ^ 2) by nra. nra.
  - set (z := - y). assert (Y : y ^ 4 = z ^ 4) by (unfold z; ring). rewrite Y in *. set (m := 3 * d / 2). assert (M : 1 <= m) by (unfold m; lra).
    assert (E : 2.6811 * d ^ 2 * z ^ 4 = m ^ 2 * (1.1916 * z ^ 4)) by (unfold m; decimals; field). rewrite E in *. set (s := 1.1916 * z ^ 4) in *. assert (s0 : 0 <= s) by (unfold s; lra).
    assert (M2 : m <= m ^ 2) by nra. assert (s <= m * s) by nra. assert (m * s <= m ^ 2 * s) by (apply Rmult_le_compat_r; lra).
    pose proof (gap_nonneg z ltac:(unfold z; lra) ltac:(fold s; lra)) as G. unfold gap in G. replace (- z) with y in G by (unfold z; ring). fold s in G.
    apply Rle_trans with (m * ln (1 - s)); [apply Rle_trans with (ln (1 - m * s)); [apply ln_le; lra|apply bernoulli; lra]|].
    replace (3 * d) with (m * 2) by (unfold m; field). rewrite Rmult_assoc. apply Rmult_le_compat_l; lra.
Qed.
