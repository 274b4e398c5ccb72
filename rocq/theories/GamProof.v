(** Proofs about gamma variates. *)
From Coq Require Import Reals Lra Psatz Lia.
From Verif Require Import GamModel GamSpec GamCalc.
Open Scope R_scope.

(** ** The loops *)
Section Loops.
Context {St : Type} (g : generator St).

Lemma uniform_more f s r : uniform0e1e g f s = Some r -> forall f', (f <= f')%nat -> uniform0e1e g f' s = Some r.
Proof.
  revert s. induction f as [|f IH]; cbn; intros s H f' L; [discriminate|]. destruct f' as [|f']; [lia|]. cbn. destruct (uniform_double g s) as [u s'].
  destruct (Req_EM_T u 1); [apply IH; [exact H|lia]|exact H].
Qed.
Lemma uniform_sound f s u s' : uniform0e1e g f s = Some (u, s') -> first_allowed (uniform_double g) (fun u => u <> 1) s u s'.
Proof.
  revert s. induction f as [|f IH]; cbn; intros s H; [discriminate|]. destruct (uniform_double g s) as [v s1] eqn:E.
  destruct (Req_EM_T v 1) as [->|N]; [|injection H as <- <-; apply allowed_now; assumption]. eapply allowed_later; [exact E|intros N; apply N; reflexivity|apply IH, H].
Qed.
Lemma uniform_complete s u s' : first_allowed (uniform_double g) (fun u => u <> 1) s u s' -> exists f, uniform0e1e g f s = Some (u, s').
Proof.
  intros H. induction H as [s x s' E A|s x s' y s'' E A H [f IH]].
  - exists 1%nat. cbn. rewrite E. destruct (Req_EM_T x 1); [contradiction|reflexivity].
  - exists (Datatypes.S f). cbn. rewrite E. destruct (Req_EM_T x 1); [exact IH|contradiction].
Qed.

Context (o : gamma1).
Definition good (x : R) : Prop := 0 < 1 + g_c o * x.
Lemma propose_more f s r : gamma1_propose g o f s = Some r -> forall f', (f <= f')%nat -> gamma1_propose g o f' s = Some r.
Proof.
  revert s. induction f as [|f IH]; cbn; intros s H f' L; [discriminate|]. destruct f' as [|f']; [lia|]. cbn. destruct (normal_double g s) as [x s'].
  destruct (Rle_dec (1 + g_c o * x) 0); [apply IH; [exact H|lia]|exact H].
Qed.
Lemma propose_sound f s x v s' : gamma1_propose g o f s = Some (x, v, s') -> first_allowed (normal_double g) good s x s' /\ v = 1 + g_c o * x.
Proof.
  revert s. induction f as [|f IH]; cbn; intros s H; [discriminate|]. destruct (normal_double g s) as [y s1] eqn:E.
  destruct (Rle_dec (1 + g_c o * y) 0) as [L|L].
  - apply IH in H. destruct H as [H ->]. split; [|reflexivity]. eapply allowed_later; [exact E|unfold good; lra|exact H].
  - injection H as <- <- <-. split; [|reflexivity]. apply allowed_now; [exact E|unfold good; lra].
Qed.
Lemma propose_complete s x s' : first_allowed (normal_double g) good s x s' -> exists f, gamma1_propose g o f s = Some (x, 1 + g_c o * x, s').
Proof.
  intros H. induction H as [s x s' E A|s x s' y s'' E A H [f IH]].
  - exists 1%nat. cbn. rewrite E. destruct (Rle_dec (1 + g_c o * x) 0); [unfold good in A; lra|reflexivity].
  - exists (Datatypes.S f). cbn. rewrite E. destruct (Rle_dec (1 + g_c o * x) 0); [exact IH|unfold good in A; lra].
Qed.
Lemma first_allowed_ok draw A (s : St) x s' : first_allowed draw A s x s' -> A x.
Proof. intros H. induction H; assumption. Qed.
Lemma first_unit s u s' : unit_draws (uniform_double g) -> first_allowed (uniform_double g) (fun u => u <> 1) s u s' -> 0 < u < 1.
Proof.
  intros U H. induction H as [s x s' E A|]; [|assumption]. specialize (U s). rewrite E in U. cbn in U. split; [lra|]. destruct (proj2 U); [assumption|contradiction].
Qed.

(** The decision as it is made, and the probability that it stands for. *)
Definition value (x : R) : R := g_theta o * g_d o * ((1 + g_c o * x) * (1 + g_c o * x) * (1 + g_c o * x)).
Context (keep : R -> R).
Context (quick : forall x u, good x -> 0 < u < 1 -> u < 1 - 0.0331 * x * x * x * x -> u < keep x).
Context (slow : forall x u, good x -> 0 < u < 1 ->
  (let v := (1 + g_c o * x) * (1 + g_c o * x) * (1 + g_c o * x) in ln u < 0.5 * x * x + g_d o * (1 - v + ln v)) <-> u < keep x).
Context (U : unit_draws (uniform_double g)).

Lemma draw_sound f s y s' : gamma1_draw g o f s = Some (y, s') ->
  exists x, rejection (normal_double g) (uniform_double g) good keep s x s' /\ y = value x.
Proof.
  revert s. induction f as [|f IH]; [discriminate|]. intros s H. cbn [gamma1_draw] in H.
  destruct (gamma1_propose g o (Datatypes.S f) s) as [[[x v] s1]|] eqn:P; [|discriminate]. destruct (propose_sound _ _ _ _ _ P) as [A ->].
  destruct (uniform0e1e g (Datatypes.S f) s1) as [[u s2]|] eqn:Q; [|discriminate]. apply uniform_sound in Q. pose proof (first_unit _ _ _ U Q) as I. pose proof (first_allowed_ok _ _ _ _ _ A) as G.
  destruct (Rlt_dec u (1 - 0.0331 * x * x * x * x)) as [L|L].
  - injection H as <- <-. exists x. split; [|reflexivity]. eapply kept; [exact A|exact Q|apply quick; assumption].
  - pose proof (slow x u G I) as D. cbv zeta in D.
    destruct (Rlt_dec (ln u) (0.5 * x * x + g_d o * (1 - (1 + g_c o * x) * (1 + g_c o * x) * (1 + g_c o * x) + ln ((1 + g_c o * x) * (1 + g_c o * x) * (1 + g_c o * x))))) as [M|M].
    + injection H as <- <-. exists x. split; [|reflexivity]. eapply kept; [exact A|exact Q|apply D, M].
    + apply IH in H. destruct H as [x' [R ->]]. exists x'. split; [|reflexivity]. eapply rejected; [exact A|exact Q| |exact R]. intros N. apply M, D, N.
Qed.
Lemma draw_more f s r : gamma1_draw g o f s = Some r -> forall f', (f <= f')%nat -> gamma1_draw g o f' s = Some r.
Proof.
  revert s. induction f as [|f IH]; [discriminate|]. intros s H f' L. destruct f' as [|f']; [lia|]. cbn [gamma1_draw] in *.
  destruct (gamma1_propose g o (Datatypes.S f) s) as [[[x v] s1]|] eqn:P; [|discriminate]. rewrite (propose_more _ _ _ P _ L).
  destruct (uniform0e1e g (Datatypes.S f) s1) as [[u s2]|] eqn:Q; [|discriminate]. rewrite (uniform_more _ _ _ Q _ L).
  destruct (Rlt_dec u _); [exact H|]. destruct (Rlt_dec (ln u) _); [exact H|]. apply IH; [exact H|lia].
Qed.
Lemma draw_complete s x s' : rejection (normal_double g) (uniform_double g) good keep s x s' -> exists f, gamma1_draw g o f s = Some (value x, s').
Proof.
  intros H. induction H as [s x s1 u s2 A Q K|s x s1 u s2 y s3 A Q K H [f IH]].
  - destruct (propose_complete _ _ _ A) as [f1 P]. destruct (uniform_complete _ _ _ Q) as [f2 Q2]. exists (Datatypes.S (f1 + f2)). cbn [gamma1_draw].
    rewrite (propose_more _ _ _ P) by lia. rewrite (uniform_more _ _ _ Q2) by lia. pose proof (first_unit _ _ _ U Q) as I. pose proof (first_allowed_ok _ _ _ _ _ A) as G.
    destruct (Rlt_dec u (1 - 0.0331 * x * x * x * x)) as [L|L]; [reflexivity|]. cbv zeta.
    destruct (Rlt_dec (ln u) _) as [M|M]; [reflexivity|]. exfalso. apply M, (slow x u G I), K.
  - destruct (propose_complete _ _ _ A) as [f1 P]. destruct (uniform_complete _ _ _ Q) as [f2 Q2]. exists (Datatypes.S (f1 + f2 + f)). cbn [gamma1_draw].
    rewrite (propose_more _ _ _ P) by lia. rewrite (uniform_more _ _ _ Q2) by lia. pose proof (first_unit _ _ _ U Q) as I. pose proof (first_allowed_ok _ _ _ _ _ A) as G.
    destruct (Rlt_dec u (1 - 0.0331 * x * x * x * x)) as [L|L]; [exfalso; apply K, quick; assumption|]. cbv zeta.
    destruct (Rlt_dec (ln u) _) as [M|M]; [exfalso; apply K, (slow x u G I), M|]. apply (draw_more _ _ _ IH). lia.
Qed.
End Loops.

(** ** The recipe *)
Lemma make_c k theta : 1 <= k -> let o := gamma1_make k theta in 2 / 3 <= g_d o /\ 0 < g_c o /\ g_c o * g_c o = / (9 * g_d o) /\ g_k o = k /\ g_theta o = theta /\ g_d o = k - 1 / 3.
Proof.
  intros K. cbn. assert (D : 2 / 3 <= k - 1.0 / 3) by lra. assert (P : 0 < sqrt (9 * (k - 1.0 / 3))) by (apply sqrt_lt_R0; lra).
  split; [exact D|]. split; [apply Rdiv_lt_0_compat; lra|]. split; [|repeat split; lra].
  unfold Rdiv. rewrite !Rmult_1_l, <- Rinv_mult, sqrt_sqrt; lra.
Qed.
Definition probability (o : gamma1) (x : R) : R := exp (3 * g_d o * rest (g_c o * x)).
Lemma ln_cube v : 0 < v -> ln (v * v * v) = 3 * ln v.
Proof. intros P. rewrite !ln_mult; [lra| | |apply Rmult_lt_0_compat|]; assumption. Qed.
Lemma criterion_rest o x : 0 < g_d o -> g_c o * g_c o = / (9 * g_d o) -> good o x ->
  let v := (1 + g_c o * x) * (1 + g_c o * x) * (1 + g_c o * x) in 0.5 * x * x + g_d o * (1 - v + ln v) = 3 * g_d o * rest (g_c o * x).
Proof.
  intros D C G v. unfold v. rewrite ln_cube by exact G. unfold rest. set (y := g_c o * x).
  assert (E : x * x = 9 * g_d o * (y * y)).
  { unfold y. replace (9 * g_d o * (g_c o * x * (g_c o * x))) with (9 * g_d o * (g_c o * g_c o) * (x * x)) by ring. rewrite C. field. lra. }
  replace (0.5 * x * x) with (0.5 * (x * x)) by ring. rewrite E. decimals. field.
Qed.
Lemma fourth_scaled o x : 0 < g_d o -> g_c o * g_c o = / (9 * g_d o) -> 0.0331 * x * x * x * x = 2.6811 * g_d o ^ 2 * (g_c o * x) ^ 4.
Proof.
  intros D C. replace ((g_c o * x) ^ 4) with ((g_c o * g_c o) * (g_c o * g_c o) * x ^ 4) by ring. rewrite C. decimals. field. lra.
Qed.
Lemma ln_lt_exp u a : 0 < u -> ln u < a <-> u < exp a.
Proof.
  intros P. split; intros H; [rewrite <- (exp_ln u P); apply exp_increasing, H|rewrite <- (ln_exp a); apply ln_increasing; assumption].
Qed.
Lemma make_quick k theta : 1 <= k -> let o := gamma1_make k theta in
  forall x u, good o x -> 0 < u < 1 -> u < 1 - 0.0331 * x * x * x * x -> u < probability o x.
Proof.
  intros K o x u G I L. destruct (make_c k theta K) as [D [C0 [C _]]]. fold o in D, C0, C.
  rewrite (fourth_scaled o) in L by lra. apply ln_lt_exp; [lra|].
  apply Rlt_le_trans with (ln (1 - 2.6811 * g_d o ^ 2 * (g_c o * x) ^ 4)); [apply ln_increasing; lra|].
  apply squeeze; [exact D|unfold good in G; lra|lra].
Qed.
Lemma make_slow k theta : 1 <= k -> let o := gamma1_make k theta in
  forall x u, good o x -> 0 < u < 1 ->
  (let v := (1 + g_c o * x) * (1 + g_c o * x) * (1 + g_c o * x) in ln u < 0.5 * x * x + g_d o * (1 - v + ln v)) <-> u < probability o x.
Proof.
  intros K o x u G I. destruct (make_c k theta K) as [D [C0 [C _]]]. fold o in D, C0, C. cbv zeta.
  rewrite (criterion_rest o x) by (lra || assumption). apply ln_lt_exp. lra.
Qed.
Lemma value_D o x : derivable_pt_lim (value o) x (g_theta o * g_d o * (3 * (1 + g_c o * x) ^ 2 * g_c o)).
Proof.
  unfold value. apply (D_scale (fun x => (1 + g_c o * x) * (1 + g_c o * x) * (1 + g_c o * x))).
  apply (derivable_pt_lim_ext (fun x => (1 + g_c o * x) ^ 3)); [intros; ring|].
  eapply D_eq; [apply (derivable_pt_lim_comp (fun x => 1 + g_c o * x) (fun v => v ^ 3)); [apply (D_plus (fun _ => 1)); [apply D_const|apply D_scale, D_id]|apply D_pow]|].
  cbn [INR pred]. ring.
Qed.
Lemma recipe k theta : 1 <= k -> 0 < theta -> let o := gamma1_make k theta in turns_normal_into_gamma k theta (good o) (probability o) (value o).
Proof.
  intros K P o. destruct (make_c k theta K) as [D [C0 [C [_ [Et Ed]]]]]. fold o in D, C0, C, Et, Ed. clearbody o. split.
  - intros x G. split; [apply exp_pos|]. unfold probability. rewrite <- exp_0. pose proof (rest_nonpos (g_c o * x)) as N. unfold good in G. specialize (N ltac:(lra)).
    assert (H : 3 * g_d o * rest (g_c o * x) <= 0) by nra. destruct H as [H|H]; [left; apply exp_increasing, H|rewrite H; lra].
  - intros x G. unfold value, good in *. rewrite Et. assert (0 < theta * g_d o) by (apply Rmult_lt_0_compat; lra). repeat apply Rmult_lt_0_compat; lra.
  - intros y Y. set (v := Rpower (y / (theta * g_d o)) (/ 3)). exists ((v - 1) / g_c o). unfold good, value. rewrite Et.
    replace (1 + g_c o * ((v - 1) / g_c o)) with v by (field; lra). assert (V : 0 < v) by apply exp_pos. split; [exact V|].
    assert (Q : 0 < y / (theta * g_d o)) by (apply Rdiv_lt_0_compat; [exact Y|apply Rmult_lt_0_compat; lra]).
    replace (v * v * v) with (y / (theta * g_d o)); [field; lra|]. unfold v. rewrite <- !Rpower_plus. replace (/ 3 + / 3 + / 3) with 1 by field. rewrite Rpower_1; auto.
  - intros x y Gx Gy L. unfold value, good in *. rewrite Et. assert (0 < theta * g_d o) by (apply Rmult_lt_0_compat; lra). apply Rmult_lt_compat_l; [assumption|].
    assert (M : 1 + g_c o * x < 1 + g_c o * y) by nra. set (a := 1 + g_c o * x) in *. set (b := 1 + g_c o * y) in *. assert (a * a < b * b) by nra. nra.
  - assert (TD : 0 < theta * g_d o) by (apply Rmult_lt_0_compat; lra).
    exists (exp (g_d o) / (3 * (theta * g_d o) * g_c o * Rpower (theta * g_d o) (k - 1))). split.
    { apply Rdiv_lt_0_compat; [apply exp_pos|]. repeat apply Rmult_lt_0_compat; try lra. apply exp_pos. }
    intros x G. pose proof (value_D o x) as VD. eexists. split; [exact VD|]. unfold good in G. set (v := 1 + g_c o * x) in *. rewrite Et.
    assert (V2 : 0 < v ^ 2) by (apply pow_lt; exact G). split; [repeat apply Rmult_lt_0_compat; try lra; exact V2|].
    unfold probability. rewrite <- criterion_rest by (exact C || lra || exact G). cbv zeta. fold v. rewrite ln_cube by exact G. unfold normal_weight, gamma_weight, value. fold v. rewrite Et.
    rewrite <- exp_plus. replace (- (x * x / 2) + (0.5 * x * x + g_d o * (1 - v * v * v + 3 * ln v))) with (g_d o + - (g_d o * (v * v * v)) + (3 * k - 1) * ln v) by (rewrite Ed; decimals; field).
    replace (theta * g_d o * (v * v * v) / theta) with (g_d o * (v * v * v)) by (field; lra).
    rewrite <- (Rpower_mult_distr (theta * g_d o) (v * v * v)) by (try exact TD; repeat apply Rmult_lt_0_compat; exact G).
    unfold Rpower at 3. rewrite ln_cube by exact G. rewrite 2!exp_plus.
    replace ((3 * k - 1) * ln v) with ((k - 1) * (3 * ln v) + (ln v + ln v)) by ring. rewrite !exp_plus, exp_ln by exact G.
    pose proof (exp_pos ((k - 1) * ln (theta * g_d o))) as N. unfold Rpower. set (A := exp ((k - 1) * ln (theta * g_d o))) in *. field. repeat split; lra.
Qed.

(** ** Shapes below one *)
Lemma Rpower_lt_1 u a : 0 < u < 1 -> 0 < a -> 0 < Rpower u a < 1.
Proof.
  intros U A. split; [apply exp_pos|]. unfold Rpower. rewrite <- exp_0. apply exp_increasing.
  assert (ln u < 0) by (rewrite <- ln_1; apply ln_increasing; lra). nra.
Qed.
Lemma Rpower_inverse u a : 0 < u -> a <> 0 -> Rpower (Rpower u a) (1 / a) = u.
Proof. intros U A. rewrite Rpower_mult. replace (a * (1 / a)) with 1 by (field; exact A). apply Rpower_1, U. Qed.
Lemma Rpower_inverse' u a : 0 < u -> a <> 0 -> Rpower (Rpower u (1 / a)) a = u.
Proof. intros U A. rewrite Rpower_mult. replace (1 / a * a) with 1 by (field; exact A). apply Rpower_1, U. Qed.
Lemma lower_recipe k theta : 0 < k -> 0 < theta -> turns_into_lower_shape k theta (fun x u => x * Rpower u (1 / k)).
Proof.
  intros K P. assert (KI : 0 < 1 / k) by (apply Rdiv_lt_0_compat; lra). split.
  - intros x u X U. destruct (Rpower_lt_1 u (1 / k) U KI) as [A B]. split; [apply Rmult_lt_0_compat; assumption|nra].
  - exists (fun x y => Rpower (y / x) k), (fun x y => k * Rpower y (k - 1) / Rpower x k), (k * theta). split; [apply Rmult_lt_0_compat; assumption|]. split; [|split; [|split]].
    + intros x y [Y L]. assert (Q : 0 < y / x < 1).
      { split; [apply Rdiv_lt_0_compat; lra|]. apply Rmult_lt_reg_r with x; [lra|]. unfold Rdiv. rewrite Rmult_assoc, Rinv_l by lra. lra. }
      split; [apply Rpower_lt_1; assumption|]. rewrite Rpower_inverse by lra. field. lra.
    + intros x u X U. replace (x * Rpower u (1 / k) / x) with (Rpower u (1 / k)) by (field; lra). apply Rpower_inverse'; lra.
    + intros x y [Y L]. split.
      * eapply D_eq; [apply (derivable_pt_lim_comp (fun y => y / x) (fun t => Rpower t k))|].
        -- apply (derivable_pt_lim_ext (fun y => / x * y)); [intros; field; lra|]. apply D_scale, D_id.
        -- apply derivable_pt_lim_power. apply Rdiv_lt_0_compat; lra.
        -- unfold Rdiv. rewrite <- Rpower_mult_distr by (try apply Rinv_0_lt_compat; lra). 
           assert (E : Rpower (/ x) (k - 1) * / x = / Rpower x k).
           { rewrite <- (Rpower_1 (/ x)) at 2 by (apply Rinv_0_lt_compat; lra). rewrite <- Rpower_plus. replace (k - 1 + 1) with k by ring.
             unfold Rpower. rewrite ln_Rinv by lra. rewrite <- exp_Ropp. f_equal. ring. }
           rewrite <- E. ring.
      * apply Rdiv_lt_0_compat; [apply Rmult_lt_0_compat; [exact K|apply exp_pos]|apply exp_pos].
    + intros y Y. exists (fun x => - (k * theta * Rpower y (k - 1)) * exp (- / theta * x)). split; [|split].
      * intros x L. eapply D_eq.
        -- apply (D_scale (fun x => exp (- / theta * x))). apply (derivable_pt_lim_comp (fun x => - / theta * x) exp); [apply D_scale, D_id|apply derivable_pt_lim_exp].
        -- unfold gamma_weight. replace (k + 1 - 1) with k by ring. replace (- (x / theta)) with (- / theta * x) by (field; lra). pose proof (exp_pos (k * ln x)) as N. fold (Rpower x k) in N. field. split; lra.
      * intros eps E. set (A := k * theta * Rpower y (k - 1)). assert (A0 : 0 < A) by (unfold A; repeat apply Rmult_lt_0_compat; try assumption; apply exp_pos).
        exists (- (theta * ln (eps / A))). intros x X. rewrite Rabs_mult, Rabs_Ropp, (Rabs_right A) by lra. rewrite Rabs_right by (apply Rle_ge; left; apply exp_pos).
        assert (H : exp (- / theta * x) < eps / A).
        { rewrite <- (exp_ln (eps / A)) by (apply Rdiv_lt_0_compat; assumption). apply exp_increasing.
          apply Rmult_lt_reg_l with theta; [exact P|]. replace (theta * (- / theta * x)) with (- x) by (field; lra). lra. }
        apply Rlt_le_trans with (A * (eps / A)); [apply Rmult_lt_compat_l; assumption|]. right. field. lra.
      * unfold gamma_weight. replace (- (y / theta)) with (- / theta * y) by (field; lra). ring.
Qed.
