(** Proofs about pair potentials. *)
From Coq Require Import ZArith Reals Lra Lia.
From Verif Require Import PyBase VecBase VecModel VecSpec PotModel PotSpec.
Open Scope R_scope.

(** * Derivatives *)
Lemma dp_val : forall f x l l', derivable_pt_lim f x l -> l = l' -> derivable_pt_lim f x l'.
Proof. intros f x l l' H <-. exact H. Qed.
Lemma dp_id : forall x, derivable_pt_lim (fun t => t) x 1.
Proof. exact derivable_pt_lim_id. Qed.
Lemma dp_const : forall c x, derivable_pt_lim (fun t => c) x 0.
Proof. exact derivable_pt_lim_const. Qed.
Lemma dp_plus : forall f g x a b, derivable_pt_lim f x a -> derivable_pt_lim g x b -> derivable_pt_lim (fun t => f t + g t) x (a + b).
Proof. intros f g x a b. exact (derivable_pt_lim_plus f g x a b). Qed.
Lemma dp_minus : forall f g x a b, derivable_pt_lim f x a -> derivable_pt_lim g x b -> derivable_pt_lim (fun t => f t - g t) x (a - b).
Proof. intros f g x a b. exact (derivable_pt_lim_minus f g x a b). Qed.
Lemma dp_opp : forall f x a, derivable_pt_lim f x a -> derivable_pt_lim (fun t => - f t) x (- a).
Proof. intros f x a. exact (derivable_pt_lim_opp f x a). Qed.
Lemma dp_mult : forall f g x a b, derivable_pt_lim f x a -> derivable_pt_lim g x b -> derivable_pt_lim (fun t => f t * g t) x (a * g x + f x * b).
Proof. intros f g x a b. exact (derivable_pt_lim_mult f g x a b). Qed.
Lemma dp_div : forall f g x a b, derivable_pt_lim f x a -> derivable_pt_lim g x b -> g x <> 0 ->
  derivable_pt_lim (fun t => f t / g t) x ((a * g x - b * f x) / (g x)²).
Proof. intros f g x a b H H0 H1. exact (derivable_pt_lim_div f g x a b H H0 H1). Qed.
Lemma dp_comp : forall f g x a b, derivable_pt_lim f x a -> derivable_pt_lim g (f x) b -> derivable_pt_lim (fun t => g (f t)) x (b * a).
Proof. intros f g x a b H H0. exact (derivable_pt_lim_comp f g x a b H H0). Qed.
Lemma dp_exp : forall f x a, derivable_pt_lim f x a -> derivable_pt_lim (fun t => exp (f t)) x (exp (f x) * a).
Proof. intros. apply dp_comp; [assumption|apply derivable_pt_lim_exp]. Qed.
Lemma dp_pow : forall n f x a, derivable_pt_lim f x a -> derivable_pt_lim (fun t => f t ^ n) x (INR n * f x ^ pred n * a).
Proof. intros n f x a H. apply (dp_comp f (fun y => y ^ n)); [assumption|apply derivable_pt_lim_pow]. Qed.
Lemma dp_ln : forall f x a, derivable_pt_lim f x a -> 0 < f x -> derivable_pt_lim (fun t => ln (f t)) x (/ f x * a).
Proof. intros. apply dp_comp; [assumption|apply derivable_pt_lim_ln; assumption]. Qed.
Lemma dp_sqrt : forall f x a, derivable_pt_lim f x a -> 0 < f x -> derivable_pt_lim (fun t => sqrt (f t)) x (/ (2 * sqrt (f x)) * a).
Proof. intros. apply (dp_comp f sqrt); [assumption|apply derivable_pt_lim_sqrt; assumption]. Qed.
Lemma dp_ext : forall f g x l, (forall t, f t = g t) -> derivable_pt_lim f x l -> derivable_pt_lim g x l.
Proof. intros f g x l H H0 e He. destruct (H0 e He) as [d Hd]. exists d. intros h h0 h1. rewrite <- !H. auto. Qed.
(** A function that agrees with another one near a point. *)
Lemma dp_local : forall f g x l c, 0 < c -> (forall t, Rabs (t - x) < c -> f t = g t) -> derivable_pt_lim g x l -> derivable_pt_lim f x l.
Proof.
  intros f g x l c Hc H H0 e He. destruct (H0 e He) as [d Hd].
  assert (Hm : 0 < Rmin d c) by (apply Rmin_pos; [apply cond_pos|assumption]).
  exists (mkposreal _ Hm). intros h h0 h1. simpl in h1.
  rewrite !H.
  - apply Hd; [assumption|]. eapply Rlt_le_trans; [exact h1|apply Rmin_l].
  - rewrite Rminus_eq_0, Rabs_R0. assumption.
  - replace (x + h - x) with h by ring. eapply Rlt_le_trans; [exact h1|apply Rmin_r].
Qed.
(** A function that is everywhere one of two others, which touch in a point. *)
Lemma dp_glue : forall f g h x l, (forall t, f t = g t \/ f t = h t) -> g x = f x -> h x = f x ->
  derivable_pt_lim g x l -> derivable_pt_lim h x l -> derivable_pt_lim f x l.
Proof.
  intros f g h x l H Hg Hh H0 H1 e He.
  destruct (H0 e He) as [d Hd]. destruct (H1 e He) as [d' Hd'].
  assert (Hm : 0 < Rmin d d') by (apply Rmin_pos; apply cond_pos).
  exists (mkposreal _ Hm). intros k k0 k1. simpl in k1.
  destruct (H (x + k)) as [Hk|Hk]; rewrite Hk.
  - rewrite <- Hg. apply Hd; [assumption|]. eapply Rlt_le_trans; [exact k1|apply Rmin_l].
  - rewrite <- Hh. apply Hd'; [assumption|]. eapply Rlt_le_trans; [exact k1|apply Rmin_r].
Qed.
Ltac dp := repeat first
  [ apply dp_id | apply dp_const
  | match goal with
    | |- derivable_pt_lim (fun t => _ + _) _ _ => apply dp_plus
    | |- derivable_pt_lim (fun t => _ - _) _ _ => apply dp_minus
    | |- derivable_pt_lim (fun t => _ * _) _ _ => apply dp_mult
    | |- derivable_pt_lim (fun t => - _) _ _ => apply dp_opp
    | |- derivable_pt_lim (fun t => _ / _) _ _ => apply dp_div
    | |- derivable_pt_lim (Rdiv ?a) ?x ?l => change (derivable_pt_lim (fun t => a / t) x l)
    | |- derivable_pt_lim (fun t => exp _) _ _ => apply dp_exp
    | |- derivable_pt_lim (fun t => ln _) _ _ => apply dp_ln
    | |- derivable_pt_lim (fun t => sqrt _) _ _ => apply dp_sqrt
    | |- derivable_pt_lim (fun t => _ ^ _) _ _ => apply dp_pow
    end ].

(** * Lengths *)
Lemma mag2_pos : forall r, r <> zero3 -> 0 < vmag2 r.
Proof.
  intros [x y z] H. unfold vmag2, vdot. cbn.
  destruct (Req_dec x 0) as [->|Hx]; [|pose proof (Rsqr_pos_lt x Hx); unfold Rsqr in *; nra].
  destruct (Req_dec y 0) as [->|Hy]; [|pose proof (Rsqr_pos_lt y Hy); unfold Rsqr in *; nra].
  destruct (Req_dec z 0) as [->|Hz]; [|pose proof (Rsqr_pos_lt z Hz); unfold Rsqr in *; nra].
  destruct H. reflexivity.
Qed.
Lemma mag_pos : forall r, r <> zero3 -> 0 < vmag r.
Proof. intros r H. apply sqrt_lt_R0, mag2_pos, H. Qed.
Lemma mag2_nonneg : forall r, 0 <= vmag2 r.
Proof. intros [x y z]. unfold vmag2, vdot. cbn. nra. Qed.
Lemma mag_sqr : forall r, vmag r * vmag r = vmag2 r.
Proof. intros r. apply sqrt_sqrt, mag2_nonneg. Qed.
Lemma length3_mag : forall r, length3 r = vmag r.
Proof. reflexivity. Qed.
Lemma mag2_line : forall r v, derivable_pt_lim (fun t => vmag2 (plus3 r (times3 t v))) 0 (2 * dot3 r v).
Proof.
  intros r v. unfold vmag2, vdot, plus3, times3, dot3. cbn.
  eapply dp_val; [dp|cbn; ring].
Qed.
Lemma dot_line : forall r v m, derivable_pt_lim (fun t => vdot (plus3 r (times3 t v)) m) 0 (dot3 v m).
Proof.
  intros r v m. unfold vdot, plus3, times3, dot3. cbn.
  eapply dp_val; [dp|cbn; ring].
Qed.
Lemma line_0 : forall r v, plus3 r (times3 0 v) = r.
Proof. intros [x y z] [a b c]. unfold plus3, times3. cbn. f_equal; ring. Qed.
Lemma mag_line : forall r v, r <> zero3 -> derivable_pt_lim (fun t => vmag (plus3 r (times3 t v))) 0 (dot3 r v / vmag r).
Proof.
  intros r v H. unfold vmag. eapply dp_val; [apply dp_sqrt; [apply mag2_line|]|].
  - cbv beta. rewrite line_0. apply mag2_pos, H.
  - cbv beta. rewrite line_0. change (sqrt (vmag2 r)) with (vmag r). pose proof (mag_pos r H). field. lra.
Qed.
(** The gradient of a function of the distance, and of one of the squared distance. *)
Lemma radial : forall f r d F, r <> zero3 -> derivable_pt_lim f (vmag r) d -> F = times3 (- (d / vmag r)) r ->
  minus_gradient (fun q => f (vmag q)) r F.
Proof.
  intros f r d F H H0 -> v. pose proof (mag_pos r H) as Hp.
  eapply dp_val; [apply (dp_comp (fun t => vmag (plus3 r (times3 t v))) f); [apply mag_line, H|]|].
  - cbv beta. rewrite line_0. exact H0.
  - unfold dot3, times3. cbn. field. lra.
Qed.
Lemma radial2 : forall f r d F, derivable_pt_lim f (vmag2 r) d -> F = times3 (- (2 * d)) r ->
  minus_gradient (fun q => f (vmag2 q)) r F.
Proof.
  intros f r d F H0 -> v.
  eapply dp_val; [apply (dp_comp (fun t => vmag2 (plus3 r (times3 t v))) f); [apply mag2_line|]|].
  - cbv beta. rewrite line_0. exact H0.
  - unfold dot3, times3. cbn. ring.
Qed.
Lemma vscale_hat : forall k r, vscale k (vhat r) = times3 (k / vmag r) r.
Proof. intros k r. unfold vscale, vhat, vdivs, times3, Rdiv. cbn. f_equal; ring. Qed.
Lemma vscale_times : forall k r, vscale k r = times3 k r.
Proof. intros k r. unfold vscale, times3. f_equal; ring. Qed.

(** * The potentials *)
Lemma fene_gradient : forall K l0 Rm r, r <> zero3 -> Rm <> 0 -> Rabs (length3 r - l0) < Rabs Rm ->
  minus_gradient (fene_potential K l0 Rm) r (fene_force K l0 Rm r).
Proof.
  intros K l0 Rm r H H0 H1. pose proof (mag_pos r H) as Hp. change (length3 r) with (vmag r) in H1.
  assert (H2 : (vmag r - l0) * (vmag r - l0) < Rm * Rm).
  { pose proof (Rsqr_lt_abs_1 _ _ H1) as X. exact X. }
  assert (HR : 0 < Rm * Rm) by (pose proof (Rsqr_pos_lt Rm H0); assumption).
  assert (H3 : 0 < 1 - (vmag r - l0) / Rm * ((vmag r - l0) / Rm)).
  { apply Rmult_lt_reg_r with (Rm * Rm); [assumption|].
    replace ((1 - (vmag r - l0) / Rm * ((vmag r - l0) / Rm)) * (Rm * Rm)) with (Rm * Rm - (vmag r - l0) * (vmag r - l0)) by (field; assumption).
    lra. }
  assert (H4 : Rm * Rm - (vmag r - l0) * (vmag r - l0) <> 0) by lra.
  unfold fene_potential.
  apply (radial (fun x => - (1 / 2) * K * Rm * Rm * ln (1 - (x - l0) / Rm * ((x - l0) / Rm))) r
    (K * (vmag r - l0) / (1 - (vmag r - l0) * (vmag r - l0) / (Rm * Rm)))).
  - assumption.
  - eapply dp_val; [dp; assumption|]. cbv beta. unfold Rsqr. field. repeat split; try assumption; try lra; intro; apply H4; lra.
  - unfold fene_force. replace (vneg (vhat r)) with (vscale (-1) (vhat r)) by (unfold vneg, vscale; f_equal; ring).
    rewrite vscale_hat, vscale_times. unfold times3. cbn. f_equal; field; repeat split; try assumption; try lra; intro; apply H4; lra.
Qed.
Lemma gemn_gradient : forall eps sigma n r, r <> zero3 -> 0 < sigma ->
  minus_gradient (gemn_potential eps sigma n) r (gemn_force eps sigma n r).
Proof.
  intros eps sigma n r H H0. pose proof (mag_pos r H) as Hp.
  assert (Hq : 0 < vmag r / sigma) by (apply Rdiv_lt_0_compat; assumption).
  unfold gemn_potential, cpow.
  apply (radial (fun x => eps * exp ((- 1) * Rpower (x / sigma) (IZR n))) r
    (- (IZR n * eps * Rpower (vmag r / sigma) (IZR n) * exp ((- 1) * Rpower (vmag r / sigma) (IZR n)) / vmag r))).
  - assumption.
  - unfold Rpower. eapply dp_val; [dp; try assumption; lra|]. cbv beta. unfold Rsqr. field. split; lra.
  - unfold gemn_force, cpow. rewrite vscale_hat. f_equal. field. lra.
Qed.
Lemma morse_gradient : forall epsilon alpha sigma shift r, r <> zero3 ->
  minus_gradient (morse_potential epsilon alpha sigma shift) r (morse_force epsilon alpha sigma shift r).
Proof.
  intros epsilon alpha sigma shift r H. pose proof (mag_pos r H) as Hp.
  unfold morse_potential.
  apply (radial (fun x => epsilon * (exp (- 2 * alpha * (x - sigma)) - 2 * exp ((- 1) * alpha * (x - sigma))) - shift) r
    (epsilon * (- 2 * alpha * exp (- 2 * alpha * (vmag r - sigma)) + 2 * alpha * exp ((- 1) * alpha * (vmag r - sigma))))).
  - assumption.
  - eapply dp_val; [dp|]. cbv beta. ring.
  - unfold morse_force. rewrite vscale_hat. f_equal. field. lra.
Qed.
Lemma lj_gradient : forall o c sigma epsilon r, r <> zero3 -> length3 r <> o -> length3 r <> c ->
  minus_gradient (lj_potential o c sigma epsilon) r (lj_force o c sigma epsilon r).
Proof.
  intros o c sigma epsilon r H H0 H1. pose proof (mag_pos r H) as Hp. change (length3 r) with (vmag r) in *.
  set (f := fun x => if rltb c x then 0 else 4 * epsilon * ((sigma / (x - o)) ^ 12 - (sigma / (x - o)) ^ 6)).
  change (lj_potential o c sigma epsilon) with (fun q => f (vmag q)).
  unfold lj_force, rltb. destruct (Rlt_dec c (vmag r)) as [Hc|Hc].
  - apply (radial f r 0); [assumption| |unfold times3; f_equal; field; lra].
    apply (dp_local f (fun _ => 0) _ _ (vmag r - c)); [lra| |apply dp_const].
    intros t Ht. unfold f, rltb. destruct (Rlt_dec c t); [reflexivity|].
    apply Rabs_def2 in Ht. lra.
  - assert (Ho : vmag r - o <> 0) by lra.
    apply (radial f r (- (24 * epsilon * (2 * (sigma / (vmag r - o)) ^ 12 - (sigma / (vmag r - o)) ^ 6) / (vmag r - o)))); [assumption| |].
    + apply (dp_local f (fun x => 4 * epsilon * ((sigma / (x - o)) ^ 12 - (sigma / (x - o)) ^ 6)) _ _ (c - vmag r)); [lra| |].
      * intros t Ht. unfold f, rltb. destruct (Rlt_dec c t); [|reflexivity]. apply Rabs_def2 in Ht. lra.
      * eapply dp_val; [dp; assumption|]. cbv beta. unfold Rsqr. cbn [INR pred]. field. assumption.
    + rewrite vscale_hat. f_equal. field. split; [assumption|lra].
Qed.

(** Roots of two. *)
Lemma root3_2 : cpow 2 (1 / 3) * cpow 2 (1 / 3) * cpow 2 (1 / 3) = 2.
Proof.
  unfold cpow. rewrite <- !Rpower_plus. replace (1 / 3 + 1 / 3 + 1 / 3) with 1 by field. apply Rpower_1. lra.
Qed.
Lemma root6_2 : cpow 2 (1 / 6) * cpow 2 (1 / 6) = cpow 2 (1 / 3).
Proof. unfold cpow. rewrite <- Rpower_plus. f_equal. field. Qed.
Lemma root_pos : forall x, 0 < cpow 2 x.
Proof. intros x. apply exp_pos. Qed.
Lemma third_of_cube : forall c x s, c * c * c = 2 -> x = c * s -> s <> 0 -> s / x * (s / x) * (s / x) = 1 / 2.
Proof.
  intros c x s H -> Hs. assert (Hc : c <> 0) by (intros ->; lra).
  replace (s / (c * s) * (s / (c * s)) * (s / (c * s))) with (1 / (c * c * c)) by (field; split; assumption).
  rewrite H. field.
Qed.

Lemma wca_gradient : forall epsilon sigma r, r <> zero3 ->
  minus_gradient (wca_potential epsilon sigma) r (wca_force epsilon sigma r).
Proof.
  intros epsilon sigma r H. pose proof (mag2_pos r H) as Hp.
  set (s2 := sigma * sigma). set (c := cpow 2 (1 / 3) * s2).
  set (g := fun x => 4 * epsilon * (s2 / x * (s2 / x) * (s2 / x) * (s2 / x * (s2 / x) * (s2 / x)) - s2 / x * (s2 / x) * (s2 / x) + 1 / 4)).
  set (f := fun x => if rleb c x then 0 else g x).
  change (wca_potential epsilon sigma) with (fun q => f (vmag2 q)).
  set (d := - (12 * epsilon / vmag2 r * (2 * (s2 / vmag2 r * (s2 / vmag2 r) * (s2 / vmag2 r) * (s2 / vmag2 r * (s2 / vmag2 r) * (s2 / vmag2 r))) - s2 / vmag2 r * (s2 / vmag2 r) * (s2 / vmag2 r)))).
  assert (Hg : derivable_pt_lim g (vmag2 r) d).
  { unfold g, d. eapply dp_val; [dp; cbv beta; apply Rgt_not_eq; exact Hp|]. cbv beta. unfold Rsqr. field. lra. }
  unfold wca_force. fold s2. fold c. unfold rleb. destruct (Rle_dec c (vmag2 r)) as [Hc|Hc].
  - apply (radial2 f r 0); [|unfold times3; f_equal; ring].
    destruct (Req_dec c (vmag2 r)) as [He|He].
    + assert (Hs : s2 <> 0) by (intros Hs; unfold c in He; rewrite Hs in He; lra).
      assert (H6 : s2 / vmag2 r * (s2 / vmag2 r) * (s2 / vmag2 r) = 1 / 2).
      { apply (third_of_cube (cpow 2 (1 / 3))); [apply root3_2|symmetry; exact He|exact Hs]. }
      assert (Hd : d = 0). { unfold d. rewrite H6. field. lra. }
      rewrite Hd in Hg. apply (dp_glue f g (fun _ => 0)); [| | |assumption|apply dp_const].
      * intros t. unfold f. destruct (rleb c t); auto.
      * unfold f, rleb. destruct (Rle_dec c (vmag2 r)); [|lra]. unfold g. rewrite H6. field.
      * unfold f, rleb. destruct (Rle_dec c (vmag2 r)); [|lra]. reflexivity.
    + apply (dp_local f (fun _ => 0) _ _ (vmag2 r - c)); [lra| |apply dp_const].
      intros t Ht. unfold f, rleb. destruct (Rle_dec c t); [reflexivity|]. apply Rabs_def2 in Ht. lra.
  - apply (radial2 f r d).
    + apply (dp_local f g _ _ (c - vmag2 r)); [lra| |assumption].
      intros t Ht. unfold f, rleb. destruct (Rle_dec c t); [|reflexivity]. apply Rabs_def2 in Ht. lra.
    + rewrite vscale_times. f_equal. unfold d. field. lra.
Qed.
Lemma wcad_gradient : forall epsilon sigma d r, r <> zero3 -> length3 r <> d ->
  minus_gradient (wcad_potential epsilon sigma d) r (wcad_force epsilon sigma d r).
Proof.
  intros epsilon sigma d r H H0. pose proof (mag_pos r H) as Hp. change (length3 r) with (vmag r) in *.
  set (s2 := sigma * sigma). set (c := cpow 2 (1 / 6) * sigma).
  set (q := fun x => s2 / ((x - d) * (x - d))).
  set (g := fun x => 4 * epsilon * (q x * q x * q x * (q x * q x * q x) - q x * q x * q x + 1 / 4)).
  set (f := fun x => if rleb c (x - d) then 0 else g x).
  change (wcad_potential epsilon sigma d) with (fun q => f (vmag q)).
  set (q6 := q (vmag r) * q (vmag r) * q (vmag r)).
  set (e := - (24 * epsilon / (vmag r - d) * (2 * (q6 * q6) - q6))).
  assert (Hd : vmag r - d <> 0) by lra.
  assert (Hg : derivable_pt_lim g (vmag r) e).
  { unfold g, e, q6, q. eapply dp_val; [dp; try (apply Rmult_integral_contrapositive_currified; assumption)|]. cbv beta. unfold Rsqr. field. assumption. }
  unfold wcad_force. fold s2. fold c. change (sqrt (vmag2 r)) with (vmag r). unfold rleb. destruct (Rle_dec c (vmag r - d)) as [Hc|Hc].
  - apply (radial f r 0); [assumption| |unfold times3; f_equal; field; lra].
    destruct (Req_dec c (vmag r - d)) as [He|He].
    + assert (Hs : s2 <> 0) by (intros Hs; apply Hd; rewrite <- He; unfold c; unfold s2 in Hs; rewrite (Rsqr_0_uniq _ Hs); ring).
      assert (H6 : q6 = 1 / 2).
      { unfold q6, q. apply (third_of_cube (cpow 2 (1 / 3))); [apply root3_2| |exact Hs].
        rewrite <- He. unfold c, s2. rewrite <- root6_2. ring. }
      assert (Hz : e = 0). { unfold e. rewrite H6. field. assumption. }
      rewrite Hz in Hg. apply (dp_glue f g (fun _ => 0)); [| | |assumption|apply dp_const].
      * intros t. unfold f. destruct (rleb c (t - d)); auto.
      * unfold f, rleb. destruct (Rle_dec c (vmag r - d)); [|lra]. unfold g. fold q6. rewrite H6. field.
      * unfold f, rleb. destruct (Rle_dec c (vmag r - d)); [|lra]. reflexivity.
    + apply (dp_local f (fun _ => 0) _ _ (vmag r - d - c)); [lra| |apply dp_const].
      intros t Ht. unfold f, rleb. destruct (Rle_dec c (t - d)); [reflexivity|]. apply Rabs_def2 in Ht. lra.
  - apply (radial f r e); [assumption| |].
    + apply (dp_local f g _ _ (c - (vmag r - d))); [lra| |assumption].
      intros t Ht. unfold f, rleb. destruct (Rle_dec c (t - d)); [|reflexivity]. apply Rabs_def2 in Ht. lra.
    + rewrite vscale_times. f_equal. fold (q (vmag r)). fold q6. unfold e. field. lra.
Qed.
Lemma mag_gradient : forall p m r, r <> zero3 -> minus_gradient (mag_potential p m) r (mag_force p m r).
Proof.
  intros p m r H v. pose proof (mag2_pos r H) as Hp. pose proof (mag_pos r H) as Hq. pose proof (mag_sqr r) as Hs.
  unfold mag_potential. eapply dp_val.
  - dp.
    + apply mag2_line.
    + cbv beta. rewrite line_0. lra.
    + apply mag2_line.
    + cbv beta. rewrite line_0. assumption.
    + cbv beta. rewrite line_0. change (sqrt (vmag2 r)) with (vmag r). lra.
    + apply dot_line.
    + apply dot_line.
    + apply mag2_line.
    + cbv beta. rewrite line_0. lra.
  - cbv beta. rewrite line_0. change (sqrt (vmag2 r)) with (vmag r).
    unfold mag_force. change (sqrt (vmag2 r)) with (vmag r).
    replace (vdot m r) with (vdot r m) by (unfold vdot; ring).
    set (D := vdot r m).
    replace (dot3 (vscale (3 * p * (1 / vmag2 r * (1 / vmag2 r / vmag r))) (vsub (vscale (2 * D) m) (vscale (5 * (1 / vmag2 r) * D * D - 1) r))) v)
      with (3 * p * (1 / vmag2 r * (1 / vmag2 r / vmag r)) * (2 * D * dot3 v m - (5 * (1 / vmag2 r) * D * D - 1) * dot3 r v))
      by (unfold dot3, vsub, vscale; cbn; ring).
    unfold Rsqr. rewrite <- !Hs. field. lra.
Qed.
Lemma magz_is_mag : forall p r, magz_potential p r = mag_potential p (Vec 0 0 1) r /\ (r <> zero3 -> magz_force p r = mag_force p (Vec 0 0 1) r).
Proof.
  intros p r. split.
  - unfold magz_potential, mag_potential, vdot. cbn. f_equal. f_equal. f_equal. ring.
  - intros H. pose proof (mag2_pos r H) as Hp. pose proof (mag_pos r H) as Hq.
    unfold magz_force, mag_force. change (sqrt (vmag2 r)) with (vmag r).
    unfold vdot, vscale, vsub. cbn. f_equal; field; lra.
Qed.
Lemma magz_gradient : forall p r, r <> zero3 -> minus_gradient (magz_potential p) r (magz_force p r).
Proof.
  intros p r H v. destruct (magz_is_mag p r) as [_ E]. rewrite (E H).
  eapply dp_ext; [|apply (mag_gradient p (Vec 0 0 1) r H v)]. intros t. cbv beta. symmetry. apply magz_is_mag.
Qed.

Lemma gradient_holds : forall p r, defined p r -> ~ at_jump p r -> minus_gradient (energy p) r (force p r).
Proof.
  induction p; intros r H J; cbn [defined at_jump energy force] in *.
  - destruct H as (H & H0 & H1). apply fene_gradient; assumption.
  - destruct H as (H & H0). apply gemn_gradient; assumption.
  - destruct H as (H & H0). apply lj_gradient; assumption.
  - apply morse_gradient; assumption.
  - apply wca_gradient; assumption.
  - destruct H as (H & H0). apply wcad_gradient; assumption.
  - apply magz_gradient; assumption.
  - apply mag_gradient; assumption.
  - destruct H as [H H0]. intros v. cbn.
    eapply dp_val; [apply dp_plus; [apply (IHp1 r H ltac:(tauto) v)|apply (IHp2 r H0 ltac:(tauto) v)]|].
    unfold dot3, vadd. cbn. ring.
  - intros v. eapply dp_val; [apply dp_const|]. unfold dot3. cbn. ring.
Qed.

(** * Exchange of the particles *)
Lemma mag2_neg : forall r, vmag2 (vneg r) = vmag2 r.
Proof. intros r. unfold vmag2, vdot. cbn. ring. Qed.
Lemma mag_neg : forall r, vmag (vneg r) = vmag r.
Proof. intros r. unfold vmag. rewrite mag2_neg. reflexivity. Qed.
Lemma vscale_neg : forall k r, vscale k (vneg r) = vneg (vscale k r).
Proof. intros k r. unfold vscale, vneg. cbn. f_equal; ring. Qed.
Lemma vhat_neg : forall r, vhat (vneg r) = vneg (vhat r).
Proof. intros r. unfold vhat. rewrite mag_neg. unfold vdivs, vneg, Rdiv. cbn. f_equal; ring. Qed.
Lemma vneg_0 : vneg (Vec 0 0 0) = Vec 0 0 0.
Proof. unfold vneg. cbn. f_equal; ring. Qed.
Lemma force_neg : forall p r, force p (vneg r) = vneg (force p r).
Proof.
  induction p; intros r; cbn [force].
  - unfold fene_force. rewrite mag_neg, vhat_neg, !vscale_neg. reflexivity.
  - unfold gemn_force. rewrite mag_neg, vhat_neg, vscale_neg. reflexivity.
  - unfold lj_force. rewrite mag_neg, vhat_neg, vscale_neg. destruct (rltb _ _); [|reflexivity]. symmetry. apply vneg_0.
  - unfold morse_force. rewrite mag_neg, vhat_neg, vscale_neg. reflexivity.
  - unfold wca_force. rewrite mag2_neg. destruct (rleb _ _); [symmetry; apply vneg_0|]. apply vscale_neg.
  - unfold wcad_force. rewrite mag2_neg. destruct (rleb _ _); [symmetry; apply vneg_0|]. apply vscale_neg.
  - unfold magz_force. rewrite mag2_neg. unfold vscale, vneg. cbn. f_equal; ring.
  - unfold mag_force. rewrite mag2_neg. unfold vscale, vneg, vsub, vdot. cbn. f_equal; ring.
  - rewrite IHp1, IHp2. unfold vadd, vneg. cbn. f_equal; ring.
  - symmetry. apply vneg_0.
Qed.
Lemma exchange_holds : forall p r1 r2, forceOnR1DueToR2 p r1 r2 = times3 (-1) (forceOnR1DueToR2 p r2 r1).
Proof.
  intros p r1 r2. unfold forceOnR1DueToR2.
  replace (vsub r1 r2) with (vneg (vsub r2 r1)) by (unfold vsub, vneg; cbn; f_equal; ring).
  rewrite force_neg. unfold vneg, times3. f_equal; ring.
Qed.
Lemma energy_neg : forall p r, energy p (vneg r) = energy p r.
Proof.
  induction p; intros r; cbn [energy].
  - unfold fene_potential. rewrite mag_neg. reflexivity.
  - unfold gemn_potential. rewrite mag_neg. reflexivity.
  - unfold lj_potential. rewrite mag_neg. reflexivity.
  - unfold morse_potential. rewrite mag_neg. reflexivity.
  - unfold wca_potential. rewrite mag2_neg. reflexivity.
  - unfold wcad_potential. rewrite mag2_neg. reflexivity.
  - unfold magz_potential. rewrite mag2_neg. cbn. f_equal. f_equal. f_equal. ring.
  - unfold mag_potential. rewrite mag2_neg. unfold vdot. cbn. f_equal. f_equal. f_equal. ring.
  - rewrite IHp1, IHp2. reflexivity.
  - reflexivity.
Qed.

(** * The documented formulas *)
Lemma root_unique : forall c, sixth_root_of_two c -> c = cpow 2 (1 / 6).
Proof.
  intros c [H H0].
  rewrite <- (Rpower_1 c H). replace 1 with (INR 6 * (1 / 6)) at 1 by (cbn [INR]; field).
  rewrite <- Rpower_mult, Rpower_pow by assumption. rewrite H0. reflexivity.
Qed.
Lemma root_exists : sixth_root_of_two (cpow 2 (1 / 6)).
Proof.
  split; [apply root_pos|]. unfold cpow. rewrite <- Rpower_pow by apply exp_pos. rewrite Rpower_mult.
  replace (1 / 6 * INR 6) with 1 by (cbn [INR]; field). apply Rpower_1. lra.
Qed.
Lemma wca_below : forall s r, 0 <= s -> 0 <= r -> (cpow 2 (1 / 3) * (s * s) <= r * r <-> cpow 2 (1 / 6) * s <= r).
Proof.
  intros s r Hs Hr. rewrite <- root6_2. pose proof (root_pos (1 / 6)).
  replace (cpow 2 (1 / 6) * cpow 2 (1 / 6) * (s * s)) with ((cpow 2 (1 / 6) * s) * (cpow 2 (1 / 6) * s)) by ring.
  assert (0 <= cpow 2 (1 / 6) * s) by (apply Rmult_le_pos; lra).
  split; intros; nra.
Qed.
Lemma wca_text : forall epsilon sigma r, r <> zero3 -> documented (WCA epsilon sigma) r (energy (WCA epsilon sigma) r).
Proof.
  intros e s r H. cbn [documented energy]. intros Hs c Hc. apply root_unique in Hc. subst c.
  pose proof (mag_pos r H) as Hp. change (length3 r) with (vmag r).
  pose proof (wca_below s (vmag r) Hs ltac:(lra)) as E. rewrite mag_sqr in E.
  unfold wca_potential, rleb. destruct (Rle_dec _ _) as [Hd|Hd].
  - split; [|reflexivity]. intros Hl. apply E in Hd. lra.
  - split; [|intros Hl; apply E in Hl; contradiction].
    intros _. unfold lj_formula. rewrite <- mag_sqr. field. lra.
Qed.
Lemma wcad_text : forall epsilon sigma d r, r <> zero3 -> length3 r <> d ->
  documented (WCAOffset epsilon sigma d) r (energy (WCAOffset epsilon sigma d) r).
Proof.
  intros e s d r H H0. cbn [documented energy]. intros c Hc. apply root_unique in Hc. subst c.
  change (length3 r) with (vmag r) in *. unfold wcad_potential. change (sqrt (vmag2 r)) with (vmag r).
  unfold rleb. destruct (Rle_dec _ _) as [Hd|Hd]; split; intros Hl; try lra.
  unfold lj_formula. field. lra.
Qed.
Lemma documented_holds : forall p r, defined p r -> documented p r (energy p r).
Proof.
  intros p r. revert r.
  induction p; intros r H; cbn [defined documented energy] in *.
  - unfold fene_potential, fene_formula. change (length3 r) with (vmag r). f_equal; [ring|]. f_equal. f_equal. field. apply H.
  - destruct H as [H H0]. unfold gemn_potential, cpow. change (length3 r) with (vmag r).
      rewrite powerRZ_Rpower by (apply Rdiv_lt_0_compat; [apply mag_pos, H|assumption]).
      f_equal. f_equal. ring.
  - unfold lj_potential, rltb, lj_formula. change (length3 r) with (vmag r) in *. destruct (Rlt_dec _ _); split; intros; try lra; reflexivity.
  - unfold morse_potential. change (length3 r) with (vmag r). cbv zeta.
      replace (exp (- alpha * (vmag r - sigma)) ^ 2) with (exp (- 2 * alpha * (vmag r - sigma))).
    + replace (-1 * alpha * (vmag r - sigma)) with (- alpha * (vmag r - sigma)) by ring. reflexivity.
    + cbn [pow]. rewrite Rmult_1_r, <- exp_plus. f_equal. ring.
  - apply wca_text. assumption.
  - apply wcad_text; apply H.
  - pose proof (mag_pos r H). change (length3 r) with (vmag r). unfold magz_potential, magnetic_formula. change (sqrt (vmag2 r)) with (vmag r).
      rewrite <- mag_sqr. field. lra.
  - pose proof (mag_pos r H). change (length3 r) with (vmag r). unfold mag_potential, magnetic_formula. change (sqrt (vmag2 r)) with (vmag r).
      rewrite <- mag_sqr. replace (dot3 orientation r) with (vdot r orientation) by (unfold dot3, vdot; ring). field. lra.
  - exists (energy p1 r), (energy p2 r). destruct H. repeat split; auto.
  - reflexivity.
Qed.

(** * Cutoffs *)
Lemma dp_continuous : forall f x l, derivable_pt_lim f x l ->
  forall eps, 0 < eps -> exists delta, 0 < delta /\ forall t, Rabs (t - x) < delta -> Rabs (f t - f x) < eps.
Proof.
  intros f x l H eps He.
  destruct (derivable_continuous_pt f x (exist _ l H) eps He) as (d & Hd & Hc).
  exists d. split; [assumption|]. intros t Ht.
  destruct (Req_dec x t) as [->|Hn]; [rewrite Rminus_eq_0, Rabs_R0; assumption|].
  apply Hc. split; [|exact Ht]. split; [exact I|assumption].
Qed.
(** Bounded by a function of the distance that has a derivative and vanishes. *)
Lemma fades_bound : forall f g c l, (forall r, Rabs (f r) <= Rabs (g (vmag r))) -> g c = 0 -> derivable_pt_lim g c l -> fades_at f c.
Proof.
  intros f g c l H H0 H1 eps He. destruct (dp_continuous g c l H1 eps He) as (d & Hd & Hc).
  exists d. split; [assumption|]. intros r Hr. change (length3 r) with (vmag r) in Hr.
  eapply Rle_lt_trans; [apply H|]. specialize (Hc _ Hr). rewrite H0, Rminus_0_r in Hc. exact Hc.
Qed.
Lemma length_times : forall k r, length3 (times3 k r) = Rabs k * vmag r.
Proof.
  intros k r. unfold length3, vmag. replace (dot3 (times3 k r) (times3 k r)) with (k * k * vmag2 r).
  - rewrite sqrt_mult; [|nra|apply mag2_nonneg]. f_equal. apply sqrt_Rsqr_abs.
  - unfold dot3, times3, vmag2, vdot. cbn. ring.
Qed.
Lemma length_0 : length3 (Vec 0 0 0) = 0.
Proof. unfold length3, dot3. cbn. replace (0 * 0 + 0 * 0 + 0 * 0) with 0 by ring. apply sqrt_0. Qed.
Lemma half_at_root : forall s, s <> 0 -> (s * s / ((cpow 2 (1 / 6) * s) * (cpow 2 (1 / 6) * s))) * (s * s / ((cpow 2 (1 / 6) * s) * (cpow 2 (1 / 6) * s))) * (s * s / ((cpow 2 (1 / 6) * s) * (cpow 2 (1 / 6) * s))) = 1 / 2.
Proof.
  intros s H. apply (third_of_cube (cpow 2 (1 / 3))); [apply root3_2| |nra].
  rewrite <- root6_2. ring.
Qed.
Lemma mag_nonneg : forall r, 0 <= vmag r.
Proof. intros r. apply sqrt_pos. Qed.
Lemma wcad_fades : forall epsilon sigma d, 0 < sigma -> 0 <= d ->
  fades_at (wcad_potential epsilon sigma d) (d + cpow 2 (1 / 6) * sigma) /\
  fades_at (fun r => length3 (wcad_force epsilon sigma d r)) (d + cpow 2 (1 / 6) * sigma).
Proof.
  intros e s d Hs Hd. pose proof (root_pos (1 / 6)) as Hr.
  assert (Hcs : 0 < cpow 2 (1 / 6) * s) by (apply Rmult_lt_0_compat; assumption).
  set (c := cpow 2 (1 / 6) * s) in *.
  set (q := fun x => s * s / ((x - d) * (x - d)) * (s * s / ((x - d) * (x - d))) * (s * s / ((x - d) * (x - d)))).
  assert (Hq : q (d + c) = 1 / 2).
  { unfold q. replace (d + c - d) with c by ring. apply half_at_root. lra. }
  assert (Hn : d + c - d <> 0) by lra.
  split.
  - assert (D : exists l, derivable_pt_lim (fun x => 4 * e * (q x * q x - q x + 1 / 4)) (d + c) l).
    { eexists. unfold q. dp; try (apply Rmult_integral_contrapositive_currified; assumption). }
    destruct D as [l D]. eapply fades_bound; [| |exact D].
    + intros r. unfold wcad_potential. fold c. change (sqrt (vmag2 r)) with (vmag r). destruct (rleb _ _); [rewrite Rabs_R0; apply Rabs_pos|].
      apply Req_le. reflexivity.
    + cbv beta. rewrite Hq. field.
  - assert (D : exists l, derivable_pt_lim (fun x => 24 * e / (x - d) * (2 * (q x * q x) - q x)) (d + c) l).
    { eexists. unfold q. dp; try assumption; try (apply Rmult_integral_contrapositive_currified; assumption). }
    destruct D as [l D]. eapply fades_bound; [| |exact D].
    + intros r. cbv beta. unfold wcad_force. fold c. change (sqrt (vmag2 r)) with (vmag r). destruct (rleb _ _); [rewrite length_0, Rabs_R0; apply Rabs_pos|].
      rewrite vscale_times, length_times. fold (q (vmag r)).
      rewrite (Rabs_pos_eq (_ * vmag r)) by (apply Rmult_le_pos; [apply Rabs_pos|apply mag_nonneg]).
      destruct (Req_dec (vmag r) 0) as [E0|E0].
      * rewrite E0. rewrite Rmult_0_r. apply Rabs_pos.
      * match goal with |- Rabs ?A * _ <= _ => replace (Rabs A * vmag r) with (Rabs (A * vmag r)) by
          (rewrite Rabs_mult, (Rabs_pos_eq (vmag r)); [reflexivity|apply mag_nonneg]) end.
        apply Req_le. f_equal. unfold Rdiv. rewrite Rinv_mult. set (Q := q (vmag r)). set (X := / (vmag r - d)). field. assumption.
    + cbv beta. rewrite Hq. field. assumption.
Qed.
Lemma wca_is_wcad : forall epsilon sigma r, 0 <= sigma ->
  wca_potential epsilon sigma r = wcad_potential epsilon sigma 0 r /\ wca_force epsilon sigma r = wcad_force epsilon sigma 0 r.
Proof.
  intros e s r Hs. pose proof (wca_below s (vmag r) Hs (mag_nonneg r)) as E. rewrite mag_sqr in E.
  unfold wca_potential, wca_force, wcad_potential, wcad_force. change (sqrt (vmag2 r)) with (vmag r).
  rewrite Rminus_0_r, mag_sqr. unfold rleb.
  destruct (Rle_dec (cpow 2 (1 / 3) * (s * s)) (vmag2 r)) as [H|H], (Rle_dec (cpow 2 (1 / 6) * s) (vmag r)) as [H'|H'];
    try (split; reflexivity); exfalso; tauto.
Qed.
Lemma wca_fades : forall epsilon sigma, 0 < sigma ->
  fades_at (wca_potential epsilon sigma) (cpow 2 (1 / 6) * sigma) /\
  fades_at (fun r => length3 (wca_force epsilon sigma r)) (cpow 2 (1 / 6) * sigma).
Proof.
  intros e s Hs. destruct (wcad_fades e s 0 Hs ltac:(lra)) as [H H0]. rewrite Rplus_0_l in *.
  split; intros eps He.
  - destruct (H eps He) as (d & Hd & Hr). exists d. split; [assumption|]. intros r Hl.
    destruct (wca_is_wcad e s r ltac:(lra)) as [-> _]. auto.
  - destruct (H0 eps He) as (d & Hd & Hr). exists d. split; [assumption|]. intros r Hl.
    destruct (wca_is_wcad e s r ltac:(lra)) as [_ ->]. apply (Hr r Hl).
Qed.
Lemma lj_jump : forall o c sigma epsilon, 0 <= c -> fades_at (lj_potential o c sigma epsilon) c -> lj_formula epsilon sigma (c - o) = 0.
Proof.
  intros o c s e Hc H. destruct (Req_dec (lj_formula e s (c - o)) 0) as [E|E]; [assumption|]. exfalso.
  destruct (H (Rabs (lj_formula e s (c - o))) (Rabs_pos_lt _ E)) as (d & Hd & Hr).
  specialize (Hr (Vec c 0 0)).
  assert (L : vmag (Vec c 0 0) = c).
  { unfold vmag, vmag2, vdot. cbn. replace (c * c + 0 * 0 + 0 * 0) with (c * c) by ring. apply sqrt_square. assumption. }
  change (length3 (Vec c 0 0)) with (vmag (Vec c 0 0)) in Hr. unfold lj_potential in Hr. rewrite L in Hr.
  rewrite Rminus_eq_0, Rabs_R0 in Hr. specialize (Hr Hd). unfold rltb in Hr.
  destruct (Rlt_dec c c); [lra|]. unfold lj_formula in Hr. lra.
Qed.
Lemma lj_jump_witness : ~ fades_at (energy (LennardJones 0 2 1 1)) 2.
Proof.
  intros H. cbn [energy] in H. apply lj_jump in H; [|lra]. revert H. unfold lj_formula. lra.
Qed.

(** * The analysis *)
Lemma pylen_mag : forall r, pylen r = vmag r.
Proof. reflexivity. Qed.
Lemma fene_inside : forall r l0 Rm, 0 < Rm -> ((r - l0) / Rm * ((r - l0) / Rm) < 1 <-> Rabs (r - l0) < Rm).
Proof.
  intros r l0 Rm H. set (q := (r - l0) / Rm).
  assert (E : r - l0 = q * Rm) by (unfold q; field; lra). rewrite E, Rabs_mult, (Rabs_pos_eq Rm) by lra.
  assert (Q : q * q = Rabs q * Rabs q) by (rewrite <- Rabs_mult; symmetry; apply Rabs_pos_eq; nra).
  rewrite Q. pose proof (Rabs_pos q). split; intros; nra.
Qed.
Lemma py_length_of : forall p r a, argument_for p r a -> match p with Magnetic _ _ => True | _ => py_length a = Ok (vmag r) end.
Proof.
  intros p r a [->|[-> H]].
  - destruct p; try exact I; reflexivity.
  - assert (py_length (Number (length3 r)) = Ok (vmag r)).
    { cbn [py_length]. unfold rltb. change (length3 r) with (vmag r). pose proof (mag_nonneg r).
      destruct (Rlt_dec _ _); [lra|reflexivity]. }
    destruct p; try assumption. exact I.
Qed.
Lemma analysis_agrees : forall p r a, accepted p -> argument_for p r a -> inside p r -> py_potential p a = Ok (energy p r).
Proof.
  intros p r a H Ha Hi. pose proof (py_length_of p r a Ha) as L.
  destruct p; cbn [accepted inside] in H, Hi; try contradiction; cbn [py_potential energy].
  - change (length3 r) with (vmag r) in Hi.
    unfold py_fene_init, rleb. destruct (Rle_dec _ _); [lra|]. cbn [bind].
    unfold py_fene_potential. rewrite L. cbn [bind]. unfold rleb.
    pose proof (fene_inside (vmag r) l0 Rm H) as E.
    destruct (Rle_dec _ _) as [X|X]; [exfalso; apply E in Hi; lra|]. reflexivity.
  - destruct H as (H & H0 & H1). change (length3 r) with (vmag r) in Hi.
    unfold py_wcad_init, rltb.
    destruct (Rlt_dec epsilon 0); [lra|]. destruct (Rlt_dec sigma 0); [lra|]. destruct (Rlt_dec d 0); [lra|].
    cbn [bind]. unfold py_wcad_potential. rewrite L. cbn [bind].
    unfold wcad_potential. change (sqrt (vmag2 r)) with (vmag r).
    unfold rleb at 1. destruct (Rle_dec (vmag r) d); [lra|]. destruct (rleb _ _); reflexivity.
  - destruct H as (H & H0). destruct Ha as [->|[_ []]].
    unfold py_mag_init, rltb. destruct (Rlt_dec _ _); [lra|].
    unfold unit3 in H0. change (dot3 orientation orientation) with (pylen2 orientation) in H0.
    destruct (Req_EM_T _ _); [|contradiction]. cbn [bind py_mag_potential].
    destruct (Req_EM_T _ _) as [X|X]; [|reflexivity].
    exfalso. pose proof (mag2_pos r Hi). unfold pylen2, pydot in X. unfold vmag2, vdot in H1. lra.
Qed.
Lemma analysis_outside : forall p r a, in_analysis p -> argument_for p r a -> ~ (accepted p /\ inside p r) ->
  py_potential p a = Err ValueError.
Proof.
  intros p r a H Ha Hi. pose proof (py_length_of p r a Ha) as L.
  destruct p; cbn [accepted inside in_analysis] in H, Hi; try contradiction; cbn [py_potential].
  - change (length3 r) with (vmag r) in Hi.
    unfold py_fene_init, rleb. destruct (Rle_dec _ _); [reflexivity|]. cbn [bind].
    unfold py_fene_potential. rewrite L. cbn [bind]. unfold rleb.
    pose proof (fene_inside (vmag r) l0 Rm ltac:(lra)) as E.
    destruct (Rle_dec _ _) as [X|X]; [reflexivity|]. exfalso. apply Hi. split; [lra|]. apply E. lra.
  - change (length3 r) with (vmag r) in Hi.
    unfold py_wcad_init, rltb.
    destruct (Rlt_dec epsilon 0); [reflexivity|]. destruct (Rlt_dec sigma 0); [reflexivity|]. destruct (Rlt_dec d 0); [reflexivity|].
    cbn [bind]. unfold py_wcad_potential. rewrite L. cbn [bind].
    unfold rleb at 1. destruct (Rle_dec (vmag r) d); [reflexivity|]. exfalso. apply Hi. lra.
  - destruct Ha as [->|[_ []]].
    unfold py_mag_init, rltb. destruct (Rlt_dec _ _); [reflexivity|].
    destruct (Req_EM_T _ _) as [Y|Y]; [|reflexivity]. cbn [bind py_mag_potential].
    destruct (Req_EM_T _ _) as [X|X]; [reflexivity|].
    exfalso. apply Hi. split; [split; [lra|exact Y]|]. intros ->. apply X. unfold pylen2, pydot, zero3. cbn. ring.
Qed.
Lemma unit_mag : vmag (Vec 1 0 0) = 1.
Proof. unfold vmag, vmag2, vdot. cbn. replace (1 * 1 + 0 * 0 + 0 * 0) with 1 by ring. apply sqrt_1. Qed.
