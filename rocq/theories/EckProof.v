(** Proofs about Eckart systems. *)
From Coq Require Import List Arith Bool Reals Lra Lia Psatz.
From Verif Require Import PyBase VecBase VecModel VecSpec VecProof PartModel PartSpec PartProof PartShapeProof EckModel EckSpec.
Import ListNotations.
Open Scope R_scope.

(** * Matrices *)

Ltac mdestruct := repeat match goal with M : mat |- _ =>
  let a := fresh "x" in let b := fresh "x" in let c := fresh "x" in let d := fresh "x" in let e := fresh "x" in
  let f := fresh "x" in let g := fresh "x" in let h := fresh "x" in let i := fresh "x" in
  destruct M as [a b c d e f g h i] end.
Lemma mat_ext a b c d e f g h i a' b' c' d' e' f' g' h' i' :
  a = a' -> b = b' -> c = c' -> d = d' -> e = e' -> f = f' -> g = g' -> h = h' -> i = i' ->
  Mat a b c d e f g h i = Mat a' b' c' d' e' f' g' h' i'.
Proof. intros; subst; reflexivity. Qed.
Ltac mred := unfold mmul, madd, msub, mscale, mident, mapply, outer in *;
  cbn [m00 m01 m02 m10 m11 m12 m20 m21 m22 vx vy vz] in *.
Lemma mmul_assoc A B C : mmul A (mmul B C) = mmul (mmul A B) C.
Proof. mdestruct. mred. apply mat_ext; ring. Qed.
Lemma mmul_apply A B v : mapply (mmul A B) v = mapply A (mapply B v).
Proof. mdestruct. destruct v. mred. apply vec_ext; ring. Qed.
Lemma mident_apply v : mapply mident v = v.
Proof. destruct v. mred. apply vec_ext; ring. Qed.
Lemma mident_l A : mmul mident A = A.
Proof. mdestruct. mred. apply mat_ext; ring. Qed.
Lemma mident_r A : mmul A mident = A.
Proof. mdestruct. mred. apply mat_ext; ring. Qed.
Definition mtr (A : mat) : mat := Mat (m00 A) (m10 A) (m20 A) (m01 A) (m11 A) (m21 A) (m02 A) (m12 A) (m22 A).
Lemma mtr_mul A B : mtr (mmul A B) = mmul (mtr B) (mtr A).
Proof. mdestruct. unfold mtr. mred. apply mat_ext; ring. Qed.
Lemma mtr_ident : mtr mident = mident.
Proof. reflexivity. Qed.
Lemma mat_apply_ext A B : (forall v, mapply A v = mapply B v) -> A = B.
Proof.
  intros H. assert (H1 := H ex). assert (H2 := H ey). assert (H3 := H ez).
  mdestruct. unfold ex, ey, ez in *. mred. apply vec_inj in H1, H2, H3.
  destruct H1 as (? & ? & ?), H2 as (? & ? & ?), H3 as (? & ? & ?). apply mat_ext; lra.
Qed.
Lemma mtr_dot A u v : dot3 u (mapply A v) = dot3 (mapply (mtr A) u) v.
Proof. mdestruct. destruct u, v. unfold mtr, dot3. mred. ring. Qed.
Lemma sym_of_adjoint A : (forall u v, dot3 u (mapply A v) = dot3 (mapply A u) v) -> mtr A = A.
Proof.
  intros H.
  assert (H1 := H ex ey). assert (H2 := H ex ez). assert (H3 := H ey ez).
  mdestruct. unfold mtr, ex, ey, ez, dot3 in *. mred. apply mat_ext; lra.
Qed.
Definition trace (A : mat) : R := m00 A + m11 A + m22 A.
Lemma trace_cyclic A B C : trace (mmul A (mmul B C)) = trace (mmul B (mmul C A)).
Proof. mdestruct. unfold trace. mred. ring. Qed.
Lemma trace_madd A B : trace (madd A B) = trace A + trace B.
Proof. mdestruct. unfold trace. mred. ring. Qed.
Lemma trace_sandwich D X : mtr D = D ->
  trace (mmul D (mmul X D)) =
  dot3 (mapply D ex) (mapply X (mapply D ex)) + dot3 (mapply D ey) (mapply X (mapply D ey))
  + dot3 (mapply D ez) (mapply X (mapply D ez)).
Proof.
  intros H. destruct D as [a b c d e f g h i]. unfold mtr in H; cbn in H. injection H as -> -> _ -> _ _.
  mdestruct. unfold trace, ex, ey, ez, dot3. mred. ring.
Qed.
Definition pd (X : mat) := forall v, v <> zero3 -> 0 < dot3 v (mapply X v).
Lemma pd_nonneg X v : pd X -> 0 <= dot3 v (mapply X v).
Proof.
  intros H. destruct (vec_eq_dec v zero3) as [->|N]; [|left; apply H, N].
  right. destruct (mapply X zero3). vunfold. ring.
Qed.
Lemma pd_zero X v : pd X -> dot3 v (mapply X v) = 0 -> v = zero3.
Proof. intros H E. destruct (vec_eq_dec v zero3) as [|N]; [assumption|]. apply H in N. lra. Qed.
Lemma sqrt_unique X Y : mtr X = X -> mtr Y = Y -> pd X -> pd Y -> mmul X X = mmul Y Y -> X = Y.
Proof.
  intros SX SY PX PY E. set (D := msub X Y).
  assert (SD : mtr D = D).
  { unfold D. transitivity (msub (mtr X) (mtr Y)); [mdestruct; unfold mtr; mred; apply mat_ext; ring|].
    rewrite SX, SY. reflexivity. }
  assert (Z : madd (mmul X D) (mmul D Y) = mzero).
  { transitivity (msub (mmul X X) (mmul Y Y)).
    - unfold D. clear. mdestruct. mred. apply mat_ext; ring.
    - rewrite E. generalize (mmul Y Y). intros M. mdestruct. mred. unfold mzero. apply mat_ext; ring. }
  assert (T : trace (mmul D (mmul X D)) + trace (mmul D (mmul Y D)) = 0).
  { rewrite <- (trace_cyclic D D Y).
    rewrite <- trace_madd.
    replace (madd (mmul D (mmul X D)) (mmul D (mmul D Y))) with (mmul D (madd (mmul X D) (mmul D Y))).
    - rewrite Z. clear. generalize D. intros M. mdestruct. unfold trace, mzero. mred. ring.
    - generalize (mmul X D) (mmul D Y). clear. intros A B. generalize D. intros M. mdestruct. mred. apply mat_ext; ring. }
  rewrite !trace_sandwich in T by exact SD.
  assert (A1 := pd_nonneg X (mapply D ex) PX). assert (A2 := pd_nonneg X (mapply D ey) PX). assert (A3 := pd_nonneg X (mapply D ez) PX).
  assert (B1 := pd_nonneg Y (mapply D ex) PY). assert (B2 := pd_nonneg Y (mapply D ey) PY). assert (B3 := pd_nonneg Y (mapply D ez) PY).
  assert (Z1 : mapply D ex = zero3) by (apply (pd_zero X); [exact PX|lra]).
  assert (Z2 : mapply D ey = zero3) by (apply (pd_zero X); [exact PX|lra]).
  assert (Z3 : mapply D ez = zero3) by (apply (pd_zero X); [exact PX|lra]).
  clear - Z1 Z2 Z3. unfold D in *. clear D. mdestruct. unfold ex, ey, ez, zero3 in *. mred.
  apply vec_inj in Z1, Z2, Z3. destruct Z1 as (? & ? & ?), Z2 as (? & ? & ?), Z3 as (? & ? & ?). apply mat_ext; lra.
Qed.
Lemma root_inverts K X : mtr K = K -> pd K -> mtr X = X -> pd X ->
  mmul (mmul X X) (mmul K K) = mident -> mmul K X = mident.
Proof.
  intros SK PK SX PX E.
  assert (E' : mmul (mmul K K) (mmul X X) = mident).
  { assert (T := f_equal mtr E). rewrite !mtr_mul, SK, SX, mtr_ident in T. exact T. }
  set (Y := mmul K (mmul X X)).
  assert (KY : mmul K Y = mident) by (unfold Y; rewrite mmul_assoc; exact E').
  assert (YX : Y = mmul (mmul X X) K).
  { rewrite <- (mident_r (mmul (mmul X X) K)), <- KY. rewrite mmul_assoc, <- (mmul_assoc (mmul X X) K K), E, mident_l. reflexivity. }
  assert (SY : mtr Y = Y).
  { rewrite YX at 1. rewrite !mtr_mul, SK, SX. reflexivity. }
  assert (YK : mmul Y K = mident) by (rewrite YX, <- mmul_assoc; exact E).
  assert (YY : mmul X X = mmul Y Y).
  { rewrite YX at 1. unfold Y. rewrite <- mmul_assoc, (mmul_assoc K K), E', mident_r. reflexivity. }
  assert (PY : pd Y).
  { intros v N.
    assert (Eq : v = mapply K (mapply Y v)) by (rewrite <- mmul_apply, KY, mident_apply; reflexivity).
    rewrite Eq at 1. assert (NY : mapply Y v <> zero3).
    { intros Z. apply N. rewrite Eq, Z. clear. unfold zero3. mdestruct. mred. apply vec_ext; ring. }
    rewrite dot_comm. apply PK, NY. }
  rewrite (sqrt_unique X Y SX SY PX PY YY). exact KY.
Qed.

(** * Eckart vectors *)

(** The second moments of points. *)
Definition moments (m : R) (l : list vec) : mat :=
  fold_right (fun a M => madd (mscale (outer a a) m) M) mzero l.
Lemma moments_sym m l : mtr (moments m l) = moments m l.
Proof.
  induction l as [|a l IH]; [reflexivity|]. cbn [moments fold_right]. fold (moments m l).
  rewrite <- IH at 2. generalize (moments m l). intros M. destruct a. mdestruct. unfold mtr. mred. apply mat_ext; ring.
Qed.
Lemma moments_form m l v : dot3 v (mapply (moments m l) v) = m * rsum (map (fun a => dot3 a v * dot3 a v) l).
Proof.
  induction l as [|a l IH].
  - cbn. unfold mapply, mzero, dot3; cbn. ring.
  - cbn [moments fold_right map rsum]. fold (moments m l). rewrite Rmult_plus_distr_l, <- IH.
    generalize (moments m l). intros M. destruct a, v. mdestruct. unfold dot3. mred. ring.
Qed.
(** Weighted sum of points, with the weights given by the coordinates of others. *)
Definition F_sum (m : R) (i : nat) (rs as_ : list vec) : vec :=
  vsum (map (fun ra => times3 (m * coord i (snd ra)) (fst ra)) (combine rs as_)).
Lemma eckart_loop_spec inst ref m : uniformMass inst = Some m -> uniformMass ref = Some m ->
  forall rs as_ F0 F1 F2, length rs = length as_ ->
  eckart_loop inst ref (F0, F1, F2) rs as_ =
  Ok (plus3 F0 (F_sum m 0 rs as_), plus3 F1 (F_sum m 1 rs as_), plus3 F2 (F_sum m 2 rs as_)).
Proof.
  intros H1 H2. induction rs as [|r rs IH]; intros [|a as_] F0 F1 F2 L; try discriminate L.
  - cbn. unfold F_sum; cbn. destruct F0, F1, F2. do 2 f_equal; [f_equal|]; vring.
  - cbn [eckart_loop]. unfold get_mass. rewrite H1, H2. cbn [bind].
    destruct (Req_EM_T m m) as [_|K]; [|congruence].
    rewrite IH by (cbn in L; congruence). unfold F_sum. cbn [combine map vsum fst snd].
    destruct F0, F1, F2, r, a.
    destruct (vsum (map (fun ra => times3 (m * coord 0 (snd ra)) (fst ra)) (combine rs as_))).
    destruct (vsum (map (fun ra => times3 (m * coord 1 (snd ra)) (fst ra)) (combine rs as_))).
    destruct (vsum (map (fun ra => times3 (m * coord 2 (snd ra)) (fst ra)) (combine rs as_))).
    unfold comp, coord. do 2 f_equal; [f_equal|]; vring.
Qed.
Lemma f_zero f : linear3 f -> f zero3 = zero3.
Proof. apply linear_zero. Qed.
Lemma F_sum_rigid m f t i l : linear3 f ->
  F_sum m i (map (fun x => plus3 t (f x)) l) l =
  plus3 (times3 (m * coord i (vsum l)) t) (f (vsum (map (fun a => times3 (m * coord i a) a) l))).
Proof.
  intros L. assert (L' := L). destruct L' as (A & M). induction l as [|a l IH].
  - unfold F_sum. cbn [map combine vsum]. rewrite (f_zero f L). unfold zero3.
    replace (coord i (Vec 0 0 0)) with 0 by (destruct i as [|[|i]]; reflexivity). destruct t. vring.
  - unfold F_sum in *. cbn [map combine vsum fst snd]. rewrite IH, A, M. rewrite coord_plus.
    destruct t, (f a), (f (vsum (map (fun a0 => times3 (m * coord i a0) a0) l))). vring.
Qed.
Lemma moments_column m l i : (i < 3)%nat ->
  vsum (map (fun a => times3 (m * coord i a) a) l) = mapply (moments m l) (nth i [ex; ey; ez] zero3).
Proof.
  intros Hi. induction l as [|a l IH].
  - cbn. unfold mapply, mzero, zero3; cbn. apply vec_ext; ring.
  - cbn [map vsum moments fold_right]. fold (moments m l). rewrite IH.
    generalize (moments m l). intros M. destruct a. mdestruct.
    destruct i as [|[|[|i]]]; [| | |lia]; cbn [nth]; unfold ex, ey, ez, coord; mred; unfold times3, plus3; cbn; apply vec_ext; ring.
Qed.
Lemma gram_moments f K : (forall a b, dot3 (f a) (f b) = dot3 a b) -> mtr K = K ->
  gram (f (mapply K ex), f (mapply K ey), f (mapply K ez)) = mmul K K.
Proof.
  intros D SK. unfold gram. change pydot with dot3. rewrite !D.
  destruct K as [a b c d e g h i j]. unfold mtr in SK; cbn in SK. injection SK as -> -> _ -> _ _.
  unfold ex, ey, ez, dot3. mred. apply mat_ext; ring.
Qed.

(** * Rigid bodies *)

Lemma rigid_columns f v : linear3 f -> f v = plus3 (plus3 (times3 (vx v) (f ex)) (times3 (vy v) (f ey))) (times3 (vz v) (f ez)).
Proof.
  intros (A & M). rewrite <- !M, <- !A. f_equal. destruct v. unfold ex, ey, ez. vring.
Qed.
Lemma frame_rigid inv_sqrt ref inst m f t : uniformMass ref = Some m -> uniformMass inst = Some m -> 0 < m ->
  vsum (pos_values ref) = zero3 -> rigid f -> copy_of f t (pos_values ref) (pos_values inst) ->
  spatial (pos_values ref) ->
  (forall F, eckart_vectors ref inst = Ok F -> inverse_root (mapply (gram F)) (mapply (inv_sqrt (gram F)))) ->
  eckart_frame inv_sqrt ref inst = Ok (f ex, f ey, f ez).
Proof.
  intros Hr Hi M Z Rf C S O. assert (Rf' := Rf). destruct Rf' as (L & D & _).
  set (K := moments m (pos_values ref)). assert (SK : mtr K = K) by apply moments_sym.
  assert (PK : pd K).
  { intros v N. unfold K. rewrite moments_form. apply Rmult_lt_0_compat; [exact M|]. apply S, N. }
  assert (EV : eckart_vectors ref inst = Ok (f (mapply K ex), f (mapply K ey), f (mapply K ez))).
  { assert (LL : length (pos_values inst) = length (pos_values ref)) by (rewrite C, map_length; reflexivity).
    unfold eckart_vectors.
    assert (LP : length (positions inst) = length (positions ref)).
    { unfold pos_values in LL. rewrite !map_length in LL. exact LL. }
    rewrite LP, Nat.eqb_refl. rewrite (eckart_loop_spec inst ref m Hi Hr) by exact LL.
    rewrite C, !F_sum_rigid by exact L. rewrite Z.
    assert (K0 := moments_column m (pos_values ref) 0 ltac:(lia)). assert (K1 := moments_column m (pos_values ref) 1 ltac:(lia)).
    assert (K2 := moments_column m (pos_values ref) 2 ltac:(lia)). cbn [nth] in K0, K1, K2. fold K in K0, K1, K2.
    rewrite K0, K1, K2.
    unfold zero3, coord; cbn [vx vy vz].
    destruct t, (f (mapply K ex)), (f (mapply K ey)), (f (mapply K ez)).
    do 2 f_equal; [f_equal|]; vring. }
  specialize (O _ EV). unfold eckart_frame. rewrite EV. cbn [bind].
  rewrite (gram_moments f K D SK) in *. destruct O as (OA & OP & OI).
  set (X := inv_sqrt (mmul K K)) in *.
  assert (SX : mtr X = X) by (apply sym_of_adjoint; exact OA).
  assert (XX : mmul (mmul X X) (mmul K K) = mident).
  { apply mat_apply_ext. intros v. rewrite mident_apply, mmul_apply, mmul_apply. apply OI. }
  assert (KX := root_inverts K X SK PK SX OP XX).
  assert (COL : forall e, mapply (Mat (vx (f (mapply K ex))) (vx (f (mapply K ey))) (vx (f (mapply K ez)))
       (vy (f (mapply K ex))) (vy (f (mapply K ey))) (vy (f (mapply K ez)))
       (vz (f (mapply K ex))) (vz (f (mapply K ey))) (vz (f (mapply K ez)))) (mapply X e) = f e).
  { intros e. transitivity (f (mapply K (mapply X e))); [|rewrite <- mmul_apply, KX, mident_apply; reflexivity].
    generalize (mapply X e). intros v. 
    assert (LK : linear3 (fun u => f (mapply K u))).
    { destruct L as (A & Mu). split.
      - intros a b. rewrite <- A. f_equal. clear. destruct a, b. mdestruct. mred. unfold plus3; cbn. apply vec_ext; ring.
      - intros k a. rewrite <- Mu. f_equal. clear. destruct a. mdestruct. mred. unfold times3; cbn. apply vec_ext; ring. }
    rewrite (rigid_columns _ v LK). destruct v, (f (mapply K ex)), (f (mapply K ey)), (f (mapply K ez)).
    mred. vring. }
  assert (C0 := COL ex). assert (C1 := COL ey). assert (C2 := COL ez).
  rewrite <- C0, <- C1, <- C2. clear.
  destruct (f (mapply K ex)), (f (mapply K ey)), (f (mapply K ez)). generalize X. intros Y. mdestruct.
  unfold ex, ey, ez, comp. mred. do 2 f_equal; [f_equal|]; apply vec_ext; ring.
Qed.
Lemma equilibrium_rigid inv_sqrt ref inst f : rigid f ->
  eckart_frame inv_sqrt ref inst = Ok (f ex, f ey, f ez) ->
  equilibrium inv_sqrt ref inst = Ok (map f (pos_values ref)).
Proof.
  intros (L & _) E. unfold equilibrium. rewrite E. cbn [bind]. f_equal. apply map_ext. intros a.
  rewrite (rigid_columns f a L). destruct a, (f ex), (f ey), (f ez). unfold comp. vring.
Qed.
Lemma copy_mean f t l : linear3 f -> l <> [] -> vsum l = zero3 -> mean (map (fun x => plus3 t (f x)) l) = t.
Proof.
  intros L N Z. assert (P := inr_length_pos _ l N).
  assert (E : vsum (map (fun x => plus3 t (f x)) l) = plus3 (times3 (INR (length l)) t) (f (vsum l))).
  { assert (L' := L). destruct L' as (A & _). clear - A L. induction l as [|x l IH].
    - cbn. rewrite (linear_zero f L). destruct t. vring.
    - cbn [map vsum length]. rewrite IH, A, S_INR. destruct t, (f x), (f (vsum l)). vring. }
  unfold mean. rewrite E, Z, (linear_zero f L), map_length. destruct t. vunfold. apply vec_ext; field; lra.
Qed.
Lemma cross_sum_zero w l : vsum l = zero3 -> vsum (map (cross3 w) l) = zero3.
Proof.
  intros Z. assert (E : vsum (map (cross3 w) l) = cross3 w (vsum l)).
  { clear. induction l as [|a l IH]; [cbn; unfold cross3, zero3; cbn; apply vec_ext; ring|].
    cbn [map vsum]. rewrite IH. destruct a, w, (vsum l). unfold cross3. vring. }
  rewrite E, Z. unfold cross3, zero3; cbn. apply vec_ext; ring.
Qed.
Lemma rigid_sum_zero f l : linear3 f -> vsum l = zero3 -> vsum (map f l) = zero3.
Proof.
  intros L Z. assert (E : vsum (map f l) = f (vsum l)).
  { assert (L' := L). destruct L' as (A & _). clear - A L. induction l as [|a l IH]; [cbn; symmetry; apply (linear_zero f L)|].
    cbn [map vsum]. rewrite IH, A. reflexivity. }
  rewrite E, Z. apply (linear_zero f L).
Qed.
Lemma eckart_inertia_fold m t w l : forall M,
  mapply (fold_left (eckart_inertia_step m t) (combine (map (plus3 t) l) l) M) w =
  plus3 (mapply M w) (times3 m (vsum (map (fun c => cross3 c (cross3 w c)) l))).
Proof.
  induction l as [|c l IH]; intros M.
  - cbn. destruct (mapply M w). vring.
  - cbn [map combine fold_left vsum]. rewrite IH. unfold eckart_inertia_step. cbn [fst snd].
    generalize (vsum (map (fun c0 => cross3 c0 (cross3 w c0)) l)). intros s.
    destruct c, w, t, s. mdestruct. change pydot with dot3. change pysub with minus3. mred. unfold cross3. vring.
Qed.
Lemma eckart_rhs_fold m u w l : forall r,
  fold_left (eckart_rhs_step m u) (combine (map (fun c => plus3 u (cross3 w c)) l) l) r =
  plus3 r (times3 m (vsum (map (fun c => cross3 c (cross3 w c)) l))).
Proof.
  induction l as [|c l IH]; intros r.
  - cbn. destruct r. vring.
  - cbn [map combine fold_left vsum]. rewrite IH. unfold eckart_rhs_step. cbn [fst snd].
    generalize (vsum (map (fun c0 => cross3 c0 (cross3 w c0)) l)). intros s.
    destruct c, w, u, s, r. unfold cross3. vring.
Qed.
Lemma velocity_rigid inv_sqrt inv ref inst m f t u w : uniformMass inst = Some m -> 0 < m ->
  pos_values ref <> [] -> vsum (pos_values ref) = zero3 -> rigid f -> copy_of f t (pos_values ref) (pos_values inst) ->
  eckart_frame inv_sqrt ref inst = Ok (f ex, f ey, f ez) ->
  moving u w (pos_values inst) (vel_values inst) ->
  exists J, eckart_inertia inst (map f (pos_values ref)) = Ok J /\
    ((forall v, mapply (inv J) (mapply J v) = v) -> eckart_velocity inv_sqrt inv ref inst = Ok w).
Proof.
  intros Hi M N Z Rf C E V. assert (Rf' := Rf). destruct Rf' as (L & _).
  set (l := map f (pos_values ref)).
  assert (Zl : vsum l = zero3) by (apply rigid_sum_zero; assumption).
  assert (Pi : pos_values inst = map (plus3 t) l) by (unfold l; rewrite map_map; exact C).
  assert (Mi : mean (pos_values inst) = t) by (rewrite C; apply copy_mean; assumption).
  assert (Ni : positions inst <> []).
  { apply values_nonempty_pos. rewrite C. apply map_nonempty, N. }
  assert (Vi : vel_values inst = map (fun c => plus3 u (cross3 w c)) l).
  { rewrite V, Mi, Pi, map_map. apply map_ext. intros c. do 2 f_equal. destruct t, c. vring. }
  assert (Nl : l <> []) by (apply map_nonempty, N).
  assert (Nv : velocities inst <> []).
  { apply values_nonempty_vel. rewrite Vi. apply map_nonempty, Nl. }
  assert (Mv : mean (vel_values inst) = u).
  { rewrite Vi. apply (copy_mean (cross3 w) u l).
    - split; intros; [destruct a, b, w | destruct a, w]; unfold cross3; vring.
    - exact Nl.
    - exact Zl. }
  assert (Com := com_spec inst m Hi M Ni). assert (Comv := comv_spec inst m Hi M Ni Nv). rewrite Mi in Com. rewrite Mv in Comv.
  set (J := fold_left (eckart_inertia_step m t) (combine (pos_values inst) l) mzero).
  assert (EJ : eckart_inertia inst l = Ok J).
  { unfold eckart_inertia, get_mass. rewrite Com, Hi. reflexivity. }
  exists J. split; [exact EJ|]. intros I.
  unfold eckart_velocity. rewrite (equilibrium_rigid inv_sqrt ref inst f Rf E). cbn [bind]. fold l. rewrite EJ, Comv. cbn [bind].
  unfold get_mass. rewrite Hi. cbn [bind]. f_equal.
  rewrite Vi, eckart_rhs_fold.
  assert (JW : mapply J w = times3 m (vsum (map (fun c => cross3 c (cross3 w c)) l))).
  { unfold J. rewrite Pi, eckart_inertia_fold. 
    replace (mapply mzero w) with zero3 by (unfold mapply, zero3, mzero; cbn; apply vec_ext; ring).
    generalize (times3 m (vsum (map (fun c => cross3 c (cross3 w c)) l))). intros s. destruct s. vring. }
  transitivity (mapply (inv J) (mapply J w)); [|apply I]. f_equal. rewrite <- JW. destruct (mapply J w). vring.
Qed.

(** * Summaries *)

Lemma vsum_centered l : l <> [] -> vsum (map (fun v => minus3 v (mean l)) l) = zero3.
Proof.
  intros N. assert (P := inr_length_pos _ l N).
  assert (E := mean_shift l (mean l) N). rewrite minus_self in E. unfold mean at 1 in E.
  rewrite map_length in E. revert E. generalize (vsum (map (fun v => minus3 v (mean l)) l)). intros [x y z]. unfold times3, zero3; cbn.
  intros E. apply vec_inj in E. destruct E as (A & B & C).
  assert (I : / INR (length l) <> 0) by (apply Rinv_neq_0_compat; lra).
  apply Rmult_integral in A, B, C. destruct A, B, C; try contradiction. subst. reflexivity.
Qed.
Lemma eckart_rigid : forall inv_sqrt inv reference ref inst m f t,
  uniformMass reference = Some m -> uniformMass inst = Some m -> 0 < m ->
  positions reference <> [] ->
  eckart_new reference = Ok ref ->
  rigid f -> copy_of f t (pos_values reference) (pos_values inst) ->
  spatial (pos_values ref) ->
  (forall F, eckart_vectors ref inst = Ok F -> inverse_root (mapply (gram F)) (mapply (inv_sqrt (gram F)))) ->
  same_differences (pos_values reference) (pos_values ref) /\
  eckart_frame inv_sqrt ref inst = Ok (f ex, f ey, f ez) /\
  equilibrium inv_sqrt ref inst = Ok (map f (pos_values ref)) /\
  (forall u w, moving u w (pos_values inst) (vel_values inst) ->
   exists J, eckart_inertia inst (map f (pos_values ref)) = Ok J /\
     ((forall v, mapply (inv J) (mapply J v) = v) -> eckart_velocity inv_sqrt inv ref inst = Ok w)).
Proof.
  intros inv_sqrt inv reference ref inst m f t H0 Hi M N E Rf C S O.
  assert (V0 : velocities reference <> []).
  { intros K. unfold eckart_new in E. rewrite H0 in E.
    assert (E' : shift reference = Ok ref) by (destruct (positions reference); exact E).
    destruct (shift_fails reference) as (_ & _ & _ & F). rewrite (F N (ex_intro _ m (conj H0 M)) K) in E'. discriminate E'. }
  destruct (shift_spec reference m H0 M N V0) as (ref' & E' & Hr & _ & P & _).
  assert (ref' = ref).
  { unfold eckart_new in E. rewrite H0 in E. destruct (positions reference); congruence. }
  subst ref'.
  assert (Nr : pos_values reference <> []) by (apply pos_values_nonempty, N).
  assert (Z : vsum (pos_values ref) = zero3) by (rewrite P; apply vsum_centered, Nr).
  assert (Nr' : pos_values ref <> []) by (rewrite P; apply map_nonempty, Nr).
  assert (L : linear3 f) by apply Rf.
  assert (C' : copy_of f (plus3 t (f (mean (pos_values reference)))) (pos_values ref) (pos_values inst)).
  { unfold copy_of. rewrite C, P, map_map. apply map_ext. intros a.
    replace (f (minus3 a (mean (pos_values reference)))) with (minus3 (f a) (f (mean (pos_values reference)))).
    - destruct t, (f a), (f (mean (pos_values reference))). vring.
    - destruct L as (A & Mu). replace (minus3 a (mean (pos_values reference))) with (plus3 a (times3 (-1) (mean (pos_values reference)))).
      + rewrite A, Mu. destruct (f a), (f (mean (pos_values reference))). vring.
      + destruct a, (mean (pos_values reference)). vring. }
  split; [rewrite P; apply same_differences_shift|].
  assert (FR := frame_rigid inv_sqrt ref inst m f _ Hr Hi M Z Rf C' S O).
  split; [exact FR|]. split; [apply equilibrium_rigid; assumption|].
  intros u w V. exact (velocity_rigid inv_sqrt inv ref inst m f _ u w Hi M Nr' Z Rf C' FR V).
Qed.
Lemma eckart_new_fails : forall reference,
  (positions reference = [] -> eckart_new reference = Err RuntimeError) /\
  (positions reference <> [] -> uniformMass reference = None -> eckart_new reference = Err ValueError) /\
  (positions reference <> [] -> (exists m, uniformMass reference = Some m /\ 0 < m) -> velocities reference = [] ->
   eckart_new reference = Err ValueError).
Proof.
  intros r. destruct (shift_fails r) as (A & B & _ & D). split; [|split].
  - intros H. unfold eckart_new. rewrite H. apply A, H.
  - intros H K. unfold eckart_new. rewrite K. destruct (positions r); [congruence|reflexivity].
  - intros H K V. unfold eckart_new. destruct (positions r) eqn:E; [congruence|]. assert (K' := K). destruct K' as (m & -> & _).
    apply D; assumption.
Qed.

(** * Deformed bodies *)
Definition columns (F : vec * vec * vec) : mat :=
  let '(F0, F1, F2) := F in Mat (vx F0) (vx F1) (vx F2) (vy F0) (vy F1) (vy F2) (vz F0) (vz F1) (vz F2).
Lemma gram_columns F : gram F = mmul (mtr (columns F)) (columns F).
Proof. destruct F as [[[x y z] [x' y' z']] [x'' y'' z'']]. unfold gram, columns, mtr, pydot. mred. apply mat_ext; ring. Qed.
Lemma root_frame A X : mtr X = X -> (forall v, mapply X (mapply X (mapply (mmul (mtr A) A) v)) = v) ->
  mmul (mtr (mmul A X)) (mmul A X) = mident.
Proof.
  intros SX H. set (G := mmul (mtr A) A) in *.
  assert (SG : mtr G = G) by (unfold G; clear; mdestruct; unfold mtr; mred; apply mat_ext; ring).
  assert (E : mmul X (mmul X G) = mident).
  { apply mat_apply_ext. intros v. rewrite !mmul_apply, mident_apply. apply H. }
  assert (E' : mmul (mmul G X) X = mident).
  { assert (T := f_equal mtr E). rewrite !mtr_mul, SX, SG, mtr_ident in T. exact T. }
  assert (C : mmul G X = mmul X G).
  { rewrite <- (mident_r (mmul G X)), <- E, (mmul_assoc (mmul G X) X), E', mident_l. reflexivity. }
  transitivity (mmul (mmul X G) X); [|rewrite <- C; exact E'].
  rewrite mtr_mul, SX. unfold G. rewrite !mmul_assoc. reflexivity.
Qed.
Definition axial (M : mat) : vec := Vec (m21 M - m12 M) (m02 M - m20 M) (m10 M - m01 M).
Lemma moment_axial m Q : forall rs as_, length rs = length as_ ->
  times3 m (moment (map (mapply Q) as_) rs) = axial (mmul (columns (F_sum m 0 rs as_, F_sum m 1 rs as_, F_sum m 2 rs as_)) (mtr Q)).
Proof.
  induction rs as [|r rs IH]; intros [|a as_] L; try discriminate L.
  - unfold moment, F_sum, axial, columns, mtr. cbn. mred. unfold times3, zero3. cbn. apply vec_ext; ring.
  - cbn in L. unfold moment in *. cbn [map combine vsum fst snd].
    transitivity (plus3 (times3 m (cross3 (mapply Q a) r)) (times3 m (vsum (map (fun cd => cross3 (fst cd) (snd cd)) (combine (map (mapply Q) as_) rs))))); [vring|].
    rewrite IH by congruence. unfold F_sum. cbn [combine map vsum fst snd].
    generalize (vsum (map (fun ra => times3 (m * coord 0 (snd ra)) (fst ra)) (combine rs as_))).
    generalize (vsum (map (fun ra => times3 (m * coord 1 (snd ra)) (fst ra)) (combine rs as_))).
    generalize (vsum (map (fun ra => times3 (m * coord 2 (snd ra)) (fst ra)) (combine rs as_))).
    intros [x y z] [x' y' z'] [x'' y'' z'']. destruct r, a. mdestruct. unfold axial, columns, mtr, coord, cross3, plus3, times3. mred. apply vec_ext; ring.
Qed.
Lemma axial_sym M : mtr M = M -> axial M = zero3.
Proof. intros H. destruct M as [a b c d e f g h i]. unfold mtr in H. cbn in H. injection H as -> -> _ -> _ _. unfold axial, zero3. cbn. apply vec_ext; ring. Qed.
Lemma moment_minus t : forall cs ds, length cs = length ds ->
  moment cs (map (fun r => minus3 r t) ds) = minus3 (moment cs ds) (cross3 (vsum cs) t).
Proof.
  unfold moment. induction cs as [|c cs IH]; intros [|d ds] L; try discriminate L.
  - cbn. unfold cross3, minus3, zero3. cbn. apply vec_ext; ring.
  - cbn [map combine vsum fst snd]. rewrite IH by (cbn in L; congruence).
    generalize (vsum cs) (vsum (map (fun cd => cross3 (fst cd) (snd cd)) (combine cs ds))). intros [x y z] [x' y' z'].
    destruct c, d, t. unfold cross3. vring.
Qed.
Lemma vsum_mapply Q l : vsum (map (mapply Q) l) = mapply Q (vsum l).
Proof.
  induction l as [|a l IH].
  - cbn. unfold mapply, zero3. cbn. apply vec_ext; ring.
  - cbn [map vsum]. rewrite IH. generalize (vsum l). intros [x y z]. destruct a. mdestruct. mred. unfold plus3. cbn. apply vec_ext; ring.
Qed.
Lemma mapply_zero Q : mapply Q zero3 = zero3.
Proof. unfold mapply, zero3. cbn. apply vec_ext; ring. Qed.
Lemma frame_general inv_sqrt ref inst m : uniformMass ref = Some m -> uniformMass inst = Some m -> 0 < m ->
  length (positions inst) = length (positions ref) -> vsum (pos_values ref) = zero3 ->
  (forall F, eckart_vectors ref inst = Ok F -> inverse_root (mapply (gram F)) (mapply (inv_sqrt (gram F)))) ->
  exists fr cs, eckart_frame inv_sqrt ref inst = Ok fr /\ orthonormal fr /\
    cs = map (fun a => let '(f0, f1, f2) := fr in plus3 (plus3 (times3 (vx a) f0) (times3 (vy a) f1)) (times3 (vz a) f2)) (pos_values ref) /\
    equilibrium inv_sqrt ref inst = Ok cs /\ moment cs (centered (pos_values inst)) = zero3.
Proof.
  intros Hr Hi M L Z O.
  assert (LL : length (pos_values inst) = length (pos_values ref)) by (unfold pos_values; rewrite !map_length; exact L).
  set (F := (F_sum m 0 (pos_values inst) (pos_values ref), F_sum m 1 (pos_values inst) (pos_values ref), F_sum m 2 (pos_values inst) (pos_values ref))).
  assert (EV : eckart_vectors ref inst = Ok F).
  { unfold eckart_vectors. rewrite L, Nat.eqb_refl. rewrite (eckart_loop_spec inst ref m Hi Hr) by exact LL.
    unfold F. generalize (F_sum m 0 (pos_values inst) (pos_values ref)) (F_sum m 1 (pos_values inst) (pos_values ref)) (F_sum m 2 (pos_values inst) (pos_values ref)).
    intros [x y z] [x' y' z'] [x'' y'' z'']. do 2 f_equal; [f_equal|]; vring. }
  specialize (O F EV). destruct O as (OA & _ & OI).
  set (X := inv_sqrt (gram F)) in *. set (A := columns F).
  assert (SX : mtr X = X) by (apply sym_of_adjoint; exact OA). rewrite gram_columns in OI. fold A in OI.
  pose proof (root_frame A X SX OI) as Q. set (res := mmul A X) in *.
  set (fr := (Vec (m00 res) (m10 res) (m20 res), Vec (m01 res) (m11 res) (m21 res), Vec (m02 res) (m12 res) (m22 res))).
  exists fr. eexists.
  assert (EF : eckart_frame inv_sqrt ref inst = Ok fr) by (unfold eckart_frame; rewrite EV; reflexivity).
  split; [exact EF|]. split; [|split; [reflexivity|split]].
  - unfold orthonormal, fr. revert Q. unfold mtr, mmul, mident, dot3. cbn. intros Q. injection Q. intros. repeat split; lra.
  - unfold equilibrium. rewrite EF. cbn [bind]. unfold fr. cbv iota beta. apply (f_equal Ok). apply map_ext. intros a. destruct a. unfold comp. vring.
  - assert (E : map (fun a => let '(f0, f1, f2) := fr in plus3 (plus3 (times3 (vx a) f0) (times3 (vy a) f1)) (times3 (vz a) f2)) (pos_values ref) = map (mapply res) (pos_values ref)).
    { apply map_ext. intros a. unfold fr. destruct a. mred. unfold plus3, times3. cbn. apply vec_ext; ring. }
    rewrite E. unfold centered. rewrite moment_minus by (rewrite map_length; symmetry; exact LL).
    rewrite vsum_mapply, Z, mapply_zero.
    assert (T := moment_axial m res _ _ LL). fold F A in T. unfold res in T. rewrite mtr_mul, SX in T.
    rewrite axial_sym in T by (rewrite !mtr_mul, SX; change (mtr (mtr A)) with (mtr (mtr A)); replace (mtr (mtr A)) with A by (clear; mdestruct; reflexivity); rewrite !mmul_assoc; reflexivity).
    fold res in T. revert T. generalize (moment (map (mapply res) (pos_values ref)) (pos_values inst)). intros [x y z] T.
    unfold times3, zero3 in T. cbn in T. apply vec_inj in T. destruct T as (T1 & T2 & T3).
    assert (x = 0) by (apply Rmult_integral in T1; lra). assert (y = 0) by (apply Rmult_integral in T2; lra). assert (z = 0) by (apply Rmult_integral in T3; lra).
    subst. unfold cross3, minus3, zero3. cbn. apply vec_ext; ring.
Qed.
Lemma inertia_fold_general m t w : forall rs cs M, length rs = length cs ->
  mapply (fold_left (eckart_inertia_step m t) (combine rs cs) M) w =
  plus3 (mapply M w) (times3 m (moment cs (map (fun r => cross3 w (minus3 r t)) rs))).
Proof.
  unfold moment. induction rs as [|r rs IH]; intros [|c cs] M L; try discriminate L.
  - cbn. destruct (mapply M w). vring.
  - cbn [map combine fold_left vsum fst snd]. rewrite IH by (cbn in L; congruence). unfold eckart_inertia_step. cbn [fst snd].
    generalize (vsum (map (fun cd => cross3 (fst cd) (snd cd)) (combine cs (map (fun r0 => cross3 w (minus3 r0 t)) rs)))). intros [x y z].
    destruct c, w, t, r. mdestruct. change pydot with dot3. change pysub with minus3. mred. unfold cross3. vring.
Qed.
Lemma rhs_fold_general m u : forall vs cs x, length vs = length cs ->
  fold_left (eckart_rhs_step m u) (combine vs cs) x = plus3 x (times3 m (moment cs (map (fun v => minus3 v u) vs))).
Proof.
  unfold moment. induction vs as [|v vs IH]; intros [|c cs] x L; try discriminate L.
  - cbn. destruct x. vring.
  - cbn [map combine fold_left vsum fst snd]. rewrite IH by (cbn in L; congruence). unfold eckart_rhs_step. cbn [fst snd].
    generalize (vsum (map (fun cd => cross3 (fst cd) (snd cd)) (combine cs (map (fun v0 => minus3 v0 u) vs)))). intros [x' y' z'].
    destruct c, u, v, x. unfold cross3. vring.
Qed.
Lemma moment_remaining w : forall cs rs vs, length rs = length cs -> length vs = length cs ->
  moment cs (map (fun rv => minus3 (snd rv) (cross3 w (fst rv))) (combine rs vs)) = minus3 (moment cs vs) (moment cs (map (cross3 w) rs)).
Proof.
  unfold moment. induction cs as [|c cs IH]; intros [|r rs] [|v vs] L L'; try discriminate L; try discriminate L'.
  - cbn. unfold minus3, zero3. cbn. apply vec_ext; ring.
  - cbn [map combine vsum fst snd]. rewrite IH by (cbn in L, L'; congruence).
    generalize (vsum (map (fun cd => cross3 (fst cd) (snd cd)) (combine cs vs))) (vsum (map (fun cd => cross3 (fst cd) (snd cd)) (combine cs (map (cross3 w) rs)))).
    intros [x y z] [x' y' z']. destruct c, w, r, v. unfold cross3. vring.
Qed.
Lemma velocity_general inv_sqrt inv ref inst m cs : uniformMass inst = Some m -> 0 < m ->
  positions inst <> [] -> length (vel_values inst) = length (pos_values inst) -> length cs = length (pos_values inst) ->
  equilibrium inv_sqrt ref inst = Ok cs ->
  exists J w, eckart_inertia inst cs = Ok J /\ eckart_velocity inv_sqrt inv ref inst = Ok w /\
    ((forall v, mapply J (mapply (inv J) v) = v) -> moment cs (remaining w (pos_values inst) (vel_values inst)) = zero3).
Proof.
  intros Hi M Np Lv Lc E.
  assert (Nv : velocities inst <> []).
  { intros K. unfold vel_values, pos_values in Lv. rewrite !map_length, K in Lv. destruct (positions inst); [congruence|discriminate Lv]. }
  assert (Com := com_spec inst m Hi M Np). assert (Comv := comv_spec inst m Hi M Np Nv).
  set (J := fold_left (eckart_inertia_step m (mean (pos_values inst))) (combine (pos_values inst) cs) mzero).
  set (rhs := fold_left (eckart_rhs_step m (mean (vel_values inst))) (combine (vel_values inst) cs) (Vec 0 0 0)).
  exists J, (mapply (inv J) rhs).
  assert (EJ : eckart_inertia inst cs = Ok J) by (unfold eckart_inertia, get_mass; rewrite Com, Hi; reflexivity).
  split; [exact EJ|]. split.
  - unfold eckart_velocity. rewrite E. cbn [bind]. rewrite EJ. cbn [bind]. rewrite Comv. unfold get_mass. rewrite Hi. reflexivity.
  - intros I. set (w := mapply (inv J) rhs). assert (K : mapply J w = rhs) by apply I.
    unfold J in K. rewrite inertia_fold_general in K by congruence.
    unfold rhs in K. rewrite rhs_fold_general in K by congruence.
    fold (centered (vel_values inst)) in K.
    unfold remaining. rewrite moment_remaining by (unfold centered; rewrite map_length; congruence).
    assert (X : map (cross3 w) (centered (pos_values inst)) = map (fun r => cross3 w (minus3 r (mean (pos_values inst)))) (pos_values inst))
      by (unfold centered; rewrite map_map; reflexivity).
    rewrite X. revert K. generalize (moment cs (map (fun r => cross3 w (minus3 r (mean (pos_values inst)))) (pos_values inst))) (moment cs (centered (vel_values inst))).
    intros [x y z] [x' y' z'] K. unfold plus3, times3, mapply, mzero in K. cbn in K. apply vec_inj in K. destruct K as (K1 & K2 & K3).
    unfold minus3, zero3. cbn. apply vec_ext; nra.
Qed.
Lemma eckart_general : forall inv_sqrt inv reference ref inst m,
  uniformMass reference = Some m -> uniformMass inst = Some m -> 0 < m ->
  positions reference <> [] -> length (positions inst) = length (positions reference) ->
  length (velocities inst) = length (positions inst) ->
  eckart_new reference = Ok ref ->
  (forall F, eckart_vectors ref inst = Ok F -> inverse_root (mapply (gram F)) (mapply (inv_sqrt (gram F)))) ->
  exists fr cs J w, eckart_frame inv_sqrt ref inst = Ok fr /\ orthonormal fr /\
    cs = map (fun a => let '(f0, f1, f2) := fr in plus3 (plus3 (times3 (vx a) f0) (times3 (vy a) f1)) (times3 (vz a) f2))
      (centered (pos_values reference)) /\
    equilibrium inv_sqrt ref inst = Ok cs /\ moment cs (centered (pos_values inst)) = zero3 /\
    eckart_inertia inst cs = Ok J /\ eckart_velocity inv_sqrt inv ref inst = Ok w /\
    ((forall v, mapply J (mapply (inv J) v) = v) -> moment cs (remaining w (pos_values inst) (vel_values inst)) = zero3).
Proof.
  intros inv_sqrt inv reference ref inst m H0 Hi M N L Lv E O.
  assert (V0 : velocities reference <> []).
  { intros K. unfold eckart_new in E. rewrite H0 in E.
    assert (E' : shift reference = Ok ref) by (destruct (positions reference); exact E).
    destruct (shift_fails reference) as (_ & _ & _ & F). rewrite (F N (ex_intro _ m (conj H0 M)) K) in E'. discriminate E'. }
  destruct (shift_spec reference m H0 M N V0) as (ref' & E' & Hr & _ & P & _).
  assert (ref' = ref).
  { unfold eckart_new in E. rewrite H0 in E. destruct (positions reference); congruence. }
  subst ref'.
  assert (Nr : pos_values reference <> []) by (apply pos_values_nonempty, N).
  assert (Z : vsum (pos_values ref) = zero3) by (rewrite P; apply vsum_centered, Nr).
  assert (LP : length (pos_values ref) = length (pos_values reference)) by (rewrite P, map_length; reflexivity).
  assert (LR : length (positions ref) = length (positions reference)) by (unfold pos_values in LP; rewrite !map_length in LP; exact LP).
  destruct (frame_general inv_sqrt ref inst m Hr Hi M ltac:(congruence) Z O) as (fr & cs & F1 & F2 & F3 & F4 & F5).
  assert (Np : positions inst <> []) by (intros K; rewrite K in L; destruct (positions reference); [congruence|discriminate L]).
  assert (Lc : length cs = length (pos_values inst)).
  { rewrite F3, map_length, LP. unfold pos_values. rewrite !map_length. congruence. }
  assert (Lv' : length (vel_values inst) = length (pos_values inst)) by (unfold vel_values, pos_values; rewrite !map_length; exact Lv).
  destruct (velocity_general inv_sqrt inv ref inst m cs Hi M Np Lv' Lc F4) as (J & w & G1 & G2 & G3).
  exists fr, cs, J, w. repeat (split; [first [assumption|rewrite F3, P; reflexivity]|]). exact G3.
Qed.
Lemma eckart_rejects : forall inv_sqrt inv ref inst m m',
  uniformMass ref = Some m -> uniformMass inst = Some m' ->
  length (positions inst) <> length (positions ref) \/ (m <> m' /\ positions inst <> []) ->
  eckart_vectors ref inst = Err ValueError /\ eckart_frame inv_sqrt ref inst = Err ValueError /\
  equilibrium inv_sqrt ref inst = Err ValueError /\ eckart_velocity inv_sqrt inv ref inst = Err ValueError.
Proof.
  intros inv_sqrt inv ref inst m m' Hr Hi H.
  assert (E : eckart_vectors ref inst = Err ValueError).
  { unfold eckart_vectors. destruct (Nat.eqb_spec (length (positions inst)) (length (positions ref))) as [L|L]; [|reflexivity].
    destruct H as [H|[H N]]; [contradiction|].
    assert (LL : length (pos_values inst) = length (pos_values ref)) by (unfold pos_values; rewrite !map_length; exact L).
    assert (NN := pos_values_nonempty _ N).
    destruct (pos_values inst) as [|r rs]; [congruence|]. destruct (pos_values ref) as [|a as_]; [discriminate LL|].
    cbn [eckart_loop]. unfold get_mass. rewrite Hr, Hi. cbn [bind]. destruct (Req_EM_T m' m); [congruence|reflexivity]. }
  unfold eckart_velocity, equilibrium, eckart_frame. rewrite E. auto.
Qed.
