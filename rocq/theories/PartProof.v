(** Proofs about collections of particles. *)
From Coq Require Import List Arith Bool Reals Lra Lia Psatz.
From Verif Require Import PyBase VecBase VecModel VecSpec VecProof PartModel PartSpec.
Import ListNotations.
Open Scope R_scope.

(** * Sums *)

Lemma rsum_add A (f g : A -> R) l : rsum (map (fun x => f x + g x) l) = rsum (map f l) + rsum (map g l).
Proof. induction l as [|x l IH]; cbn; [ring|]. rewrite IH. ring. Qed.
Lemma rsum_scale A k (f : A -> R) l : rsum (map (fun x => k * f x) l) = k * rsum (map f l).
Proof. induction l as [|x l IH]; cbn; [ring|]. rewrite IH. ring. Qed.
Lemma rsum_const A k (l : list A) : rsum (map (fun _ => k) l) = k * INR (length l).
Proof.
  induction l as [|x l IH]; [cbn; ring|]. cbn [map rsum length]. rewrite IH, S_INR. ring.
Qed.
Lemma rsum_ext A (f g : A -> R) l : (forall x, f x = g x) -> rsum (map f l) = rsum (map g l).
Proof. intros H. induction l as [|x l IH]; cbn; [reflexivity|]. rewrite H, IH. reflexivity. Qed.
Lemma rsum_nonneg A (f : A -> R) l : (forall x, 0 <= f x) -> 0 <= rsum (map f l).
Proof. intros H. induction l as [|x l IH]; cbn; [lra|]. assert (K := H x). lra. Qed.
Lemma rsum_app l l' : rsum (l ++ l') = rsum l + rsum l'.
Proof. induction l as [|x l IH]; cbn; [ring|]. rewrite IH. ring. Qed.
Lemma vsum_coord i l : coord i (vsum l) = rsum (map (coord i) l).
Proof.
  induction l as [|v l IH]; [destruct i as [|[|i]]; reflexivity|].
  cbn [vsum map rsum]. rewrite <- IH. destruct i as [|[|i]]; reflexivity.
Qed.
Lemma coord_ext a b : (forall i, (i < 3)%nat -> coord i a = coord i b) -> a = b.
Proof.
  intros H. rewrite (vec_eta a), (vec_eta b). apply vec_ext.
  - apply (H 0%nat). lia. - apply (H 1%nat). lia. - apply (H 2%nat). lia.
Qed.
Lemma coord_minus i a b : coord i (minus3 a b) = coord i a - coord i b.
Proof. destruct i as [|[|i]]; reflexivity. Qed.
Lemma coord_plus i a b : coord i (plus3 a b) = coord i a + coord i b.
Proof. destruct i as [|[|i]]; reflexivity. Qed.
Lemma coord_times i k a : coord i (times3 k a) = k * coord i a.
Proof. destruct i as [|[|i]]; reflexivity. Qed.
Lemma comp_coord r i : comp r i = coord i r.
Proof. destruct i as [|[|i]]; reflexivity. Qed.
Lemma inr_length_pos A (l : list A) : l <> [] -> 0 < INR (length l).
Proof. intros H. apply lt_0_INR. destruct l; [congruence|cbn; lia]. Qed.

(** * Centres *)

Lemma weigh_spec c m : uniformMass c = Some m -> forall l cum mass,
  weigh c cum mass l = Ok (plus3 cum (times3 m (vsum l)), mass + m * INR (length l)).
Proof.
  intros H. induction l as [|v l IH]; intros cum mass.
  - cbn. do 2 f_equal; [|ring]. destruct cum. vring.
  - cbn [weigh]. unfold get_mass. rewrite H. cbn [bind]. rewrite IH. do 2 f_equal.
    + cbn [vsum]. destruct cum, v, (vsum l). vring.
    + cbn [length]. rewrite S_INR. ring.
Qed.
Lemma weigh_no_mass c v l : uniformMass c = None -> forall cum mass, weigh c cum mass (v :: l) = Err RuntimeError.
Proof. intros H cum mass. cbn. unfold get_mass. rewrite H. reflexivity. Qed.

Lemma weighted_mean c m l : uniformMass c = Some m -> 0 < m -> l <> [] ->
  (do r <- weigh c (Vec 0 0 0) 0 l; pydiv (fst r) (snd r)) = Ok (mean l).
Proof.
  intros H M N. rewrite (weigh_spec c m H). cbn [bind fst snd]. unfold pydiv.
  assert (P := inr_length_pos _ l N).
  destruct (Req_EM_T (0 + m * INR (length l)) 0) as [E|_].
  - exfalso. assert (0 < m * INR (length l)) by (apply Rmult_lt_0_compat; assumption). lra.
  - f_equal. unfold mean. destruct (vsum l). vunfold. apply vec_ext; field; lra.
Qed.
Lemma pos_values_nonempty c : positions c <> [] -> pos_values c <> [].
Proof. unfold pos_values. destruct (positions c); cbn; congruence. Qed.
Lemma vel_values_nonempty c : velocities c <> [] -> vel_values c <> [].
Proof. unfold vel_values. destruct (velocities c); cbn; congruence. Qed.
Lemma com_spec c m : uniformMass c = Some m -> 0 < m -> positions c <> [] ->
  center_of_mass c = Ok (mean (pos_values c)).
Proof.
  intros H M N. unfold center_of_mass.
  rewrite (weighted_mean c m _ H M (pos_values_nonempty c N)). destruct (positions c); [congruence|reflexivity].
Qed.
Lemma comv_spec c m : uniformMass c = Some m -> 0 < m -> positions c <> [] -> velocities c <> [] ->
  center_of_mass_velocity c = Ok (mean (vel_values c)).
Proof.
  intros H M N V. unfold center_of_mass_velocity.
  rewrite (weighted_mean c m _ H M (vel_values_nonempty c V)). destruct (positions c); [congruence|reflexivity].
Qed.
Lemma cop_spec c : positions c <> [] -> center_of_positions c = Ok (mean (pos_values c)).
Proof.
  intros N. unfold center_of_positions.
  assert (E : forall l a, fold_left pyadd l a = plus3 a (vsum l)).
  { induction l as [|v l IH]; intros a; cbn; [destruct a; vring|]. rewrite IH. destruct a, v, (vsum l). vring. }
  rewrite E. assert (P := inr_length_pos _ _ N).
  assert (L : length (pos_values c) = length (positions c)) by apply map_length.
  unfold mean. rewrite L. unfold pydiv. destruct (positions c); [congruence|].
  destruct (Req_EM_T (INR (length (n :: l))) 0) as [E0|_]; [lra|]. f_equal.
  destruct (vsum (pos_values c)). vunfold. apply vec_ext; field; lra.
Qed.
Lemma mean_centre m l : l <> [] -> centre m l (mean l).
Proof.
  intros H. assert (P := inr_length_pos _ l H). unfold centre, mean.
  assert (E : forall l, vsum (map (times3 m) l) = times3 m (vsum l)).
  { intros l0. induction l0 as [|v l0 IH]; cbn; [vring|]. rewrite IH. destruct v, (vsum l0). vring. }
  rewrite E. destruct (vsum l). vunfold. apply vec_ext; field; lra.
Qed.
Lemma centre_unique m l x y : 0 < m -> l <> [] -> centre m l x -> centre m l y -> x = y.
Proof.
  intros M H A B. assert (P := inr_length_pos _ l H). unfold centre in *. rewrite A in B.
  apply times_cancel in B; [exact B|]. assert (0 < m * INR (length l)) by (apply Rmult_lt_0_compat; assumption). lra.
Qed.
Lemma mean_shift l x : l <> [] -> mean (map (fun v => minus3 v x) l) = minus3 (mean l) x.
Proof.
  intros H. assert (P := inr_length_pos _ l H). unfold mean. rewrite map_length.
  assert (E : forall l, vsum (map (fun v => minus3 v x) l) = minus3 (vsum l) (times3 (INR (length l)) x)).
  { intros l0. induction l0 as [|v l0 IH]; [cbn; destruct x; vring|].
    cbn [map vsum length]. rewrite IH, S_INR. destruct x, v, (vsum l0). vring. }
  rewrite E. revert P. generalize (INR (length l)). intros k P. destruct (vsum l), x. vunfold. apply vec_ext; field; lra.
Qed.
Lemma fresh_values l : map (fresh l) (seq 0 (length l)) = l.
Proof.
  apply nth_ext with (d := fresh l 0%nat) (d' := Vec 0 0 0); [rewrite map_length, seq_length; reflexivity|].
  intros n Hn. rewrite map_length, seq_length in Hn.
  rewrite map_nth. rewrite seq_nth by exact Hn. reflexivity.
Qed.
Lemma shift_spec c m : uniformMass c = Some m -> 0 < m -> positions c <> [] -> velocities c <> [] ->
  exists c', shift c = Ok c' /\ uniformMass c' = Some m /\ gyrationTensor c' = None /\
    pos_values c' = map (fun v => minus3 v (mean (pos_values c))) (pos_values c) /\
    vel_values c' = map (fun v => minus3 v (mean (vel_values c))) (vel_values c) /\
    NoDup (positions c') /\ NoDup (velocities c').
Proof.
  intros H M P V. unfold shift. rewrite (com_spec c m H M P), (comv_spec c m H M P V). cbn [bind].
  eexists. split; [reflexivity|]. cbn [uniformMass gyrationTensor]. split; [exact H|]. split; [reflexivity|].
  split; [exact (fresh_values (map (fun v => minus3 v (mean (pos_values c))) (pos_values c)))|].
  split; [exact (fresh_values (map (fun v => minus3 v (mean (vel_values c))) (vel_values c)))|].
  split; apply seq_NoDup.
Qed.
Lemma values_nonempty_pos c : pos_values c <> [] -> positions c <> [].
Proof. unfold pos_values. destruct (positions c); cbn; congruence. Qed.
Lemma values_nonempty_vel c : vel_values c <> [] -> velocities c <> [].
Proof. unfold vel_values. destruct (velocities c); cbn; congruence. Qed.
Lemma map_nonempty A B (f : A -> B) l : l <> [] -> map f l <> [].
Proof. destruct l; cbn; congruence. Qed.
Lemma minus_zero v : minus3 v zero3 = v.
Proof. destruct v. vring. Qed.
Lemma minus_self v : minus3 v v = zero3.
Proof. destruct v. vring. Qed.
Lemma same_differences_shift l x : same_differences l (map (fun v => minus3 v x) l).
Proof.
  split; [rewrite map_length; reflexivity|]. intros i j a b a' b' Ha Hb Ha' Hb'.
  rewrite nth_error_map in Ha', Hb'. rewrite Ha in Ha'. rewrite Hb in Hb'. cbn in Ha', Hb'.
  injection Ha' as <-. injection Hb' as <-. destruct a, b, x. vring.
Qed.
Lemma shift_frame c m : uniformMass c = Some m -> 0 < m -> positions c <> [] -> velocities c <> [] ->
  exists c' c'', shift c = Ok c' /\
    center_of_mass c' = Ok zero3 /\ center_of_mass_velocity c' = Ok zero3 /\ uniformMass c' = Some m /\
    same_differences (pos_values c) (pos_values c') /\ same_differences (vel_values c) (vel_values c') /\
    shift c' = Ok c'' /\ pos_values c'' = pos_values c' /\ vel_values c'' = vel_values c' /\ uniformMass c'' = Some m.
Proof.
  intros H M P V. destruct (shift_spec c m H M P V) as (c' & E & H' & _ & Ep & Ev & _ & _).
  assert (P' : positions c' <> []).
  { apply values_nonempty_pos. rewrite Ep. apply map_nonempty, pos_values_nonempty, P. }
  assert (V' : velocities c' <> []).
  { apply values_nonempty_vel. rewrite Ev. apply map_nonempty, vel_values_nonempty, V. }
  destruct (shift_spec c' m H' M P' V') as (c'' & E' & H'' & _ & Ep' & Ev' & _ & _).
  assert (Zp : mean (pos_values c') = zero3).
  { rewrite Ep, mean_shift by (apply pos_values_nonempty, P). apply minus_self. }
  assert (Zv : mean (vel_values c') = zero3).
  { rewrite Ev, mean_shift by (apply vel_values_nonempty, V). apply minus_self. }
  exists c', c''. split; [exact E|].
  rewrite (com_spec c' m H' M P'), (comv_spec c' m H' M P' V'), Zp, Zv. repeat (split; [reflexivity|]).
  split; [exact H'|]. split; [rewrite Ep; apply same_differences_shift|].
  split; [rewrite Ev; apply same_differences_shift|]. split; [exact E'|].
  rewrite Ep', Ev', Zp, Zv. repeat split; try assumption.
  - rewrite <- (map_id (pos_values c')) at 2. apply map_ext. intros v. apply minus_zero.
  - rewrite <- (map_id (vel_values c')) at 2. apply map_ext. intros v. apply minus_zero.
Qed.
Lemma shift_fails c :
  (positions c = [] -> shift c = Err RuntimeError) /\
  (positions c <> [] -> uniformMass c = None -> shift c = Err RuntimeError) /\
  (positions c <> [] -> uniformMass c = Some 0 -> shift c = Err ValueError) /\
  (positions c <> [] -> (exists m, uniformMass c = Some m /\ 0 < m) -> velocities c = [] -> shift c = Err ValueError).
Proof.
  split; [|split; [|split]].
  - intros H. unfold shift, center_of_mass. rewrite H. reflexivity.
  - intros H N. unfold shift, center_of_mass.
    destruct (positions c) as [|i l] eqn:E; [congruence|]. unfold pos_values. rewrite E. cbn [map].
    rewrite weigh_no_mass by exact N. reflexivity.
  - intros H N. unfold shift, center_of_mass. rewrite (weigh_spec c 0 N). cbn [bind fst snd].
    unfold pydiv at 1. destruct (Req_EM_T (0 + 0 * INR (length (pos_values c))) 0) as [_|K]; [|exfalso; apply K; ring].
    destruct (positions c); [congruence|]. reflexivity.
  - intros H (m & N & M) V. unfold shift. rewrite (com_spec c m N M H). cbn [bind].
    unfold center_of_mass_velocity, vel_values. rewrite V. cbn [map weigh bind fst snd].
    unfold pydiv. destruct (Req_EM_T 0 0) as [_|K]; [|congruence]. destruct (positions c); [congruence|]. reflexivity.
Qed.

(** * The gyration tensor *)

Definition pairs_sum (r : vec) (l : list vec) (m n : nat) : R :=
  rsum (map (fun s => (coord m r - coord m s) * (coord n r - coord n s)) l).
Definition six (f : nat -> nat -> R) : mat :=
  Mat (f 0%nat 0%nat) (f 0%nat 1%nat) (f 0%nat 2%nat) 0 (f 1%nat 1%nat) (f 1%nat 2%nat) 0 0 (f 2%nat 2%nat).
Lemma six_ext f g : (forall m n, f m n = g m n) -> six f = six g.
Proof. intros H. unfold six. rewrite !H. reflexivity. Qed.
Lemma add_pair_six r s f : add_pair r (six f) s =
  six (fun m n => f m n + (coord m r - coord m s) * (coord n r - coord n s)).
Proof. reflexivity. Qed.
Lemma inner_six r l : forall f, fold_left (add_pair r) l (six f) = six (fun m n => f m n + pairs_sum r l m n).
Proof.
  induction l as [|s l IH]; intros f.
  - cbn. apply six_ext. intros. unfold pairs_sum; cbn; ring.
  - cbn [fold_left]. rewrite add_pair_six, IH. apply six_ext. intros. unfold pairs_sum; cbn; ring.
Qed.
Lemma outer_six l0 : forall l f, fold_left (fun S r1 => fold_left (add_pair r1) l0 S) l (six f) =
  six (fun m n => f m n + rsum (map (fun r => pairs_sum r l0 m n) l)).
Proof.
  induction l as [|r l IH]; intros f.
  - cbn. apply six_ext. intros; ring.
  - cbn [fold_left]. rewrite inner_six, IH. apply six_ext. intros; cbn; ring.
Qed.
Lemma gyr_sym l m n : gyr l m n = gyr l n m.
Proof. unfold gyr. f_equal. apply rsum_ext. intros r. apply rsum_ext. intros s. ring. Qed.
Definition full (f : nat -> nat -> R) : mat :=
  Mat (f 0%nat 0%nat) (f 0%nat 1%nat) (f 0%nat 2%nat) (f 1%nat 0%nat) (f 1%nat 1%nat) (f 1%nat 2%nat) (f 2%nat 0%nat) (f 2%nat 1%nat) (f 2%nat 2%nat).
Lemma mzero_six : mzero = six (fun _ _ => 0).
Proof. reflexivity. Qed.
Lemma compute_full l : compute_tensor l = full (gyr l).
Proof.
  unfold compute_tensor. rewrite mzero_six, outer_six. cbv zeta.
  assert (K : forall m n, (0 + rsum (map (fun r => pairs_sum r l m n) l)) * (1 / (2 * INR (length l) * INR (length l)))
    = gyr l m n).
  { intros m n. unfold gyr, pairs_sum, Rdiv. rewrite Rmult_1_l, Rmult_assoc. ring. }
  unfold upper, six, full. cbn [fold_left mset mget m00 m01 m02 m10 m11 m12 m20 m21 m22].
  rewrite !K. rewrite (gyr_sym l 1 0), (gyr_sym l 2 0), (gyr_sym l 2 1). reflexivity.
Qed.
Lemma mget_full f m n : (m < 3)%nat -> (n < 3)%nat -> mget (full f) m n = f m n.
Proof.
  intros H K. destruct m as [|[|[|m]]]; [| | |lia]; (destruct n as [|[|[|n]]]; [reflexivity|reflexivity|reflexivity|lia]).
Qed.

(** The cache. *)
Definition coherent (c : coll) : Prop :=
  forall T, gyrationTensor c = Some T -> T = compute_tensor (pos_values c) /\ positions c <> [].
Lemma step_coherent c o : coherent c -> coherent (step c o).
Proof.
  intros H. destruct o as [H0 ps vs|m|axis angle| |]; cbn [step].
  - unfold set_pv. destruct (negb _ && negb _); cbn [after]; [exact H|]. intros T E. discriminate E.
  - unfold set_mass. destruct (Rlt_dec m 0); cbn [after]; [exact H|]. exact H.
  - unfold rotate. destruct (Req_EM_T _ _); [|exact H].
    destruct (rotate_objects (ph c) _ _ _) as [K|]; cbn [bind after]; [|exact H].
    destruct (rotate_objects (vh c) _ _ _) as [K'|]; cbn [bind after]; [|exact H]. intros T E. discriminate E.
  - unfold shift. destruct (center_of_mass c) as [a|]; cbn [bind after]; [|exact H].
    destruct (center_of_mass_velocity c) as [b|]; cbn [bind after]; [|exact H]. intros T E. discriminate E.
  - unfold gyration. destruct (gyrationTensor c) eqn:E; [exact H|].
    destruct (positions c) eqn:P; [exact H|]. intros T K. cbn in K. injection K as <-.
    split; [unfold pos_values; cbn; rewrite P; reflexivity|cbn; congruence].
Qed.
Lemma run_coherent l : coherent (run_ops l).
Proof.
  unfold run_ops. assert (H : coherent empty_coll) by (intros S E; discriminate E).
  revert H. generalize empty_coll. induction l as [|o l IH]; intros c H; cbn; [exact H|].
  apply IH, step_coherent, H.
Qed.
Lemma gyration_coherent c : coherent c ->
  (positions c = [] -> gyration c = Err ValueError) /\
  (positions c <> [] -> exists c', gyration c = Ok (full (gyr (pos_values c)), c') /\
     pos_values c' = pos_values c /\ vel_values c' = vel_values c /\ uniformMass c' = uniformMass c).
Proof.
  intros H. unfold gyration. destruct (gyrationTensor c) as [T|] eqn:E.
  - destruct (H T E) as (-> & N). split; [congruence|]. intros _. exists c. rewrite compute_full. auto.
  - destruct (positions c) eqn:P; split; try congruence; auto. intros _. eexists. split.
    + rewrite <- compute_full. reflexivity.
    + unfold pos_values, vel_values; cbn. rewrite P. auto.
Qed.

(** * Facts about the tensor *)

Lemma pair_expand (f g : vec -> R) a b l :
  rsum (map (fun s => (a - f s) * (b - g s)) l) =
  INR (length l) * (a * b) - a * rsum (map g l) - b * rsum (map f l) + rsum (map (fun s => f s * g s) l).
Proof.
  induction l as [|s l IH]; [cbn; ring|]. cbn [map rsum length]. rewrite IH, S_INR. ring.
Qed.
Lemma double_expand (f g : vec -> R) l0 l :
  rsum (map (fun r => rsum (map (fun s => (f r - f s) * (g r - g s)) l0)) l) =
  INR (length l0) * rsum (map (fun s => f s * g s) l) - rsum (map f l) * rsum (map g l0)
  - rsum (map g l) * rsum (map f l0) + INR (length l) * rsum (map (fun s => f s * g s) l0).
Proof.
  induction l as [|r l IH]; [cbn; ring|]. cbn [map rsum length]. rewrite IH, pair_expand, S_INR. ring.
Qed.
Lemma gyr_closed l m n : l <> [] -> gyr l m n =
  / INR (length l) * rsum (map (fun s => coord m s * coord n s) l)
  - (/ INR (length l) * rsum (map (coord m) l)) * (/ INR (length l) * rsum (map (coord n) l)).
Proof.
  intros H. assert (P := inr_length_pos _ l H). unfold gyr. rewrite double_expand. field. lra.
Qed.
Lemma gyr_translate t l m n : gyr (map (plus3 t) l) m n = gyr l m n.
Proof.
  unfold gyr. rewrite map_length. f_equal. rewrite map_map. apply rsum_ext. intros r. rewrite map_map.
  apply rsum_ext. intros s. rewrite !coord_plus. ring.
Qed.
Lemma qform_gyr l v : qform (gyr l) v =
  / (2 * (INR (length l) * INR (length l))) *
  rsum (map (fun r => rsum (map (fun s => dot3 (minus3 r s) v * dot3 (minus3 r s) v) l)) l).
Proof.
  unfold qform. cbn [map rsum]. unfold gyr. cbv beta.
  set (k := / (2 * (INR (length l) * INR (length l)))).
  set (D := fun m n => rsum (map (fun r => rsum (map (fun s =>
    (coord m r - coord m s) * (coord n r - coord n s)) l)) l)).
  change (k * D 0%nat 0%nat * coord 0 v * coord 0 v + (k * D 0%nat 1%nat * coord 0 v * coord 1 v + (k * D 0%nat 2%nat * coord 0 v * coord 2 v + 0)) +
   (k * D 1%nat 0%nat * coord 1 v * coord 0 v + (k * D 1%nat 1%nat * coord 1 v * coord 1 v + (k * D 1%nat 2%nat * coord 1 v * coord 2 v + 0)) +
   (k * D 2%nat 0%nat * coord 2 v * coord 0 v + (k * D 2%nat 1%nat * coord 2 v * coord 1 v + (k * D 2%nat 2%nat * coord 2 v * coord 2 v + 0)) + 0)) =
   k * rsum (map (fun r => rsum (map (fun s => dot3 (minus3 r s) v * dot3 (minus3 r s) v) l)) l)).
  transitivity (k * (rsum (map (fun mn : nat * nat => D (fst mn) (snd mn) * (coord (fst mn) v * coord (snd mn) v))
     [(0,0);(0,1);(0,2);(1,0);(1,1);(1,2);(2,0);(2,1);(2,2)]%nat))).
  { cbn [map rsum fst snd]. ring. }
  f_equal. unfold D. clear D k. cbn [map rsum fst snd].
  assert (G : forall l0 l, 
   rsum (map (fun r => rsum (map (fun s => dot3 (minus3 r s) v * dot3 (minus3 r s) v) l0)) l) =
   rsum (map (fun mn : nat * nat => rsum (map (fun r => rsum (map (fun s =>
    (coord (fst mn) r - coord (fst mn) s) * (coord (snd mn) r - coord (snd mn) s)) l0)) l) * (coord (fst mn) v * coord (snd mn) v))
     [(0,0);(0,1);(0,2);(1,0);(1,1);(1,2);(2,0);(2,1);(2,2)]%nat)).
  { intros l0 l1. induction l1 as [|r l1 IH]; [cbn; ring|]. cbn [map rsum]. rewrite IH. cbn [map rsum fst snd].
    assert (I : forall l2, rsum (map (fun s => dot3 (minus3 r s) v * dot3 (minus3 r s) v) l2) =
      rsum (map (fun mn : nat * nat => rsum (map (fun s =>
       (coord (fst mn) r - coord (fst mn) s) * (coord (snd mn) r - coord (snd mn) s)) l2) * (coord (fst mn) v * coord (snd mn) v))
        [(0,0);(0,1);(0,2);(1,0);(1,1);(1,2);(2,0);(2,1);(2,2)]%nat)).
    { intros l2. induction l2 as [|s l2 IH2]; [cbn; ring|]. cbn [map rsum]. rewrite IH2. cbn [map rsum fst snd].
      unfold dot3, minus3, coord. cbn [vx vy vz]. ring. }
    rewrite I. cbn [map rsum fst snd]. ring. }
  rewrite G. reflexivity.
Qed.
Lemma gyr_psd l v : 0 <= qform (gyr l) v.
Proof.
  rewrite qform_gyr. destruct l as [|r l].
  - cbn. lra.
  - assert (P := inr_length_pos _ (r :: l) ltac:(discriminate)).
    apply Rmult_le_pos.
    + left. apply Rinv_0_lt_compat. assert (0 < INR (length (r :: l)) * INR (length (r :: l))) by (apply Rmult_lt_0_compat; assumption). lra.
    + apply rsum_nonneg. intros a. apply rsum_nonneg. intros b. nra.
Qed.
Lemma gyr_rotate f l v : rigid f -> qform (gyr (map f l)) (f v) = qform (gyr l) v.
Proof.
  intros ((A & M) & D & _). rewrite !qform_gyr, map_length. f_equal. rewrite map_map.
  apply rsum_ext. intros r. rewrite map_map. apply rsum_ext. intros s.
  assert (E : minus3 (f r) (f s) = f (minus3 r s)).
  { replace (minus3 r s) with (plus3 r (times3 (-1) s)) by (destruct r, s; vring).
    rewrite A, M. destruct (f r), (f s). vring. }
  rewrite E, D. reflexivity.
Qed.
Lemma gyr_trace l : l <> [] -> gyr l 0 0 + gyr l 1 1 + gyr l 2 2 = spread l.
Proof.
  intros H. assert (P := inr_length_pos _ l H). rewrite !gyr_closed by exact H.
  unfold spread. set (k := INR (length l)) in *.
  assert (E : forall x l, rsum (map (fun r => dot3 (minus3 r x) (minus3 r x)) l) =
    rsum (map (fun s => coord 0 s * coord 0 s) l) + rsum (map (fun s => coord 1 s * coord 1 s) l)
    + rsum (map (fun s => coord 2 s * coord 2 s) l)
    - 2 * (coord 0 x * rsum (map (coord 0) l) + coord 1 x * rsum (map (coord 1) l) + coord 2 x * rsum (map (coord 2) l))
    + INR (length l) * dot3 x x).
  { intros x l0. induction l0 as [|r l0 IH]; [cbn; ring|]. cbn [map rsum length]. rewrite IH, S_INR.
    unfold dot3, minus3, coord; cbn [vx vy vz]. ring. }
  rewrite E. fold k.
  assert (C : forall i, coord i (mean l) = / k * rsum (map (coord i) l)).
  { intros i. unfold mean. rewrite coord_times, vsum_coord. reflexivity. }
  assert (D : dot3 (mean l) (mean l) = coord 0 (mean l) * coord 0 (mean l) + coord 1 (mean l) * coord 1 (mean l)
     + coord 2 (mean l) * coord 2 (mean l)) by reflexivity.
  rewrite D, !C. field. lra.
Qed.

(** * Rotating a collection *)

Lemma axis_nonzero n : pylen2 n = 1 -> n <> zero3.
Proof. intros H E. subst. rewrite pylen2_zero in H. lra. Qed.
Lemma rotate_objects_distinct n x ids : n <> zero3 -> NoDup ids -> forall H,
  exists H', rotate_objects H ids n x = Ok H' /\ map H' ids = map (fun i => vrotate n x (H i)) ids
    /\ forall i, ~ In i ids -> H' i = H i.
Proof.
  intros N D. induction D as [|i ids Hi D IH]; intros H.
  - exists H. auto.
  - cbn [rotate_objects]. rewrite pyrotated_spec. destruct (vec_eq_dec n zero3) as [E|_]; [congruence|].
    cbn [bind]. destruct (IH (hset H i (vrotate n x (H i)))) as (H' & E & V & F).
    exists H'. split; [exact E|]. split.
    + cbn [map]. rewrite V, (F i Hi). unfold hset at 1. rewrite Nat.eqb_refl. f_equal.
      apply map_ext_in. intros j Hj. unfold hset. destruct (Nat.eqb j i) eqn:Eji; [|reflexivity].
      apply Nat.eqb_eq in Eji. subst. contradiction.
    + intros j Hj. rewrite F by (cbn in Hj; tauto). unfold hset. destruct (Nat.eqb j i) eqn:Eji; [|reflexivity].
      apply Nat.eqb_eq in Eji. subst. destruct Hj. left. reflexivity.
Qed.
Lemma rotate_distinct c n x : pylen2 n = 1 -> NoDup (positions c) -> NoDup (velocities c) ->
  exists c', rotate c n x = Ok c' /\ pos_values c' = map (vrotate n x) (pos_values c)
    /\ vel_values c' = map (vrotate n x) (vel_values c) /\ uniformMass c' = uniformMass c.
Proof.
  intros H P V. unfold rotate. destruct (Req_EM_T (pylen2 n) 1) as [_|K]; [|congruence].
  destruct (rotate_objects_distinct n x _ (axis_nonzero n H) P (ph c)) as (H1 & E1 & V1 & _).
  destruct (rotate_objects_distinct n x _ (axis_nonzero n H) V (vh c)) as (H2 & E2 & V2 & _).
  rewrite E1, E2. cbn [bind]. eexists. split; [reflexivity|]. unfold pos_values, vel_values; cbn.
  rewrite V1, V2, !map_map. auto.
Qed.
(** The general case: every object is rotated once per occurrence. *)
Lemma rotate_objects_count n x ids : unit3 n -> forall H,
  exists H', rotate_objects H ids n x = Ok H' /\
    forall i, H' i = vrotate n (INR (count_occ Nat.eq_dec ids i) * x) (H i).
Proof.
  intros N. assert (NZ : n <> zero3) by (apply axis_nonzero; exact N).
  induction ids as [|k ids IH]; intros H.
  - exists H. split; [reflexivity|]. intros i. cbn. rewrite Rmult_0_l, vrotate_0 by exact N. reflexivity.
  - cbn [rotate_objects]. rewrite pyrotated_spec. destruct (vec_eq_dec n zero3) as [E|_]; [congruence|].
    cbn [bind]. destruct (IH (hset H k (vrotate n x (H k)))) as (H' & E & V). exists H'. split; [exact E|].
    intros i. rewrite V. unfold hset. cbn [count_occ]. destruct (Nat.eq_dec k i) as [->|Ne].
    + rewrite Nat.eqb_refl, vrotate_add by exact N. f_equal. rewrite S_INR. ring.
    + destruct (Nat.eqb i k) eqn:Ei; [apply Nat.eqb_eq in Ei; congruence|]. reflexivity.
Qed.
Lemma rotate_count c n x : unit3 n ->
  exists c', rotate c n x = Ok c' /\ positions c' = positions c /\ velocities c' = velocities c /\
    (forall i, ph c' i = vrotate n (INR (count_occ Nat.eq_dec (positions c) i) * x) (ph c i)) /\
    (forall i, vh c' i = vrotate n (INR (count_occ Nat.eq_dec (velocities c) i) * x) (vh c i)).
Proof.
  intros H. unfold rotate. destruct (Req_EM_T (pylen2 n) 1) as [_|K]; [|exfalso; apply K; exact H].
  destruct (rotate_objects_count n x (positions c) H (ph c)) as (H1 & E1 & V1).
  destruct (rotate_objects_count n x (velocities c) H (vh c)) as (H2 & E2 & V2).
  rewrite E1, E2. cbn [bind]. eexists. split; [reflexivity|]. cbn. auto.
Qed.
