(** Proofs about plots of flow profiles. *)
From Coq Require Import List ZArith Reals Qreals Lia Lra.
From Verif Require Import QcBase PyBase DictBase OtfsModel OtfsSpec OtfsProof FlowModel FlowSpec FlowProof FlpModel FlpSpec.
Import ListNotations.
Open Scope Qc_scope.

Lemma qz_two : qz 2 = 1 + 1.
Proof. change (qz (1 + 1) = 1 + 1). rewrite qz_add. reflexivity. Qed.
Lemma two_neq : 1 + 1 <> 0 :> Qc.
Proof. rewrite <- qz_two. intros E. change (qz 2 = qz 0) in E. apply qz_inj in E. discriminate. Qed.
Lemma coord_slice sub shift y : sub <> 0%nat -> yCoord sub shift y = slice_at sub shift y.
Proof.
  intros H. unfold yCoord, slice_at. rewrite qz_two. destruct shift; [|reflexivity]. field. split; [apply two_neq|apply qn_neq0, H].
Qed.

Lemma dset_new (d : list (Qc * Qc)) k v : (forall x, In x d -> fst x <> k) -> dset qeqb d k v = d ++ [(k, v)].
Proof.
  induction d as [|[k' v'] d IH]; cbn; intros H; [reflexivity|].
  destruct (qeqb k k') eqn:E; [apply qeqb_spec in E; subst; exfalso; apply (H (k', v')); auto|].
  f_equal. apply IH. intros x I. apply H. now right.
Qed.
Lemma shear_points_seq sub L rate shift n : sub <> 0%nat -> forall a ret,
  (forall x, In x ret -> exists i, (i < Z.of_nat a)%Z /\ fst x = yCoord sub shift i) ->
  shear_points sub L rate shift (seq a n) ret =
  ret ++ map (fun i => (slice_at sub shift (Z.of_nat i), shear_flow (qn L) rate (slice_at sub shift (Z.of_nat i)))) (seq a n).
Proof.
  intros Hs. induction n as [|n IH]; intros a ret H; cbn; [rewrite app_nil_r; reflexivity|].
  rewrite dset_new.
  - rewrite IH.
    + rewrite <- app_assoc. cbn [app]. rewrite (coord_slice sub shift (Z.of_nat a) Hs). do 3 f_equal.
      unfold shear_flow. rewrite qz_two. field. apply two_neq.
    + intros x I. apply in_app_iff in I. destruct I as [I|[<-|[]]].
      * destruct (H x I) as (i & Li & E). exists i. split; [lia|exact E].
      * exists (Z.of_nat a). cbn. split; [lia|reflexivity].
  - intros x I E. destruct (H x I) as (i & Li & E'). rewrite E' in E. apply yCoord_inj in E; [lia|exact Hs].
Qed.
Lemma shear_antisymmetric sub L rate i : (i < L * sub)%nat ->
  shear_flow (qn L) rate (slice_at sub true (Z.of_nat i)) + shear_flow (qn L) rate (slice_at sub true (Z.of_nat (L * sub - 1 - i))) = 0.
Proof.
  intros Hi. assert (Hs : sub <> 0%nat) by (intros ->; lia). unfold shear_flow, slice_at.
  replace (Z.of_nat (L * sub - 1 - i)) with (Z.of_nat (L * sub) - 1 - Z.of_nat i)%Z by lia.
  rewrite !qz_sub, <- !qn_qz, qn_mul, qz_two. change (qz 1) with (1 : Qc).
  field. split; [exact two_neq|apply qn_neq0, Hs].
Qed.

Lemma values_ok data samples : holds data samples -> (forall y l, In (y, l) samples -> l <> []) ->
  plot_values data = Ok (map (fun p => (fst p, mean (snd p))) samples).
Proof.
  induction 1 as [|[y v] [y' l] data samples [E A] H IH]; intros N; cbn; [reflexivity|].
  cbn in E, A. subst y'. destruct A as (_ & M & _). rewrite M. unfold spec_mean.
  destruct l as [|a l]; [exfalso; apply (N y []); [now left|reflexivity]|]. cbn [bind].
  rewrite IH; [reflexivity|]. intros y' l' I. apply (N y' l'). now right.
Qed.
Lemma errors_ok q data samples : holds data samples -> (forall y l, In (y, l) samples -> (2 <= length l)%nat) ->
  plot_errors q data = Ok (map (fun p => sqrt (real (variance (snd p))) / q)%R samples).
Proof.
  induction 1 as [|[y v] [y' l] data samples [E A] H IH]; intros N; cbn; [reflexivity|].
  cbn in E, A. subst y'. destruct A as (_ & _ & V). rewrite V. unfold spec_variance.
  destruct l as [|a [|b l]]; try (specialize (N y _ (or_introl eq_refl)); cbn in N; lia). cbn [bind].
  rewrite IH; [reflexivity|]. intros y' l' I. apply (N y' l'). now right.
Qed.
Lemma bounds_map k (samples : list (Qc * list Qc)) (e : list Qc -> R) :
  plot_bounds k (map (fun p => (fst p, mean (snd p))) samples) (map (fun p => e (snd p)) samples) =
  map (fun p => (fst p, (real (mean (snd p)) - real k * e (snd p), real (mean (snd p)) + real k * e (snd p))%R)) samples.
Proof. induction samples as [|p s IH]; cbn; [reflexivity|]. rewrite IH. reflexivity. Qed.
Lemma holds_rev data samples : holds data samples -> holds (rev data) (rev samples).
Proof.
  unfold holds. induction 1; cbn; [constructor|]. apply Forall2_app; [assumption|]. constructor; [assumption|constructor].
Qed.

Lemma sqrt_div_pos x n : (0 <= x)%R -> (0 < n)%nat -> (sqrt x / sqrt (INR n) = sqrt (x / INR n))%R.
Proof. intros Hx Hn. symmetry. apply sqrt_div; [exact Hx|]. apply lt_0_INR. exact Hn. Qed.
Lemma real_nonneg x : 0 <= x -> (0 <= real x)%R.
Proof.
  intros H. unfold real. replace 0%R with (Q2R (this 0)) by (unfold Q2R; cbn; lra). apply Qle_Rle. exact H.
Qed.
Lemma variance_pos l : (2 <= length l)%nat -> 0 <= variance l.
Proof.
  intros H. unfold variance. assert (P : 0 < qn (length l) - 1).
  { replace (qn (length l)) with (qn (length l - 1) + 1) by (rewrite <- qn_S; f_equal; lia).
    replace (qn (length l - 1) + 1 - 1) with (qn (length l - 1)) by ring. apply qn_pos. lia. }
  apply Qc_div_nonneg; [apply devsq_nonneg|apply Qclt_le_weak, P].
Qed.

Lemma collect_ok {A B} (f : A -> result B) l bs : Forall2 (fun a b => f a = Ok b) l bs -> collect f l = Ok bs.
Proof. induction 1 as [|a b l bs E H IH]; cbn; [reflexivity|]. rewrite E. cbn. rewrite IH. reflexivity. Qed.
Lemma collect_inv {A B} (f : A -> result B) l : forall bs, collect f l = Ok bs -> Forall2 (fun a b => f a = Ok b) l bs.
Proof.
  induction l as [|a l IH]; intros bs; cbn; [intros H; injection H as <-; constructor|].
  destruct (f a) as [b|] eqn:E; [|discriminate]. cbn. destruct (collect f l) as [bs'|]; [|discriminate]. cbn.
  intros H. injection H as <-. constructor; auto.
Qed.
Lemma collect_exists {A B} (f : A -> result B) l : (forall a, In a l -> exists b, f a = Ok b) -> exists bs, collect f l = Ok bs.
Proof.
  induction l as [|a l IH]; intros H; cbn; [eauto|]. destruct (H a (or_introl eq_refl)) as (b & ->). cbn.
  destruct IH as (bs & ->); [intros x I; apply H; now right|]. cbn. eauto.
Qed.
Lemma forall2_nth {A B} (P : A -> B -> Prop) l bs i a : Forall2 P l bs -> nth_error l i = Some a -> exists b, nth_error bs i = Some b /\ P a b.
Proof.
  intros H. revert i. induction H as [|x y l bs p H IH]; intros [|i] E; cbn in *; try discriminate; [|eauto].
  injection E as <-. eauto.
Qed.
Lemma cell_means_iff b x y z u : cell_means b x y z = Ok u <-> exists v, cell_at b x y z v /\ flows v u.
Proof.
  unfold cell_means, cell_at, item. split.
  - destruct (dget Z.eqb b x) as [px|] eqn:X; [|discriminate]. cbn. destruct (dget Z.eqb px y) as [py|] eqn:Y; [|discriminate]. cbn.
    destruct (dget Z.eqb py z) as [[[v0 v1] v2]|] eqn:Zz; [|discriminate]. cbn.
    destruct (getSampleMean v0) as [m0|] eqn:M0; [|discriminate]. cbn. destruct (getSampleMean v1) as [m1|] eqn:M1; [|discriminate]. cbn.
    destruct (getSampleMean v2) as [m2|] eqn:M2; [|discriminate]. cbn. intros H. injection H as <-.
    exists (v0, v1, v2). split; [eauto 6|cbn; auto].
  - intros ([[v0 v1] v2] & (px & py & -> & Y & Zz) & F). cbn. rewrite Y. cbn. rewrite Zz. cbn.
    destruct u as [[u0 u1] u2]. cbn in F. destruct F as (-> & -> & ->). reflexivity.
Qed.

Lemma addRun_config s d s' : addRun s d = Ok s' -> p_config s' = p_config s.
Proof.
  unfold addRun. destruct (p_blocks s); [|discriminate]. destruct (negb _); [discriminate|]. destruct (rd_file d) as [ls|]; [|discriminate].
  destruct (read_lines ls (p_points s) []) as [[p b]|]; [|discriminate]. cbn. destruct b; intros H; injection H as <-; reflexivity.
Qed.
Lemma runs_config d0 s0 : fp_new d0 = Ok s0 -> forall ds s, add_runs s0 ds = Ok s -> p_config s = rd_config d0.
Proof.
  intros H0 ds. apply addRun_config in H0. cbn in H0. revert s0 H0. induction ds as [|d ds IH]; intros s0 H0 s H; cbn in H.
  - injection H as <-. exact H0.
  - destruct (addRun s0 d) as [s1|] eqn:E; [|discriminate]. cbn in H. apply (IH s1); [|exact H]. apply addRun_config in E. congruence.
Qed.
