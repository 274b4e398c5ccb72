From Coq Require Import String List ZArith Bool Lia.
From Verif Require Import QcBase QcLra PyBase FitModel FitSpec.
Import ListNotations.
Open Scope list_scope.

Lemma best_fold V (c : datum V * fit_object V -> datum V * fit_object V -> bool) l b :
  best_loop V c (Some b) l = Some (fold_left (fun b x => if c b x then x else b) l b).
Proof. revert b. induction l as [|x l IH]; intros b; cbn; [reflexivity|]. destruct (c b x); apply IH. Qed.
Lemma fold_smallest A (m : A -> Qc) (c : A -> A -> bool) (H : forall b x, c b x = true <-> (m x < m b)%Qc) l l1 l2 b :
  Forall (fun x => (m b < m x)%Qc) l1 -> Forall (fun x => (m b <= m x)%Qc) l2 ->
  first_smallest m ((l1 ++ b :: l2) ++ l) (fold_left (fun b x => if c b x then x else b) l b).
Proof.
  revert l1 l2 b. induction l as [|x l IH]; intros l1 l2 b F1 F2.
  - cbn. rewrite app_nil_r. exists l1, l2. auto.
  - cbn [fold_left]. destruct (c b x) eqn:E.
    + apply H in E. replace ((l1 ++ b :: l2) ++ x :: l) with (((l1 ++ b :: l2) ++ x :: []) ++ l) by (rewrite <- app_assoc; reflexivity).
      apply IH; [|constructor]. apply Forall_app. split; [|constructor].
      * revert F1. apply Forall_impl. intros y Y. clear - E Y. qlra.
      * exact E.
      * revert F2. apply Forall_impl. intros y Y. clear - E Y. qlra.
    + replace ((l1 ++ b :: l2) ++ x :: l) with ((l1 ++ b :: (l2 ++ [x])) ++ l) by (rewrite <- !app_assoc; cbn; rewrite <- app_assoc; reflexivity).
      apply IH; [exact F1|]. apply Forall_app. split; [exact F2|]. constructor; [|constructor].
      apply Qcnot_lt_le. intros Y. apply H in Y. congruence.
Qed.

Section Eq.
Variables (V : Type) (differ : V -> V -> bool) (mismatch : result bool).
Hypothesis D : forall x y, differ x y = false <-> x = y.
Lemma existsb_combine a b : length a = length b -> (existsb (fun p => differ (fst p) (snd p)) (combine a b) = false <-> a = b).
Proof.
  revert b. induction a as [|x a IH]; intros [|y b] L; try discriminate; [cbn; tauto|]. cbn. rewrite orb_false_iff, D, IH by (cbn in L; lia).
  split; [intros [-> ->]; reflexivity|intros X; injection X; auto].
Qed.
Lemma existsb_const x (b : list V) : existsb (fun p => differ (fst p) (snd p)) (map (fun y => (x, y)) b) = false <-> Forall (eq x) b.
Proof.
  induction b as [|y b IH]; cbn; [split; [constructor|reflexivity]|]. rewrite orb_false_iff, D, IH.
  split; [intros []; constructor; assumption|intros X; inversion X; auto].
Qed.
Lemma existsb_const' x (b : list V) : existsb (fun p => differ (fst p) (snd p)) (map (fun y => (y, x)) b) = false <-> Forall (eq x) b.
Proof.
  induction b as [|y b IH]; cbn; [split; [constructor|reflexivity]|]. rewrite orb_false_iff, D, IH.
  split; [intros []; constructor; auto|intros X; inversion X; auto].
Qed.
Lemma any_ok l (f : list V * list V -> bool) g : (forall p, In p l -> g p = Ok (f p)) -> any (map g l) = Ok (existsb f l).
Proof.
  induction l as [|p l IH]; intros H; [reflexivity|]. cbn. rewrite (H p) by (left; reflexivity). cbn [bind]. rewrite IH by (intros q I; apply H; right; exact I). reflexivity.
Qed.
Definition row_differ (p : list V * list V) : bool :=
  match broadcast (fst p) (snd p) with Some l => existsb (fun p => differ (fst p) (snd p)) l | None => true end.
Lemma broadcast_same A (a b : list A) : length a = length b -> broadcast a b = Some (combine a b).
Proof. intros L. unfold broadcast. rewrite L, Nat.eqb_refl. reflexivity. Qed.
Lemma row_differ_same a b : length a = length b -> (row_differ (a, b) = false <-> a = b).
Proof. intros L. unfold row_differ. cbn [fst snd]. rewrite broadcast_same by exact L. apply existsb_combine, L. Qed.
Lemma rows_same n a b : length a = length b -> Forall (fun r => length r = n) a -> Forall (fun r => length r = n) b ->
  (existsb row_differ (combine a b) = false <-> a = b).
Proof.
  revert b. induction a as [|x a IH]; intros [|y b] L Fa Fb; try discriminate; [cbn; tauto|]. inversion Fa; inversion Fb; subst.
  cbn [combine existsb]. rewrite orb_false_iff, row_differ_same, IH by (cbn in L; lia || congruence || assumption).
  split; [intros [-> ->]; reflexivity|intros X; injection X; auto].
Qed.
Lemma broadcast_ok (a b : list V) : length a = length b \/ length a = 1%nat \/ length b = 1%nat -> exists l, broadcast a b = Some l.
Proof.
  intros H. unfold broadcast. destruct (Nat.eqb_spec (length a) (length b)); [eauto|].
  destruct a as [|x [|? ?]], b as [|y [|? ?]]; cbn in *; eauto; lia.
Qed.
Lemma differ1_ok a b : length a = length b \/ length a = 1%nat \/ length b = 1%nat -> any_differ1 V differ mismatch a b = Ok (row_differ (a, b)).
Proof. intros H. destruct (broadcast_ok a b H) as [l E]. unfold any_differ1, row_differ. cbn [fst snd]. rewrite E. reflexivity. Qed.

Lemma eq_same n v w : shaped n v -> shaped n w -> exists b, fit_eq V differ mismatch (Some v) (Some w) = Ok b /\ (b = true <-> v = w).
Proof.
  intros (A1 & A2 & A3) (B1 & B2 & B3). unfold fit_eq. rewrite differ1_ok by (left; congruence). cbn [bind].
  pose proof (row_differ_same (fst v) (fst w) ltac:(congruence)) as R.
  destruct (row_differ (fst v, fst w)) eqn:E.
  - exists false. split; [reflexivity|]. split; [discriminate|]. intros X. subst. assert (true = false) by (apply R; reflexivity). discriminate.
  - unfold any_differ2. rewrite broadcast_same by congruence.
    rewrite (any_ok _ row_differ).
    2:{ intros [x y] I. cbn [fst snd]. apply differ1_ok. left.
        pose proof (in_combine_l _ _ _ _ I) as I1. pose proof (in_combine_r _ _ _ _ I) as I2.
        rewrite Forall_forall in A3, B3. rewrite (A3 _ I1), (B3 _ I2). reflexivity. }
    cbn [bind]. eexists. split; [reflexivity|]. rewrite negb_true_iff, (rows_same n) by (congruence || assumption).
    destruct v, w. cbn in *. split; [intros ->|intros X; injection X; auto]. assert (l = l1) as -> by (apply R; reflexivity). reflexivity.
Qed.
Lemma eq_mixed n m v w : shaped n v -> shaped m w -> n <> m -> n <> 1%nat -> m <> 1%nat -> fit_eq V differ mismatch (Some v) (Some w) = (do d <- mismatch; if d then Ok false else do d <- mismatch; Ok (negb d)).
Proof.
  intros (A1 & A2 & A3) (B1 & B2 & B3) N N1 N2.
  assert (X : forall A (a b : list A), length a = n -> length b = m -> broadcast a b = None).
  { intros A a b Ha Hb. unfold broadcast. destruct (Nat.eqb_spec (length a) (length b)); [congruence|].
    destruct a as [|x [|? ?]], b as [|y [|? ?]]; cbn in *; congruence || reflexivity. }
  unfold fit_eq, any_differ1, any_differ2. rewrite !X by assumption. reflexivity.
Qed.
Lemma eq_one_left m a c w : shaped m w -> m <> 1%nat -> exists b, fit_eq V differ mismatch (Some ([a], [[c]])) (Some w) = Ok b /\ (b = true <-> constant a c w).
Proof.
  intros (B1 & B2 & B3) N. unfold fit_eq. cbn [fst snd]. rewrite differ1_ok by auto. cbn [bind].
  assert (BC : forall A (x : A) l, length l = m -> broadcast [x] l = Some (map (fun y => (x, y)) l)).
  { intros A x l L. unfold broadcast. rewrite L. cbn [length]. destruct (Nat.eqb_spec 1 m); [congruence|]. reflexivity. }
  assert (R : forall x l, length l = m -> (row_differ ([x], l) = false <-> Forall (eq x) l)).
  { intros x l L. unfold row_differ. cbn [fst snd]. rewrite BC by exact L. apply existsb_const. }
  pose proof (R a (fst w) B1) as R1. destruct (row_differ ([a], fst w)) eqn:E.
  - exists false. split; [reflexivity|]. split; [discriminate|]. intros [X _]. apply R1 in X. discriminate.
  - unfold any_differ2. rewrite BC by exact B2. rewrite (any_ok _ row_differ).
    2:{ intros p I. apply in_map_iff in I. destruct I as (y & <- & I). apply differ1_ok. auto. }
    cbn [bind]. eexists. split; [reflexivity|]. rewrite negb_true_iff. unfold constant.
    assert (Y : existsb row_differ (map (fun y => ([c], y)) (snd w)) = false <-> Forall (Forall (eq c)) (snd w)).
    { clear - B3 R. induction (snd w) as [|y l IH]; cbn; [split; [constructor|reflexivity]|]. inversion B3; subst. rewrite orb_false_iff, R, IH by assumption || reflexivity.
      split; [intros []; constructor; assumption|intros X; inversion X; auto]. }
    rewrite Y. split; [intros X; split; [apply R1; reflexivity|exact X]|intros X; apply X].
Qed.
Lemma eq_one_right m a c w : shaped m w -> m <> 1%nat -> exists b, fit_eq V differ mismatch (Some w) (Some ([a], [[c]])) = Ok b /\ (b = true <-> constant a c w).
Proof.
  intros (B1 & B2 & B3) N. unfold fit_eq. cbn [fst snd]. rewrite differ1_ok by auto. cbn [bind].
  assert (BC : forall A (x : A) l, length l = m -> broadcast l [x] = Some (map (fun y => (y, x)) l)).
  { intros A x l L. unfold broadcast. cbn [length]. destruct (Nat.eqb_spec (length l) 1); [congruence|]. destruct l as [|? [|? ?]]; cbn in *; congruence || reflexivity. }
  assert (R : forall x l, length l = m -> (row_differ (l, [x]) = false <-> Forall (eq x) l)).
  { intros x l L. unfold row_differ. cbn [fst snd]. rewrite BC by exact L. apply existsb_const'. }
  pose proof (R a (fst w) B1) as R1. destruct (row_differ (fst w, [a])) eqn:E.
  - exists false. split; [reflexivity|]. split; [discriminate|]. intros [X _]. apply R1 in X. discriminate.
  - unfold any_differ2. rewrite BC by exact B2. rewrite (any_ok _ row_differ).
    2:{ intros p I. apply in_map_iff in I. destruct I as (y & <- & I). apply differ1_ok. auto. }
    cbn [bind]. eexists. split; [reflexivity|]. rewrite negb_true_iff. unfold constant.
    assert (Y : existsb row_differ (map (fun y => (y, [c])) (snd w)) = false <-> Forall (Forall (eq c)) (snd w)).
    { clear - B3 R. induction (snd w) as [|y l IH]; cbn; [split; [constructor|reflexivity]|]. inversion B3; subst. rewrite orb_false_iff, R, IH by assumption || reflexivity.
      split; [intros []; constructor; assumption|intros X; inversion X; auto]. }
    rewrite Y. split; [intros X; split; [apply R1; reflexivity|exact X]|intros X; apply X].
Qed.
End Eq.

Open Scope string_scope.
Lemma len_app a b : String.length (a ++ b) = (String.length a + String.length b)%nat.
Proof. induction a as [|x a IH]; cbn; congruence. Qed.
Lemma sub_all s : substring 0 (String.length s) s = s.
Proof. induction s as [|x s IH]; cbn; congruence. Qed.
Lemma sub_app r x : substring (String.length r) (String.length x) (r ++ x) = x.
Proof. induction r as [|a r IH]; cbn; [apply sub_all|exact IH]. Qed.
Lemma sub_pre r x : substring 0 (String.length r) (r ++ x) = r.
Proof. induction r as [|a r IH]; cbn; [destruct x; reflexivity|]. rewrite IH. reflexivity. Qed.
Lemma sub_split s n : (n <= String.length s)%nat -> s = substring 0 n s ++ substring n (String.length s - n) s.
Proof.
  revert n. induction s as [|a s IH]; intros n H.
  - cbn in *. assert (n = 0)%nat as -> by lia. reflexivity.
  - destruct n as [|n]; cbn [String.length substring append]; [rewrite Nat.sub_0_r; rewrite sub_all; reflexivity|]. cbn in H. rewrite Nat.sub_succ. rewrite <- IH by lia. reflexivity.
Qed.
Lemma endswith_spec s x : endswith s x = true <-> ends_in s x.
Proof.
  unfold endswith. rewrite andb_true_iff, Nat.leb_le, String.eqb_eq. split.
  - intros [L E]. exists (substring 0 (String.length s - String.length x) s). rewrite <- E at 2.
    rewrite (sub_split s (String.length s - String.length x)) at 1 by lia. do 2 f_equal. lia.
  - intros [r ->]. rewrite len_app. split; [lia|]. replace (String.length r + String.length x - String.length x)%nat with (String.length r) by lia. apply sub_app.
Qed.
Lemma chop_app r x : chop (String.length x) (r ++ x) = r.
Proof. unfold chop. rewrite len_app. replace (String.length r + String.length x - String.length x)%nat with (String.length r) by lia. apply sub_pre. Qed.
