(** Proofs about types of arguments of vectors. *)
From Coq Require Import List ZArith QArith Qcanon Bool.
From Verif Require Import QcBase PyBase VtyModel VtySpec.
Import ListNotations.
Open Scope Qc_scope.

Lemma qabs_cases : forall x, (0 <= x /\ qabs x = x) \/ (x < 0 /\ qabs x = - x).
Proof.
  intros x. unfold qabs. destruct (qltb x 0) eqn:E.
  - apply qltb_spec in E. auto.
  - apply qltb_false in E. auto.
Qed.
Lemma opp_flip : forall x, x < 0 -> 0 <= - x.
Proof. intros x H. apply Qclt_le_weak in H. replace 0 with (- 0) by ring. now apply Qcopp_le_compat. Qed.
Lemma opp_flip' : forall x, 0 <= x -> - x <= 0.
Proof. intros x H. replace 0 with (- 0) by ring. now apply Qcopp_le_compat. Qed.
Lemma qabs_nonneg : forall x, 0 <= qabs x.
Proof. intros x. destruct (qabs_cases x) as [[H ->]|[H ->]]; [exact H|now apply opp_flip]. Qed.
Lemma qabs_within : forall a b t, qabs (a - b) <= t <-> within a b t.
Proof.
  intros a b t. unfold within. replace (b - a) with (- (a - b)) by ring.
  destruct (qabs_cases (a - b)) as [[H ->]|[H ->]]; split; try tauto; intros L; split; auto.
  - eapply Qcle_trans; [apply opp_flip', H|]. eapply Qcle_trans; eauto.
  - eapply Qcle_trans; [apply Qclt_le_weak, H|]. eapply Qcle_trans; [apply opp_flip, H|exact L].
Qed.
Lemma magnitude : forall b m, (m = b \/ m = - b) -> 0 <= m -> m = qabs b.
Proof.
  intros b m E P. destruct (qabs_cases b) as [[H ->]|[H ->]]; destruct E as [->| ->]; try reflexivity.
  - apply Qcle_antisym; [|exact P || idtac].
    + eapply Qcle_trans; [apply opp_flip', H|exact H].
    + assert (b <= 0) by (replace b with (- - b) by ring; now apply opp_flip'). eapply Qcle_trans; [exact H0|exact P].
  - exfalso. apply (Qclt_not_le _ _ H P).
Qed.
Lemma allclose1_spec : forall r t a b, allclose1 r t a b = true <->
  exists m, within (num_value a) (num_value b) (t + r * m) /\ (m = num_value b \/ m = - num_value b) /\ 0 <= m.
Proof.
  intros r t a b. unfold allclose1. rewrite qleb_spec, qabs_within. split.
  - intros H. exists (qabs (num_value b)). split; [exact H|]. split; [|apply qabs_nonneg].
    destruct (qabs_cases (num_value b)) as [[_ ->]|[_ ->]]; auto.
  - intros (m & W & E & P). now rewrite <- (magnitude _ _ E P).
Qed.
Lemma tolerance_spec : forall d v q, stands_for d v q -> exists o, tolerance v = Ok o /\ default_to d o = q.
Proof.
  intros d v q H. inversion H as [|q' P]; subst; cbn.
  - exists None. auto.
  - apply qltb_false in P. rewrite P. exists (Some q). auto.
Qed.
Lemma close_spec : forall r t v w,
  (allclose1 r t (px v) (px w) && allclose1 r t (py v) (py w) && allclose1 r t (pz v) (pz w) = true) <-> close r t v w.
Proof.
  intros. rewrite !andb_true_iff, !allclose1_spec. unfold close, coordinates. cbn [combine]. split.
  - intros [[A B] C]. repeat constructor; assumption.
  - intros H. inversion H as [|? ? A H1]; subst. inversion H1 as [|? ? B H2]; subst. inversion H2 as [|? ? C _]; subst. auto.
Qed.
