(** Python dictionaries as association lists in insertion order. *)
From Coq Require Import List Bool.
Import ListNotations.
Set Implicit Arguments.

Section Dict.
Variables (K V : Type) (eqb : K -> K -> bool).
Hypothesis eqb_spec : forall a b, eqb a b = true <-> a = b.

(** [d.get(k)] *)
Fixpoint dget (d : list (K * V)) (k : K) : option V :=
  match d with
  | [] => None
  | (k', v) :: r => if eqb k k' then Some v else dget r k
  end.
(** [d[k] = v] *)
Fixpoint dset (d : list (K * V)) (k : K) (v : V) : list (K * V) :=
  match d with
  | [] => [(k, v)]
  | (k', v') :: r => if eqb k k' then (k', v) :: r else (k', v') :: dset r k v
  end.
(** [del d[k]] *)
Fixpoint ddel (d : list (K * V)) (k : K) : list (K * V) :=
  match d with
  | [] => []
  | (k', v') :: r => if eqb k k' then r else (k', v') :: ddel r k
  end.
Definition dkeys (d : list (K * V)) : list K := map fst d.

Lemma eqb_refl a : eqb a a = true.
Proof. apply eqb_spec. reflexivity. Qed.
Lemma eqb_neq a b : a <> b -> eqb a b = false.
Proof. intros H. destruct (eqb a b) eqn:E; [|reflexivity]. apply eqb_spec in E. contradiction. Qed.
Lemma eqb_sym a b : eqb a b = eqb b a.
Proof.
  destruct (eqb b a) eqn:E.
  - apply eqb_spec in E. subst. apply eqb_refl.
  - apply eqb_neq. intros ->. rewrite eqb_refl in E. discriminate.
Qed.

Lemma dget_dset_same d k v : dget (dset d k v) k = Some v.
Proof.
  induction d as [|[k' v'] r IH]; cbn; [rewrite eqb_refl; reflexivity|].
  destruct (eqb k k') eqn:E; cbn; rewrite E; [reflexivity|exact IH].
Qed.
Lemma dget_dset_other d k v k2 : k2 <> k -> dget (dset d k v) k2 = dget d k2.
Proof.
  intros H. induction d as [|[k' v'] r IH]; cbn; [rewrite eqb_neq by assumption; reflexivity|].
  destruct (eqb k k') eqn:E; cbn.
  - apply eqb_spec in E. subst k'. rewrite (eqb_neq H). reflexivity.
  - destruct (eqb k2 k'); [reflexivity|exact IH].
Qed.
Lemma dget_dset d k v k2 : dget (dset d k v) k2 = if eqb k2 k then Some v else dget d k2.
Proof.
  destruct (eqb k2 k) eqn:E.
  - apply eqb_spec in E. subst. apply dget_dset_same.
  - apply dget_dset_other. intros ->. rewrite eqb_refl in E. discriminate.
Qed.

Lemma dset_keys_in d k v k2 : In k2 (dkeys (dset d k v)) <-> k2 = k \/ In k2 (dkeys d).
Proof.
  induction d as [|[k' v'] r IH]; cbn; [intuition|].
  destruct (eqb k k') eqn:E; cbn.
  - apply eqb_spec in E. subst. intuition.
  - unfold dkeys in IH. rewrite IH. intuition.
Qed.
Lemma dset_nodup d k v : NoDup (dkeys d) -> NoDup (dkeys (dset d k v)).
Proof.
  induction d as [|[k' v'] r IH]; cbn; intros H; [constructor; [intros []|constructor]|].
  inversion H as [|? ? H1 H2]; subst.
  destruct (eqb k k') eqn:E; cbn.
  - constructor; assumption.
  - constructor; [|apply IH, H2].
    intros HI. apply dset_keys_in in HI. destruct HI as [->|HI]; [|auto].
    rewrite eqb_refl in E. discriminate.
Qed.
Lemma dget_in d k v : dget d k = Some v -> In (k, v) d.
Proof.
  induction d as [|[k' v'] r IH]; cbn; [discriminate|].
  destruct (eqb k k') eqn:E.
  - apply eqb_spec in E. intros H. injection H as ->. subst. left. reflexivity.
  - right. apply IH. assumption.
Qed.
Lemma in_dget d k v : NoDup (dkeys d) -> In (k, v) d -> dget d k = Some v.
Proof.
  induction d as [|[k' v'] r IH]; cbn; [intros _ []|].
  intros H [E|HI]; inversion H as [|? ? H1 H2]; subst.
  - injection E as -> ->. rewrite eqb_refl. reflexivity.
  - rewrite eqb_neq; [apply IH; assumption|]. intros ->. apply H1.
    change k' with (fst (k', v)). apply in_map, HI.
Qed.
Lemma dget_none d k : dget d k = None <-> ~ In k (dkeys d).
Proof.
  induction d as [|[k' v'] r IH]; cbn; [intuition|].
  destruct (eqb k k') eqn:E.
  - apply eqb_spec in E. subst. split; [discriminate|]. intros H. exfalso. apply H. left. reflexivity.
  - rewrite IH. split; [|intuition]. intros H [->|HI]; [|auto].
    rewrite eqb_refl in E. discriminate.
Qed.
Lemma dget_ddel d k k2 : NoDup (dkeys d) ->
  dget (ddel d k) k2 = if eqb k2 k then None else dget d k2.
Proof.
  induction d as [|[k' v'] r IH]; cbn; intros H; [destruct (eqb k2 k); reflexivity|].
  inversion H as [|? ? H1 H2]; subst. specialize (IH H2).
  destruct (eqb k k') eqn:E; cbn.
  - apply eqb_spec in E. subst k'. destruct (eqb k2 k) eqn:E2; [|reflexivity].
    apply eqb_spec in E2. subst. apply dget_none. exact H1.
  - rewrite IH. destruct (eqb k2 k') eqn:E3; [|reflexivity].
    apply eqb_spec in E3. subst k2. rewrite (eqb_sym k' k), E. reflexivity.
Qed.
Lemma ddel_in d k x : In x (ddel d k) -> In x d.
Proof.
  induction d as [|[k' v'] r IH]; cbn; [auto|]. destruct (eqb k k'); cbn; intuition.
Qed.
Lemma ddel_nodup d k : NoDup (dkeys d) -> NoDup (dkeys (ddel d k)).
Proof.
  induction d as [|[k' v'] r IH]; cbn; intros H; [constructor|].
  inversion H as [|? ? H1 H2]; subst.
  destruct (eqb k k'); [assumption|]. cbn. constructor; [|apply IH, H2].
  intros HI. apply H1. unfold dkeys in *. apply in_map_iff in HI. destruct HI as ([a b] & <- & HI).
  apply in_map. eapply ddel_in, HI.
Qed.
End Dict.
