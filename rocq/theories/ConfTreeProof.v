(** Proofs about comparing configurations. *)
From Coq Require Import List ZArith String Ascii Bool Lia Qcanon Permutation.
From Verif Require Import QcBase PyBase DictBase StrBase ConfModel ConfSpec ConfProof.
Import ListNotations.
Close Scope string_scope.
Close Scope Qc_scope.
Open Scope nat_scope.

Section ConfInd.
Variable P : conf -> Prop.
Hypothesis HL : forall x, P (CLeaf x).
Hypothesis HG : forall d, (forall k v, In (k, v) d -> P v) -> P (CGroup d).
Hypothesis HLi : forall xs, (forall v, In v xs -> P v) -> P (CList xs).
Hypothesis HA : forall xs, (forall v, In v xs -> P v) -> P (CArr xs).
Fixpoint conf_rect' (c : conf) : P c :=
  match c with
  | CLeaf x => HL x
  | CGroup d => HG d ((fix go d : forall k v, In (k, v) d -> P v :=
      match d with
      | [] => fun k v H => match H with end
      | (k0, v0) :: r => fun k v H =>
        match H with
        | or_introl E => eq_ind v0 P (conf_rect' v0) v (f_equal snd E)
        | or_intror H' => go r k v H'
        end
      end) d)
  | CList xs => HLi xs ((fix go xs : forall v, In v xs -> P v :=
      match xs with
      | [] => fun v H => match H with end
      | v0 :: r => fun v H =>
        match H with
        | or_introl E => eq_ind v0 P (conf_rect' v0) v E
        | or_intror H' => go r v H'
        end
      end) xs)
  | CArr xs => HA xs ((fix go xs : forall v, In v xs -> P v :=
      match xs with
      | [] => fun v H => match H with end
      | v0 :: r => fun v H =>
        match H with
        | or_introl E => eq_ind v0 P (conf_rect' v0) v E
        | or_intror H' => go r v H'
        end
      end) xs)
  end.
End ConfInd.

(** ** Scalars *)
Lemma qeqb_true a b : qeqb a b = true <-> a = b.
Proof. unfold qeqb. destruct (Qc_eq_dec a b); split; intros; congruence. Qed.
Lemma leaf_eqb_spec x y : leaf_eqb x y = true <-> py_equal x y.
Proof.
  split.
  - destruct x as [s|z|q|b], y as [s'|z'|q'|b']; cbn; try discriminate; intros E;
      try (apply qeqb_true in E; eapply PE_num; cbn; [reflexivity|congruence]).
    apply String.eqb_eq in E. subst. constructor.
  - intros [s|x' y' q E1 E2]; [apply String.eqb_refl|].
    destruct x' as [s|z|q0|b], y' as [s'|z'|q0'|b']; cbn in *; try discriminate; apply qeqb_true; congruence.
Qed.
Lemma py_equal_refl x : py_equal x x.
Proof. apply leaf_eqb_spec. destruct x; cbn; try apply String.eqb_refl; apply qeqb_true; reflexivity. Qed.
Lemma py_equal_sym x y : py_equal x y -> py_equal y x.
Proof. intros [s|a b q E1 E2]; [constructor|eapply PE_num; eassumption]. Qed.
Lemma py_equal_trans x y z : py_equal x y -> py_equal y z -> py_equal x z.
Proof.
  intros H1 H2. destruct H1 as [s|a b q E1 E2]; [assumption|].
  inversion H2 as [s|a' b' q' E1' E2']; subst; [discriminate|].
  rewrite E2 in E1'. injection E1' as ->. eapply PE_num; eassumption.
Qed.
Lemma py_equal_str x y : py_equal x y -> is_str x = is_str y.
Proof. intros [s|a b q E1 E2]; [reflexivity|]. destruct a, b; cbn in *; congruence. Qed.

(** ** Equivalence *)
Section Inv.
Variable f : string -> string.
Lemma seq_inv l a b : same_settings f l a b -> forall xs, (a = CList xs \/ a = CArr xs) ->
  exists ys, (b = CList ys \/ b = CArr ys) /\ Forall2 (same_settings f true) xs ys.
Proof.
  intros Q xs D. inversion Q; subst; try (destruct D; discriminate).
  exists ys. split; [assumption|]. destruct H as [-> | ->], D as [D|D]; try discriminate; injection D as ->; assumption.
Qed.
Lemma seq_inv_r l a b : same_settings f l a b -> forall ys, (b = CList ys \/ b = CArr ys) ->
  exists xs, (a = CList xs \/ a = CArr xs) /\ Forall2 (same_settings f true) xs ys.
Proof.
  intros Q ys D. inversion Q; subst; try (destruct D; discriminate).
  exists xs. split; [assumption|]. destruct H0 as [-> | ->], D as [D|D]; try discriminate; injection D as ->; assumption.
Qed.
Lemma group_inv l d b : same_settings f l (CGroup d) b -> exists e, b = CGroup e /\
  (forall k v, In (k, v) d -> exists w, In (k, w) e /\ same_settings f false v w) /\
  (forall k, In k (map fst e) -> In k (map fst d)).
Proof. intros Q. inversion Q; subst; [destruct H; discriminate|eauto]. Qed.
Lemma leaf_inv l x b : same_settings f l (CLeaf x) b -> exists y, b = CLeaf y.
Proof. intros Q. inversion Q; subst; eauto. destruct H; discriminate. Qed.

Lemma proper_seq xs : proper (CList xs) \/ proper (CArr xs) -> forall v, In v xs -> proper v.
Proof.
  intros [P|P] v HI; inversion P; subst; auto. destruct (H0 v HI) as (x & ->). constructor.
Qed.

End Inv.

Section E.
Variable ts : list (string -> string).
Notation f := (translate ts).

Lemma leaf_case l x y : equiv ts l (CLeaf x) (CLeaf y) = true <-> same_settings f l (CLeaf x) (CLeaf y).
Proof.
  assert (S : forall l s t, same_settings f l (CLeaf (LStr s)) (CLeaf (LStr t)) <-> f s = f t).
  { intros l0 s t. split; [|apply SS_str]. intros Q. inversion Q; subst; try assumption; try discriminate.
    destruct H; discriminate. }
  assert (N : is_str x = false -> is_str y = false ->
     (same_settings f l (CLeaf x) (CLeaf y) <-> py_equal x y /\ (l = true -> leaf_same_type x y = true))).
  { intros N1 N2. split.
    - intros Q. inversion Q; subst; try discriminate; try (split; [assumption|congruence]).
      destruct H; discriminate.
    - intros (Q1 & Q2). destruct l; [apply SS_elem; auto|apply SS_num; auto]. }
  assert (M : is_str x <> is_str y -> ~ same_settings f l (CLeaf x) (CLeaf y)).
  { intros D Q. inversion Q; subst; try (apply D; reflexivity).
    - apply D, py_equal_str. assumption.
    - apply D, py_equal_str. assumption.
    - destruct H; discriminate. }
  destruct (is_str x) eqn:Ex, (is_str y) eqn:Ey.
  - destruct x, y; try discriminate. rewrite S. cbn. unfold elem_equiv, entry_equiv. cbn.
    destruct l; apply String.eqb_eq.
  - assert (equiv ts l (CLeaf x) (CLeaf y) = false) as ->.
    { destruct x, y; try discriminate; destruct l; reflexivity. }
    split; [discriminate|]. intros Q. exfalso. apply M in Q; congruence.
  - assert (equiv ts l (CLeaf x) (CLeaf y) = false) as ->.
    { destruct x, y; try discriminate; destruct l; reflexivity. }
    split; [discriminate|]. intros Q. exfalso. apply M in Q; congruence.
  - rewrite N by reflexivity. rewrite <- leaf_eqb_spec. cbn [equiv].
    destruct l.
    + unfold elem_equiv. rewrite andb_true_iff.
      assert (E : (match x, y with LStr a, LStr b => String.eqb (f a) (f b) | _, _ => leaf_eqb x y end) = leaf_eqb x y)
        by (destruct x, y; try discriminate; reflexivity).
      rewrite E. intuition.
    + assert (E : entry_equiv ts x y = leaf_eqb x y) by (destruct x, y; try discriminate; reflexivity).
      rewrite E. intuition congruence.
Qed.

Lemma seq_case xs : (forall v, In v xs -> forall l b, proper v -> proper b ->
    (equiv ts l v b = true <-> same_settings f l v b)) ->
  (forall v, In v xs -> proper v) -> forall ys, (forall v, In v ys -> proper v) ->
  (Nat.eqb (length xs) (length ys) && all2 (equiv ts true) xs ys = true <-> Forall2 (same_settings f true) xs ys).
Proof.
  induction xs as [|x xs IH]; intros Hi Px [|y ys] Py; cbn.
  - split; auto.
  - split; [discriminate|]. intros Q. inversion Q.
  - split; [discriminate|]. intros Q. inversion Q.
  - assert (Hi' : forall v, In v xs -> forall l b, proper v -> proper b ->
      (equiv ts l v b = true <-> same_settings f l v b)) by (intros v HI; apply Hi; right; exact HI).
    specialize (IH Hi' (fun v H => Px v (or_intror H)) ys (fun v H => Py v (or_intror H))).
    rewrite andb_true_iff in *. rewrite andb_true_iff.
    rewrite (Hi x (or_introl eq_refl)) by (apply Px + apply Py; left; reflexivity).
    split.
    + intros (A & B & C). constructor; [assumption|]. apply IH. auto.
    + intros Q. inversion Q; subst. apply IH in H4. tauto.
Qed.

Lemma entries_case e d : (forall k v, In (k, v) d -> forall l b, proper v -> proper b ->
    (equiv ts l v b = true <-> same_settings f l v b)) ->
  (forall k v, In (k, v) d -> proper v) -> NoDup (map fst e) -> (forall k v, In (k, v) e -> proper v) ->
  (entries_in (equiv ts false) e d = true <->
   forall k v, In (k, v) d -> exists w, In (k, w) e /\ same_settings f false v w).
Proof.
  intros Hi Pd Ne Pe. induction d as [|[k v] d IH]; cbn.
  - split; [intros _ k v []|reflexivity].
  - assert (IH' := IH (fun k' v' H => Hi k' v' (or_intror H)) (fun k' v' H => Pd k' v' (or_intror H))). clear IH.
    destruct (sget e k) as [w|] eqn:E.
    + apply sget_in in E. rewrite andb_true_iff, IH'.
      rewrite (Hi k v (or_introl eq_refl)) by (try (eapply Pd; left; reflexivity); eapply Pe, E).
      split.
      * intros (A & B) k' v' [Q|HI]; [injection Q as <- <-; eauto|apply B, HI].
      * intros A. split.
        -- destruct (A k v (or_introl eq_refl)) as (w' & HI & S).
           apply (in_sget _ _ _ Ne) in HI. apply (in_sget _ _ _ Ne) in E. congruence.
        -- intros k' v' HI. apply A. right. exact HI.
    + split; [discriminate|]. intros A. exfalso.
      destruct (A k v (or_introl eq_refl)) as (w' & HI & _).
      apply sget_none in E. apply E. apply in_map_iff. exists (k, w'). auto.
Qed.

Lemma keys_case {V} (d : list (string * V)) ks :
  forallb (fun k => match sget d k with None => false | Some _ => true end) ks = true <->
  forall k, In k ks -> In k (map fst d).
Proof.
  rewrite forallb_forall. split; intros A k HI; specialize (A k HI).
  - destruct (sget d k) as [v|] eqn:E; [|discriminate]. apply sget_in in E. apply in_map_iff. exists (k, v). auto.
  - destruct (sget d k) eqn:E; [reflexivity|]. apply sget_none in E. contradiction.
Qed.

Theorem equiv_spec a : forall l b, proper a -> proper b ->
  (equiv ts l a b = true <-> same_settings f l a b).
Proof.
  induction a as [x|d IH|xs IH|xs IH] using conf_rect'; intros l b Pa Pb.
  - destruct b as [y|e|ys|ys]; try (cbn; split; [discriminate|]; intros Q; apply leaf_inv in Q; destruct Q; discriminate).
    apply leaf_case.
  - destruct b as [y|e|ys|ys]; try (cbn; split; [discriminate|]; intros Q; apply group_inv in Q; destruct Q as (? & ? & _); discriminate).
    inversion Pa as [|d' Nd Pd| |]; subst. inversion Pb as [|e' Ne Pe| |]; subst.
    cbn [equiv]. rewrite andb_true_iff, keys_case, entries_case; try assumption.
    + split; [intros (A & B); apply SS_group; assumption|].
      intros Q. apply group_inv in Q. destruct Q as (e' & E & A & B). injection E as ->. auto.
    + intros k v HI. eapply Pd, HI.
    + intros k v HI. eapply Pe, HI.
  - assert (PX : forall v, In v xs -> proper v) by (apply proper_seq; auto).
    destruct b as [y|e|ys|ys]; cbn [equiv];
      try (split; [discriminate|]; intros Q; destruct (seq_inv _ _ _ _ Q xs (or_introl eq_refl)) as (? & [?|?] & _); discriminate).
    + rewrite seq_case; try assumption; [|apply proper_seq; auto].
      split; [intros A; eapply SS_seq; eauto|]. intros Q.
      destruct (seq_inv _ _ _ _ Q xs (or_introl eq_refl)) as (ys' & [E|E] & A); try discriminate. injection E as ->. assumption.
    + rewrite seq_case; try assumption; [|apply proper_seq; auto].
      split; [intros A; eapply SS_seq; eauto|]. intros Q.
      destruct (seq_inv _ _ _ _ Q xs (or_introl eq_refl)) as (ys' & [E|E] & A); try discriminate. injection E as ->. assumption.
  - assert (PX : forall v, In v xs -> proper v) by (apply proper_seq; auto).
    destruct b as [y|e|ys|ys]; cbn [equiv];
      try (split; [discriminate|]; intros Q; destruct (seq_inv _ _ _ _ Q xs (or_intror eq_refl)) as (? & [?|?] & _); discriminate).
    + rewrite seq_case; try assumption; [|apply proper_seq; auto].
      split; [intros A; eapply SS_seq; eauto|]. intros Q.
      destruct (seq_inv _ _ _ _ Q xs (or_intror eq_refl)) as (ys' & [E|E] & A); try discriminate. injection E as ->. assumption.
    + rewrite seq_case; try assumption; [|apply proper_seq; auto].
      split; [intros A; eapply SS_seq; eauto|]. intros Q.
      destruct (seq_inv _ _ _ _ Q xs (or_intror eq_refl)) as (ys' & [E|E] & A); try discriminate. injection E as ->. assumption.
Qed.
End E.

Section Rel.
Variable f : string -> string.
Notation same := (same_settings f).

Lemma same_refl a : forall l, same l a a.
Proof.
  induction a as [x|d IH|xs IH|xs IH] using conf_rect'; intros l.
  - destruct x; try (constructor; reflexivity); destruct l;
      (apply SS_elem || apply SS_num); try reflexivity; apply py_equal_refl.
  - apply SS_group; [|auto]. intros k v HI. exists v. split; [assumption|]. eapply IH, HI.
  - apply SS_seq with (xs := xs) (ys := xs); auto. clear l. induction xs as [|x xs IHx]; constructor.
    + apply IH. left. reflexivity.
    + apply IHx. intros v HI. apply IH. right. exact HI.
  - apply SS_seq with (xs := xs) (ys := xs); auto. clear l. induction xs as [|x xs IHx]; constructor.
    + apply IH. left. reflexivity.
    + apply IHx. intros v HI. apply IH. right. exact HI.
Qed.

Lemma seq_sym xs : (forall v, In v xs -> forall l b, proper v -> proper b -> same l v b -> same l b v) ->
  (forall v, In v xs -> proper v) -> forall ys, (forall v, In v ys -> proper v) ->
  Forall2 (same true) xs ys -> Forall2 (same true) ys xs.
Proof.
  induction xs as [|x xs IH]; intros Hi Px ys Py Q; inversion Q; subst; constructor.
  - apply Hi; auto. + left; reflexivity. + apply Px; left; reflexivity. + apply Py; left; reflexivity.
  - apply IH; auto. + intros v HI. apply Hi. right. exact HI.
    + intros v HI. apply Px. right. exact HI. + intros v HI. apply Py. right. exact HI.
Qed.
Lemma same_type_sym x y : leaf_same_type x y = leaf_same_type y x.
Proof. destruct x, y; reflexivity. Qed.

Lemma same_leaf l x y : same l (CLeaf x) (CLeaf y) <->
  (exists s t, x = LStr s /\ y = LStr t /\ f s = f t) \/
  (is_str x = false /\ py_equal x y /\ (l = true -> leaf_same_type x y = true)).
Proof.
  split.
  - intros Q. inversion Q; subst; eauto 8.
    + right. split; [assumption|]. split; [assumption|discriminate].
    + destruct H; discriminate.
  - intros [(s & t & -> & -> & E)|(E & P & T)]; [constructor; assumption|].
    destruct l; [apply SS_elem|apply SS_num]; auto.
Qed.
Lemma same_group l d e : same l (CGroup d) (CGroup e) <->
  (forall k v, In (k, v) d -> exists w, In (k, w) e /\ same false v w) /\
  (forall k, In k (map fst e) -> In k (map fst d)).
Proof.
  split.
  - intros Q. apply group_inv in Q. destruct Q as (e' & E & A & B). injection E as ->. auto.
  - intros (A & B). apply SS_group; assumption.
Qed.
Definition seq_of (a : conf) (xs : list conf) : Prop := a = CList xs \/ a = CArr xs.
Lemma same_seq l a b xs : seq_of a xs -> (same l a b <-> exists ys, seq_of b ys /\ Forall2 (same true) xs ys).
Proof.
  intros S. split.
  - intros Q. exact (seq_inv _ _ _ _ Q xs S).
  - intros (ys & S2 & A). eapply SS_seq; eassumption.
Qed.
Lemma seq_proper a xs : seq_of a xs -> proper a -> forall v, In v xs -> proper v.
Proof. intros [-> | ->] P; apply proper_seq; auto. Qed.

Lemma in_keys {V} (d : list (string * V)) k v : In (k, v) d -> In k (map fst d).
Proof. intros HI. apply in_map_iff. exists (k, v). auto. Qed.
Lemma keys_in {V} (d : list (string * V)) k : In k (map fst d) -> exists v, In (k, v) d.
Proof. intros HI. apply in_map_iff in HI. destruct HI as ([k' v] & E & HI). cbn in E. subst. eauto. Qed.

Lemma same_sym a : forall l b, proper a -> proper b -> same l a b -> same l b a.
Proof.
  assert (SEQ : forall a xs, seq_of a xs -> (forall v, In v xs -> forall l b, proper v -> proper b -> same l v b -> same l b v) ->
     forall l b, proper a -> proper b -> same l a b -> same l b a).
  { intros a0 xs S IH l b Pa Pb Q. apply (same_seq _ _ _ _ S) in Q. destruct Q as (ys & S2 & A).
    apply (same_seq _ _ _ _ S2). exists xs. split; [assumption|].
    apply seq_sym; auto; eapply seq_proper; eassumption. }
  induction a as [x|d IH|xs IH|xs IH] using conf_rect'; intros l b Pa Pb Q.
  - destruct (leaf_inv _ _ _ _ Q) as (y & ->). apply same_leaf in Q. apply same_leaf.
    destruct Q as [(s & t & -> & -> & E)|(E & P & T)]; [left; eauto|right].
    split; [rewrite <- (py_equal_str _ _ P); assumption|].
    split; [apply py_equal_sym; assumption|rewrite same_type_sym; assumption].
  - destruct (group_inv _ _ _ _ Q) as (e & -> & H1 & H2). clear Q.
    inversion Pa as [|d' Nd Pd| |]; subst. inversion Pb as [|e' Ne Pe| |]; subst.
    apply SS_group.
    + intros k w HI. destruct (keys_in _ _ (H2 _ (in_keys _ _ _ HI))) as (v & HI2).
      exists v. split; [assumption|]. destruct (H1 k v HI2) as (w' & HI3 & S).
      assert (w' = w) as ->. { apply (in_sget _ _ _ Ne) in HI, HI3. congruence. }
      eapply IH; eauto. eapply Pd, HI2. eapply Pe, HI.
    + intros k HK. destruct (keys_in _ _ HK) as (v & HI2).
      destruct (H1 k v HI2) as (w & HI & _). eapply in_keys, HI.
  - eapply (SEQ (CList xs)); eauto. left. reflexivity.
  - eapply (SEQ (CArr xs)); eauto. right. reflexivity.
Qed.

Lemma same_type_trans x y z : leaf_same_type x y = true -> leaf_same_type y z = true -> leaf_same_type x z = true.
Proof. destruct x, y, z; cbn; congruence. Qed.

Lemma same_trans a : forall l b c, proper b -> same l a b -> same l b c -> same l a c.
Proof.
  assert (SEQ : forall a xs, seq_of a xs -> (forall v, In v xs -> forall l b c, proper b -> same l v b -> same l b c -> same l v c) ->
     forall l b c, proper b -> same l a b -> same l b c -> same l a c).
  { intros a0 xs S IH l b c Pb Q1 Q2. apply (same_seq _ _ _ _ S) in Q1. destruct Q1 as (ys & S2 & A).
    apply (same_seq _ _ _ _ S2) in Q2. destruct Q2 as (zs & S3 & B).
    apply (same_seq _ _ _ _ S). exists zs. split; [assumption|].
    pose proof (seq_proper _ _ S2 Pb) as PY. clear - IH A B PY.
    revert zs B. induction A as [|x y xs ys Q A IHA]; intros zs B; inversion B; subst; constructor.
    - eapply IH; eauto. left; reflexivity. apply PY. left; reflexivity.
    - apply IHA; auto. + intros v HI. apply IH. right. exact HI. + intros v HI. apply PY. right. exact HI. }
  induction a as [x|d IH|xs IH|xs IH] using conf_rect'; intros l b c Pb Q1 Q2.
  - destruct (leaf_inv _ _ _ _ Q1) as (y & ->). destruct (leaf_inv _ _ _ _ Q2) as (z & ->).
    apply same_leaf in Q1, Q2. apply same_leaf.
    destruct Q1 as [(s & t & -> & -> & E)|(E & P & T)]; destruct Q2 as [(s' & t' & E1 & E2 & E3)|(E' & P' & T')].
    + left. injection E1 as <-. exists s, t'. split; [reflexivity|]. split; [assumption|]. congruence.
    + discriminate.
    + subst y. apply py_equal_str in P. rewrite E in P. discriminate.
    + right. split; [assumption|]. split; [eapply py_equal_trans; eassumption|].
      intros L. eapply same_type_trans; eauto.
  - destruct (group_inv _ _ _ _ Q1) as (e & -> & H1 & H2).
    destruct (group_inv _ _ _ _ Q2) as (g & -> & H3 & H4).
    inversion Pb as [|e' Ne Pe| |]; subst. apply SS_group.
    + intros k v HI. destruct (H1 k v HI) as (w & HI2 & S). destruct (H3 k w HI2) as (u & HI3 & S2).
      exists u. split; [assumption|]. eapply (IH k v HI false w u); [eapply Pe, HI2|exact S|exact S2].
    + auto.
  - eapply (SEQ (CList xs)); eauto. left. reflexivity.
  - eapply (SEQ (CArr xs)); eauto. right. reflexivity.
Qed.
End Rel.

(** ** Order of definition *)
Lemma same_perm f l d d' : NoDup (map fst d) -> Permutation d d' -> same_settings f l (CGroup d) (CGroup d').
Proof.
  intros N P. apply SS_group.
  - intros k v HI. exists v. split; [eapply Permutation_in; eassumption|apply same_refl].
  - intros k HI. eapply Permutation_in; [apply Permutation_map, Permutation_sym, P|exact HI].
Qed.

(** ** The flat view *)
Lemma sset_nonempty {V} (d : list (string * V)) k v : sset d k v <> [].
Proof. destruct d as [|[a b] r]; cbn; [discriminate|]. destruct (String.eqb k a); discriminate. Qed.
Lemma fold_sset_nonempty {A V} (g : A -> string) (h : A -> V) l ret :
  (l <> [] \/ ret <> []) -> fold_left (fun ret kv => sset ret (g kv) (h kv)) l ret <> [].
Proof.
  revert ret. induction l as [|x l IH]; intros ret [N|N]; cbn; try congruence; apply IH; right; apply sset_nonempty.
Qed.
Lemma flat_one_nonempty f ret k v : flat_one f ret k v <> [].
Proof.
  assert (A : flat_entry ret k (f v) <> []).
  { unfold flat_entry. destruct (f v) as [|x r] eqn:E; [apply sset_nonempty|].
    apply fold_sset_nonempty. left. discriminate. }
  destruct v; cbn; try exact A. apply sset_nonempty.
Qed.
Lemma flat_entries_nonempty f d ret : ret <> [] -> flat_entries f d ret <> [].
Proof.
  revert ret. induction d as [|[k v] d IH]; intros ret N; cbn; [assumption|]. apply IH, flat_one_nonempty.
Qed.

(** The entries of a container, lists by position. *)
Fixpoint indexed (i : nat) (xs : list conf) : list (string * conf) :=
  match xs with [] => [] | v :: r => (bracket i, v) :: indexed (S i) r end.
Definition entries (c : conf) : list (string * conf) :=
  match c with CLeaf _ => [] | CGroup d => d | CList xs | CArr xs => indexed 0 xs end.
Lemma flat_elems_indexed f xs : forall i ret, flat_elems f i xs ret = flat_entries f (indexed i xs) ret.
Proof. induction xs as [|v r IH]; intros i ret; cbn; [reflexivity|apply IH]. Qed.
Lemma flat_eq c : flat c = flat_entries flat (entries c) [].
Proof. destruct c; cbn [flat entries]; try reflexivity; apply flat_elems_indexed. Qed.
Lemma flat_nil c : flat c = [] <-> entries c = [].
Proof.
  rewrite flat_eq. split; [|intros ->; reflexivity].
  destruct (entries c) as [|[k v] r]; [reflexivity|]. cbn. intros E. exfalso. revert E.
  apply flat_entries_nonempty, flat_one_nonempty.
Qed.

Lemma bracket_no_dot i : has_char dot (bracket i) = false.
Proof.
  unfold bracket. rewrite !has_char_app.
  rewrite str_of_Z_no by reflexivity. reflexivity.
Qed.
Lemma app_inv_head_str a b c : (a ++ b = a ++ c)%string -> b = c.
Proof. induction a as [|x a IH]; cbn; [auto|]. intros E. injection E. exact IH. Qed.
Lemma app_inv_tail_str x a b : (a ++ String x "" = b ++ String x "")%string -> a = b.
Proof.
  revert b. induction a as [|y a IH]; intros [|z b] E; cbn in E; try reflexivity.
  - injection E as _ E. destruct b; discriminate.
  - injection E as _ E. destruct a; discriminate.
  - injection E as -> E. f_equal. apply IH, E.
Qed.
Lemma bracket_inj i j : bracket i = bracket j -> i = j.
Proof.
  unfold bracket. intros E. apply app_inv_head_str in E. apply app_inv_tail_str in E.
  apply (f_equal Z_of_str) in E. rewrite !Z_of_str_of_Z in E. injection E as E. lia.
Qed.
Lemma in_indexed xs : forall i k v, In (k, v) (indexed i xs) <-> exists j, k = bracket (i + j) /\ nth_error xs j = Some v.
Proof.
  induction xs as [|x xs IH]; intros i k v; cbn.
  - split; [intros []|]. intros ([|j] & _ & E); discriminate.
  - rewrite IH. split.
    + intros [E|(j & -> & E)].
      * injection E as <- <-. exists 0. rewrite Nat.add_0_r. auto.
      * exists (S j). rewrite Nat.add_succ_r. auto.
    + intros ([|j] & -> & E).
      * left. cbn in E. injection E as ->. rewrite Nat.add_0_r. reflexivity.
      * right. exists j. rewrite Nat.add_succ_r. auto.
Qed.
Lemma indexed_nodup xs : forall i, NoDup (map fst (indexed i xs)).
Proof.
  induction xs as [|x xs IH]; intros i; cbn; constructor; [|apply IH].
  intros HI. apply keys_in in HI. destruct HI as (v & HI). apply in_indexed in HI.
  destruct HI as (j & E & _). apply bracket_inj in E. lia.
Qed.
Lemma entries_proper c : proper c -> NoDup (map fst (entries c)) /\
  forall k v, In (k, v) (entries c) -> has_char dot k = false /\ proper v.
Proof.
  intros P. destruct c as [x|d|xs|xs]; cbn [entries].
  - split; [constructor|intros k v []].
  - inversion P; subst. auto.
  - split; [apply indexed_nodup|]. intros k v HI. apply in_indexed in HI. destruct HI as (j & -> & E).
    split; [apply bracket_no_dot|]. apply nth_error_In in E. eapply proper_seq; eauto.
  - split; [apply indexed_nodup|]. intros k v HI. apply in_indexed in HI. destruct HI as (j & -> & E).
    split; [apply bracket_no_dot|]. apply nth_error_In in E. eapply proper_seq; eauto.
Qed.
Lemma at_path_entries c k r w : at_path c (k :: r) w <-> exists v, In (k, v) (entries c) /\ at_path v r w.
Proof.
  split.
  - intros A. inversion A; subst; cbn [entries]; eauto.
    + exists v. split; [|assumption]. apply in_indexed. exists i. auto.
    + exists v. split; [|assumption]. apply in_indexed. exists i. auto.
  - intros (v & HI & A). destruct c; cbn [entries] in HI.
    + destruct HI.
    + eapply AP_group; eassumption.
    + apply in_indexed in HI. destruct HI as (j & -> & E). eapply AP_list; eassumption.
    + apply in_indexed in HI. destruct HI as (j & -> & E). eapply AP_arr; eassumption.
Qed.
Lemma recorded_none c : recorded c None <-> (entries c = [] /\ forall x, c <> CLeaf x).
Proof.
  split.
  - intros R. inversion R; subst; cbn; split; try reflexivity; discriminate.
  - intros (E & N). destruct c as [x|[|]|[|]|[|]]; try discriminate; try constructor. exfalso. eapply N. reflexivity.
Qed.

(** What one key contributes. *)
Definition contrib (k : string) (v : conf) (key : string) (y : option leaf) : Prop :=
  match v with
  | CLeaf x => key = k /\ y = Some x
  | _ => (flat v = [] /\ key = k /\ y = None) \/
         (exists r, key = (k ++ String dot r)%string /\ sget (flat v) r = Some y)
  end.

Lemma fold_prefix k sub : NoDup (map fst sub) -> forall (ret : list (string * option leaf)) key y,
  sget (fold_left (fun ret kv => sset ret (k ++ String dot (fst kv))%string (snd kv)) sub ret) key = Some y <->
  (exists r, key = (k ++ String dot r)%string /\ sget sub r = Some y) \/
  ((forall r, key = (k ++ String dot r)%string -> sget sub r = None) /\ sget ret key = Some y).
Proof.
  induction sub as [|[a b] sub IH]; intros N ret key y; cbn [fold_left fst snd].
  - split.
    + intros E. right. split; [reflexivity|assumption].
    + intros [(r & _ & E)|(_ & E)]; [discriminate|assumption].
  - inversion N as [|? ? N1 N2]; subst. rewrite (IH N2). clear IH.
    assert (INJ : forall r r', (k ++ String dot r = k ++ String dot r')%string -> r = r').
    { intros r r' E. apply app_inv_head_str in E. congruence. }
    assert (SC : forall r, sget ((a, b) :: sub) r = if String.eqb r a then Some b else sget sub r) by reflexivity.
    split.
    + intros [(r & -> & E)|(A & E)].
      * left. exists r. split; [reflexivity|]. rewrite SC. destruct (String.eqb_spec r a) as [->|]; [|assumption].
        exfalso. apply N1. apply sget_in in E. eapply in_keys, E.
      * rewrite sget_sset in E. destruct (String.eqb_spec key (k ++ String dot a)) as [->|D].
        -- left. exists a. rewrite SC, String.eqb_refl. split; [reflexivity|exact E].
        -- right. split; [|assumption]. intros r ->. rewrite SC. destruct (String.eqb_spec r a) as [->|]; [congruence|].
           apply A. reflexivity.
    + intros [(r & -> & E)|(A & E)].
      * rewrite SC in E. destruct (String.eqb r a) eqn:D; [apply String.eqb_eq in D; subst r|].
        -- right. split.
           ++ intros r' E'. apply INJ in E'. subst r'. apply sget_none. exact N1.
           ++ rewrite sget_sset_same. exact E.
        -- left. exists r. auto.
      * right. split.
        -- intros r ->. specialize (A r eq_refl). rewrite SC in A. destruct (String.eqb r a); [discriminate|assumption].
        -- rewrite sget_sset. destruct (String.eqb_spec key (k ++ String dot a)) as [->|D]; [|assumption].
           specialize (A a eq_refl). rewrite SC, String.eqb_refl in A. discriminate.
Qed.

Lemma fold_sset_nodup {A V} (g : A -> string) (h : A -> V) l ret : NoDup (map fst ret) ->
  NoDup (map fst (fold_left (fun ret kv => sset ret (g kv) (h kv)) l ret)).
Proof. revert ret. induction l as [|x l IH]; intros ret N; cbn; [assumption|]. apply IH, sset_nodup, N. Qed.
Lemma flat_one_nodup f ret k v : NoDup (map fst ret) -> NoDup (map fst (flat_one f ret k v)).
Proof.
  intros N. assert (A : NoDup (map fst (flat_entry ret k (f v)))).
  { unfold flat_entry. destruct (f v); [apply sset_nodup, N|]. apply fold_sset_nodup, N. }
  destruct v; cbn; try exact A. apply sset_nodup, N.
Qed.
Lemma flat_nodup c : NoDup (map fst (flat c)).
Proof.
  rewrite flat_eq. assert (A : NoDup (map fst (@nil (string * option leaf)))) by constructor.
  revert A. generalize (@nil (string * option leaf)). induction (entries c) as [|[k v] d IH]; intros ret N; cbn; [assumption|].
  apply IH, flat_one_nodup, N.
Qed.

Lemma flat_one_get ret k v key y : sget (flat_one flat ret k v) key = Some y <->
  contrib k v key y \/ ((forall z, ~ contrib k v key z) /\ sget ret key = Some y).
Proof.
  assert (NL : (forall x, v <> CLeaf x) -> sget (flat_entry ret k (flat v)) key = Some y <->
    ((flat v = [] /\ key = k /\ y = None) \/ (exists r, key = (k ++ String dot r)%string /\ sget (flat v) r = Some y)) \/
    ((forall z, ~ ((flat v = [] /\ key = k /\ z = None) \/ (exists r, key = (k ++ String dot r)%string /\ sget (flat v) r = Some z)))
     /\ sget ret key = Some y)).
  { intros _. unfold flat_entry. pose proof (flat_nodup v) as N. destruct (flat v) as [|a sub] eqn:E.
    - cbn [fold_left]. rewrite sget_sset. destruct (String.eqb_spec key k) as [->|D].
      + split.
        * intros Q. injection Q as <-. left. left. auto.
        * intros [[(_ & _ & ->)|(r & _ & Q)]|(Q & _)]; [reflexivity|discriminate|].
          exfalso. apply (Q None). left. auto.
      + split.
        * intros Q. right. split; [|assumption]. intros z [(_ & Q' & _)|(r & _ & Q')]; [auto|discriminate].
        * intros [[(_ & Q & _)|(r & _ & Q)]|(_ & Q)]; [contradiction|discriminate|assumption].
    - rewrite fold_prefix by exact N. split.
      + intros [A|(A & B)]; [left; right; exact A|right]. split; [|assumption].
        intros z [(Q & _)|(r & Q1 & Q2)]; [discriminate|]. rewrite (A r Q1) in Q2. discriminate.
      + intros [[(Q & _)|A]|(A & B)]; [discriminate|left; exact A|right]. split; [|assumption].
        intros r Q. destruct (sget (a :: sub) r) as [z|] eqn:Ez; [|reflexivity].
        exfalso. apply (A z). right. eauto. }
  destruct v as [x| | |]; cbn [flat_one contrib]; try (apply NL; discriminate).
  rewrite sget_sset. destruct (String.eqb_spec key k) as [->|D].
  - split.
    + intros Q. injection Q as <-. auto.
    + intros [(_ & ->)|(A & _)]; [reflexivity|]. exfalso. eapply A. eauto.
  - split.
    + intros Q. right. split; [|assumption]. intros z (Q' & _). auto.
    + intros [(Q & _)|(_ & Q)]; [contradiction|assumption].
Qed.

Lemma contrib_path k v key y : has_char dot k = false ->
  (forall r z, (sget (flat v) r = Some z <-> exists w, at_path v (split dot r) w /\ recorded w z)) ->
  (contrib k v key y <-> exists r w, split dot key = k :: r /\ at_path v r w /\ recorded w y).
Proof.
  intros D IH.
  assert (KEY : forall c r, (split dot key = k :: c :: r) <-> exists q, key = (k ++ String dot q)%string /\ split dot q = c :: r).
  { intros c r. split.
    - intros E. assert (X : extends k key).
      { apply split_prefix. rewrite (split_none dot k D). exists (c :: r). exact E. }
      destruct X as [->|(q & ->)].
      + rewrite (split_none dot k D) in E. discriminate.
      + exists q. split; [reflexivity|]. cbn [append] in E. rewrite split_app, (split_none dot k D) in E.
        injection E as E. exact E.
    - intros (q & -> & E). rewrite split_app, (split_none dot k D), E. reflexivity. }
  assert (KEY0 : split dot key = [k] <-> key = k).
  { split; [|intros ->; apply split_none, D]. intros E.
    assert (X : extends k key). { apply split_prefix. rewrite (split_none dot k D). exists []. exact E. }
    destruct X as [|(q & ->)]; [assumption|]. cbn [append] in E. rewrite split_app, (split_none dot k D) in E.
    pose proof (split_nonempty dot q). destruct (split dot q); [congruence|discriminate]. }
  split.
  - intros C. assert (C' : (exists x, v = CLeaf x /\ key = k /\ y = Some x) \/
       ((forall x, v <> CLeaf x) /\ ((flat v = [] /\ key = k /\ y = None) \/
         (exists r, key = (k ++ String dot r)%string /\ sget (flat v) r = Some y)))).
    { destruct v; cbn in C; [left; eauto|right|right|right]; split; try discriminate; assumption. }
    destruct C' as [(x & -> & -> & ->)|(NL & [(E & -> & ->)|(r & -> & E)])].
    + exists [], (CLeaf x). rewrite KEY0. split; [reflexivity|]. split; constructor.
    + exists [], v. rewrite KEY0. split; [reflexivity|]. split; [constructor|].
      apply recorded_none. split; [apply flat_nil, E|assumption].
    + apply IH in E. destruct E as (w & A & R). pose proof (split_nonempty dot r) as N.
      exists (split dot r), w. split; [|auto]. destruct (split dot r) as [|c0 r0] eqn:ES; [congruence|].
      apply KEY. eauto.
  - intros (r & w & E & A & R). destruct r as [|c r].
    + apply KEY0 in E. subst key. inversion A; subst.
      destruct y as [x|].
      * inversion R; subst. cbn. auto.
      * apply recorded_none in R. destruct R as (R & NL). apply flat_nil in R.
        destruct w; cbn; [exfalso; eapply NL; reflexivity| | |]; left; auto.
    + apply KEY in E. destruct E as (q & -> & E).
      destruct v as [x| | |]; cbn; [inversion A| | |]; right; exists q; (split; [reflexivity|]);
        apply IH; exists w; rewrite E; auto.
Qed.

Theorem flat_get c : proper c -> forall key y, sget (flat c) key = Some y <->
  exists w, at_path c (split dot key) w /\ recorded w y.
Proof.
  assert (ST : forall c, proper c ->
     (forall k v, In (k, v) (entries c) -> forall key y, sget (flat v) key = Some y <->
        exists w, at_path v (split dot key) w /\ recorded w y) ->
     forall key y, sget (flat c) key = Some y <-> exists w, at_path c (split dot key) w /\ recorded w y).
  { intros c0 Pc IH key y. destruct (entries_proper _ Pc) as (N & Pe). rewrite flat_eq.
    assert (G : forall d ret, NoDup (map fst d) -> (forall k v, In (k, v) d -> In (k, v) (entries c0)) ->
       (sget (flat_entries flat d ret) key = Some y <->
        (exists k v, In (k, v) d /\ contrib k v key y) \/
        ((forall k v z, In (k, v) d -> ~ contrib k v key z) /\ sget ret key = Some y))).
    { induction d as [|[k v] d IHd]; intros ret Nd Sd; cbn [flat_entries].
      - split; [intros E; right; split; [intros k v z []|assumption]|].
        intros [(k & v & [] & _)|(_ & E)]; assumption.
      - inversion Nd as [|? ? N1 N2]; subst.
        rewrite IHd; [|assumption|intros k' v' HI; apply Sd; right; exact HI].
        rewrite flat_one_get.
        assert (DIS : forall k' v' z z', In (k', v') d -> contrib k' v' key z -> contrib k v key z' -> False).
        { intros k' v' z z' HI C1 C2. assert (HI1 := Sd _ _ (or_intror HI)). assert (HI2 := Sd _ _ (or_introl eq_refl)).
          apply (contrib_path k' v' key z) in C1; [|eapply Pe, HI1|exact (IH _ _ HI1)].
          apply (contrib_path k v key z') in C2; [|eapply Pe, HI2|exact (IH _ _ HI2)].
          destruct C1 as (r1 & w1 & E1 & _). destruct C2 as (r2 & w2 & E2 & _).
          assert (k = k') as <- by congruence. apply N1. eapply in_keys, HI. }
        split.
        + intros [(k' & v' & HI & C)|(A & [C|(B & E)])].
          * left. exists k', v'. split; [right; exact HI|exact C].
          * left. exists k, v. split; [left; reflexivity|exact C].
          * right. split; [|exact E]. intros k' v' z [Q|HI]; [injection Q as <- <-; apply B|apply A, HI].
        + intros [(k' & v' & [Q|HI] & C)|(A & E)].
          * injection Q as <- <-. right. split; [|left; exact C]. intros k' v' z HI C'. eapply DIS; eassumption.
          * left. eauto.
          * right. split; [intros k' v' z HI; apply A; right; exact HI|]. right. split; [|exact E].
            intros z. apply A. left. reflexivity. }
    rewrite G; [|assumption|auto]. split.
    - intros [(k & v & HI & C)|(_ & E)]; [|discriminate].
      apply (contrib_path k v key y) in C; [|eapply Pe, HI|exact (IH _ _ HI)].
      destruct C as (r & w & E & A & R). exists w. rewrite E. split; [|assumption].
      apply at_path_entries. eauto.
    - intros (w & A & R). left. pose proof (split_nonempty dot key) as NE.
      destruct (split dot key) as [|k r] eqn:E; [congruence|].
      apply at_path_entries in A. destruct A as (v & HI & A). exists k, v. split; [assumption|].
      apply contrib_path; [eapply Pe, HI|exact (IH _ _ HI)|]. rewrite E. eauto. }
  induction c as [x|d IH|xs IH|xs IH] using conf_rect'; intros Pc; apply ST; auto.
  - intros k v [].
  - intros k v HI. eapply IH; [exact HI|]. inversion Pc; subst. eapply H1. exact HI.
  - intros k v HI. apply in_indexed in HI. destruct HI as (j & _ & E). apply nth_error_In in E.
    apply IH; [assumption|]. eapply proper_seq; eauto.
  - intros k v HI. apply in_indexed in HI. destruct HI as (j & _ & E). apply nth_error_In in E.
    apply IH; [assumption|]. eapply proper_seq; eauto.
Qed.

(** ** Differences *)
Lemma fold_step {V W} (g : string * V -> option W) (step : list (string * W) -> string * V -> list (string * W)) :
  (forall ret kv, step ret kv = match g kv with None => ret | Some y => sset ret (fst kv) y end) ->
  forall l, NoDup (map fst l) -> forall ret key,
  sget (fold_left step l ret) key =
    match sget l key with
    | Some v => match g (key, v) with Some y => Some y | None => sget ret key end
    | None => sget ret key
    end.
Proof.
  intros S l. induction l as [|[k v] l IH]; intros N ret key; [reflexivity|].
  inversion N as [|? ? N1 N2]; subst. cbn [fold_left]. rewrite IH by assumption. rewrite S.
  cbn [fst]. change (sget ((k, v) :: l) key) with (if String.eqb key k then Some v else sget l key).
  destruct (String.eqb_spec key k) as [->|D].
  - cbn [fst] in N1. apply sget_none in N1. rewrite N1. destruct (g (k, v)); [apply sget_sset_same|reflexivity].
  - assert (E : sget (match g (k, v) with Some y => sset ret k y | None => ret end) key = sget ret key).
    { destruct (g (k, v)); [apply sget_sset_other, D|reflexivity]. }
    rewrite E. reflexivity.
Qed.

Lemma flat_val_agree x y : flat_val_eqb x y = true <-> agree (Some x) (Some y).
Proof. destruct x, y; cbn; try (split; [discriminate|intros []]); [apply leaf_eqb_spec|tauto]. Qed.

Theorem diffs_get a b key :
  (agree (sget (flat a) key) (sget (flat b) key) -> sget (diffs a b) key = None) /\
  (~ agree (sget (flat a) key) (sget (flat b) key) ->
   sget (diffs a b) key = Some (sget (flat a) key, sget (flat b) key)).
Proof.
  unfold diffs.
  rewrite (fold_step (fun kv => match sget (flat a) (fst kv) with None => Some (None, Some (snd kv)) | Some _ => None end));
    [|intros ret kv; destruct (sget (flat a) (fst kv)); reflexivity|apply flat_nodup].
  rewrite (fold_step (fun kv => match sget (flat b) (fst kv) with
      | None => Some (Some (snd kv), None)
      | Some w => if flat_val_eqb (snd kv) w then None else Some (Some (snd kv), Some w) end));
    [|intros ret kv; destruct (sget (flat b) (fst kv)); [destruct (flat_val_eqb (snd kv) o)|]; reflexivity|apply flat_nodup].
  cbn [fst snd]. change (sget [] key) with (@None (option (option leaf) * option (option leaf))).
  destruct (sget (flat a) key) as [x|], (sget (flat b) key) as [y|].
  - destruct (flat_val_eqb x y) eqn:E.
    + apply flat_val_agree in E. split; [reflexivity|]. intros N. contradiction.
    + split; [|reflexivity]. intros A. apply flat_val_agree in A. congruence.
  - split; [|reflexivity]. destruct x; intros [].
  - split; [|reflexivity]. intros [].
  - split; [reflexivity|]. intros N. exfalso. apply N. exact I.
Qed.

Lemma agree_dec x y : agree x y \/ ~ agree x y.
Proof.
  destruct x as [x|], y as [y|].
  - destruct (flat_val_eqb x y) eqn:E; [left; apply flat_val_agree, E|right].
    intros A. apply flat_val_agree in A. congruence.
  - right. destruct x; intros [].
  - right. intros [].
  - left. exact I.
Qed.
Lemma agree_sym x y : agree x y -> agree y x.
Proof.
  destruct x as [[|]|], y as [[|]|]; cbn; auto. apply py_equal_sym.
Qed.

Theorem diffs_empty a b : diffs a b = [] <-> forall key, agree (sget (flat a) key) (sget (flat b) key).
Proof.
  split.
  - intros E key. destruct (agree_dec (sget (flat a) key) (sget (flat b) key)) as [A|A]; [assumption|exfalso].
    apply diffs_get in A. rewrite E in A. discriminate.
  - intros A. destruct (diffs a b) as [|[k v] r] eqn:E; [reflexivity|exfalso].
    destruct (diffs_get a b k) as (D & _). specialize (D (A k)). rewrite E in D.
    unfold sget in D. cbn in D. rewrite String.eqb_refl in D. discriminate.
Qed.
Theorem diffs_swap a b key : sget (diffs b a) key =
  match sget (diffs a b) key with None => None | Some (x, y) => Some (y, x) end.
Proof.
  destruct (diffs_get a b key) as (A1 & A2). destruct (diffs_get b a key) as (B1 & B2).
  destruct (agree_dec (sget (flat a) key) (sget (flat b) key)) as [A|A].
  - rewrite A1 by assumption. apply B1, agree_sym, A.
  - rewrite A2 by assumption. apply B2. intros B. apply A, agree_sym, B.
Qed.

(** ** Equivalent configurations have no differences *)
Lemma same_path f l a b p w : same_settings f l a b -> at_path a p w ->
  exists l' w', at_path b p w' /\ same_settings f l' w w'.
Proof.
  intros S A. revert l b S. induction A as [c|d k v r w HI A IH|xs i v r w E A IH|xs i v r w E A IH]; intros l b S.
  - exists l, b. split; [constructor|assumption].
  - destruct (group_inv _ _ _ _ S) as (e & -> & H1 & H2). destruct (H1 k v HI) as (u & HI2 & S2).
    destruct (IH _ _ S2) as (l' & w' & A' & S'). exists l', w'. split; [|assumption]. eapply AP_group; eassumption.
  - destruct (seq_inv _ _ _ _ S xs (or_introl eq_refl)) as (ys & D & F2).
    assert (exists u, nth_error ys i = Some u /\ same_settings f true v u) as (u & E2 & S2).
    { clear - E F2. revert i E. induction F2 as [|x y xs ys S F2 IH]; intros [|i] E; cbn in E; try discriminate.
      - injection E as ->. exists y. auto.
      - apply IH, E. }
    destruct (IH _ _ S2) as (l' & w' & A' & S'). exists l', w'. split; [|assumption].
    destruct D as [-> | ->]; [eapply AP_list|eapply AP_arr]; eassumption.
  - destruct (seq_inv _ _ _ _ S xs (or_intror eq_refl)) as (ys & D & F2).
    assert (exists u, nth_error ys i = Some u /\ same_settings f true v u) as (u & E2 & S2).
    { clear - E F2. revert i E. induction F2 as [|x y xs ys S F2 IH]; intros [|i] E; cbn in E; try discriminate.
      - injection E as ->. exists y. auto.
      - apply IH, E. }
    destruct (IH _ _ S2) as (l' & w' & A' & S'). exists l', w'. split; [|assumption].
    destruct D as [-> | ->]; [eapply AP_list|eapply AP_arr]; eassumption.
Qed.
Lemma same_recorded l a b x : same_settings (fun s => s) l a b -> recorded a x ->
  exists y, recorded b y /\ agree (Some x) (Some y).
Proof.
  intros S R. destruct R.
  - destruct (leaf_inv _ _ _ _ S) as (y & ->). exists (Some y). split; [constructor|]. cbn.
    apply same_leaf in S. destruct S as [(s & t & -> & -> & E)|(_ & P & _)]; [subst; constructor|assumption].
  - destruct (group_inv _ _ _ _ S) as (e & -> & _ & H). destruct e as [|[k v] e].
    + exists None. split; [constructor|exact I].
    + exfalso. apply (H k). left. reflexivity.
  - destruct (seq_inv _ _ _ _ S [] (or_introl eq_refl)) as (ys & D & F2). inversion F2; subst.
    exists None. split; [destruct D as [-> | ->]; constructor|exact I].
  - destruct (seq_inv _ _ _ _ S [] (or_intror eq_refl)) as (ys & D & F2). inversion F2; subst.
    exists None. split; [destruct D as [-> | ->]; constructor|exact I].
Qed.
Theorem equiv_no_diffs a b : proper a -> proper b -> equiv [] false a b = true -> diffs a b = [].
Proof.
  intros Pa Pb E. apply equiv_spec in E; [|assumption|assumption]. cbn in E.
  change (translate []) with (fun s : string => s) in E.
  apply diffs_empty. intros key.
  assert (ONE : forall c d, proper c -> proper d -> same_settings (fun s => s) false c d -> forall x,
     sget (flat c) key = Some x -> exists y, sget (flat d) key = Some y /\ agree (Some x) (Some y)).
  { intros c d Pc Pd S x G. apply (flat_get c Pc) in G. destruct G as (w & A & R).
    destruct (same_path _ _ _ _ _ _ S A) as (l' & w' & A' & S').
    destruct (same_recorded _ _ _ _ S' R) as (y & R' & AG). exists y. split; [|assumption].
    apply (flat_get d Pd). eauto. }
  destruct (sget (flat a) key) as [x|] eqn:Ea.
  - destruct (ONE a b Pa Pb E x Ea) as (y & -> & A). exact A.
  - destruct (sget (flat b) key) as [y|] eqn:Eb; [|exact I].
    destruct (ONE b a Pb Pa (same_sym _ _ _ _ Pa Pb E) y Eb) as (x & Ex & _). congruence.
Qed.
