From Verif Require Import StrBase CuModel CfgModel CfgSpec CfgProof CfgSetProof.
From Coq Require Import Lia.
Open Scope list_scope.
Open Scope Z_scope.

Lemma at_dot_none s : has_char "." s = false -> at_dot s = None.
Proof. induction s as [|a s IH]; cbn [has_char at_dot]; [reflexivity|]. intros H. apply orb_false_iff in H. destruct H as [-> H]. now rewrite (IH H). Qed.
Lemma at_dot_some a b : has_char "." a = false -> at_dot (a ++ String "." b) = Some (a, b).
Proof. induction a as [|x a IH]; cbn; [reflexivity|]. intros H. apply orb_false_iff in H. destruct H as [-> H]. now rewrite (IH H). Qed.
Lemma length_app' a b : String.length (a ++ b) = (String.length a + String.length b)%nat.
Proof. induction a as [|x a IH]; cbn; congruence. Qed.
Lemma dotted_length p : proper_path p -> (length p <= String.length (dotted p))%nat.
Proof.
  intros [_ H]. induction p as [|a [|b p] IH]; [cbn; lia| |].
  - specialize (H a (or_introl eq_refl)). destruct H as (x & r & -> & _). cbn. lia.
  - rewrite dotted_cons, length_app'. cbn [String.length length]. cbn [length] in IH.
    assert (A : (1 <= String.length a)%nat) by (destruct (H a (or_introl eq_refl)) as (x & r & -> & _); cbn; lia).
    assert ((length (b :: p) <= String.length (dotted (b :: p)))%nat) by (apply IH; intros n N; apply H; now right). cbn [length] in *. lia.
Qed.
Lemma dotted_nonempty p : proper_path p -> dotted p <> ""%string.
Proof. intros H. pose proof (dotted_length _ H) as L. destruct H as [N _]. destruct p; [congruence|]. intros E. rewrite E in L. cbn in L. lia. Qed.
Lemma proper_tail a b p : proper_path (a :: b :: p) -> proper_path (b :: p).
Proof. intros [_ H]. split; [discriminate|]. intros n N. apply H. now right. Qed.
Lemma proper_head a p : proper_path (a :: p) -> proper_name a.
Proof. intros [_ H]. apply H. now left. Qed.

Section Read.
Context {D : Type} (neg : Z -> option Z).
Implicit Types root s t : setting D.
Lemma has_loop_proper : forall p fuel s, proper_path p -> (length p <= Datatypes.S fuel)%nat ->
  has_loop D fuel s (dotted p) = Done (match walk D s p with Some _ => true | None => false end).
Proof.
  induction p as [|a [|b p] IH]; intros fuel s P L; [destruct P; congruence| |].
  - change (dotted [a]) with a. pose proof (proper_head _ _ P) as A. destruct fuel; cbn [has_loop]; rewrite (at_dot_none _ (proper_dotless _ A)); unfold exists_; cbn [walk]; now destruct (member D s a).
  - pose proof (proper_head _ _ P) as A. pose proof (proper_tail _ _ _ P) as T. rewrite dotted_cons.
    destruct fuel as [|fuel]; [cbn [length] in L; lia|]. cbn [has_loop]. rewrite (at_dot_some _ _ (proper_dotless _ A)).
    destruct (String.eqb_spec a ""); [now apply proper_nonempty in A|]. destruct (String.eqb_spec (dotted (b :: p)) ""); [now apply dotted_nonempty in T|].
    cbn [orb]. unfold exists_. rewrite (lookup_one _ _ A). change (walk D s (a :: b :: p)) with (match member D s a with Some t => walk D t (b :: p) | None => None end).
    destruct (member D s a) as [t|]; [|reflexivity]. cbn [negb]. apply IH; [assumption|cbn [length] in *; lia].
Qed.
Lemma setting_has_proper s p : proper_path p -> setting_has D s (dotted p) = Done (match walk D s p with Some _ => true | None => false end).
Proof. intros P. apply has_loop_proper; [assumption|]. pose proof (dotted_length _ P). lia. Qed.
Lemma read_value_proper ty s p : proper_path p ->
  read_value D neg ty s (dotted p) = match match walk D s p with Some x => convert D neg ty x | None => None end with Some v => Done v | None => Fails InvalidConfiguration end.
Proof. intros P. unfold read_value. now rewrite lookup_proper. Qed.
Lemma read_loop_proper ty : forall p fuel s, proper_path p -> (length p <= Datatypes.S fuel)%nat ->
  setting_read_loop D neg fuel ty s (dotted p) = read_value D neg ty s (dotted p).
Proof.
  induction p as [|a [|b p] IH]; intros fuel s P L; [destruct P; congruence| |].
  - change (dotted [a]) with a. pose proof (proper_head _ _ P) as A. destruct fuel; cbn [setting_read_loop]; rewrite (at_dot_none _ (proper_dotless _ A)); reflexivity.
  - pose proof (proper_head _ _ P) as A. pose proof (proper_tail _ _ _ P) as T. rewrite (read_value_proper ty s _ P). rewrite dotted_cons.
    destruct fuel as [|fuel]; [cbn [length] in L; lia|]. cbn [setting_read_loop]. rewrite (at_dot_some _ _ (proper_dotless _ A)).
    destruct (String.eqb_spec a ""); [now apply proper_nonempty in A|]. destruct (String.eqb_spec (dotted (b :: p)) ""); [now apply dotted_nonempty in T|].
    cbn [orb]. unfold exists_. rewrite (lookup_one _ _ A). change (walk D s (a :: b :: p)) with (match member D s a with Some t => walk D t (b :: p) | None => None end).
    destruct (member D s a) as [t|]; [|reflexivity]. cbn [negb]. rewrite IH; [|assumption|cbn [length] in *; lia]. now apply read_value_proper.
Qed.
Lemma setting_read_proper ty s p : proper_path p -> setting_read D neg ty s (dotted p) = read_value D neg ty s (dotted p).
Proof. intros P. apply read_loop_proper; [assumption|]. pose proof (dotted_length _ P). lia. Qed.

Lemma convert_iff ty s v : ~ negative_read ty s -> (convert D neg ty s = Some v <-> s = Scalar v /\ has_type v ty).
Proof.
  intros N. split.
  - destruct s as [[b|z|z|d|x]| | |], ty; cbn [convert]; try discriminate; try (intros [= <-]; split; [reflexivity|constructor]).
    destruct (Z.ltb_spec z 0); [exfalso; apply N; split; eauto|]. intros [= <-]. split; [reflexivity|]. now constructor.
  - intros [-> T]. destruct T; try reflexivity. cbn [convert]. destruct (Z.ltb_spec z 0); [lia|reflexivity].
Qed.
Lemma nth_child_loop (l : list (option string * setting D)) : forall i c, child_loop D c (c + i) l = match nth_error l i with Some x => Done x | None => Fails InvalidArgument end.
Proof.
  induction l as [|x l IH]; intros i c; cbn [child_loop]; [destruct i; reflexivity|].
  destruct i as [|i].
  - rewrite Nat.add_0_r, Nat.eqb_refl. reflexivity.
  - destruct (Nat.eqb_spec c (c + Datatypes.S i)); [lia|]. replace (c + Datatypes.S i)%nat with (Datatypes.S c + i)%nat by lia. apply IH.
Qed.
Lemma getChild_nth s i : getChild D s i = match nth_error (children D s) i with Some x => Done x | None => Fails InvalidArgument end.
Proof. exact (nth_child_loop _ i 0%nat). Qed.
Lemma length_children s : length (children D s) = getLength D s.
Proof. destruct s; cbn; rewrite ?map_length; reflexivity. Qed.
Lemma names_loop_ok names offender m : forall n b a, m = b ++ a -> n = length a ->
  names_loop D n (length b) (Group m) names offender =
  match find (fun x => negb (existsb (String.eqb x) names)) (map fst a) with Some x => Done (false, x) | None => Done (true, offender) end.
Proof.
  induction n as [|n IH]; intros b a E L.
  - destruct a; [reflexivity|discriminate].
  - destruct a as [|[k t] a]; [discriminate|]. cbn [names_loop]. rewrite getChild_nth. cbn [children].
    rewrite (map_nth_error (fun p => (Some (fst p), snd p)) (length b) m (d := (k, t))).
    2:{ subst m. rewrite nth_error_app2 by lia. rewrite Nat.sub_diag. reflexivity. }
    cbn [fst snd map find]. destruct (existsb (String.eqb k) names); cbn [negb]; [|reflexivity].
    specialize (IH (b ++ [(k, t)]) a). rewrite app_length in IH. cbn [length] in IH. rewrite Nat.add_1_r in IH. apply IH; [subst m; now rewrite <- app_assoc|cbn in L; lia].
Qed.
End Read.
