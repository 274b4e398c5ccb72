From Verif Require Import StrBase CuModel CfgModel CfgSpec CfgProof CfgSetProof CfgReadProof.
From Coq Require Import Lia.
Open Scope list_scope.
Open Scope Z_scope.

Section Names.
Context {D : Type}.
Implicit Types root s t : setting D.
Definition named root := forall q s, walk D root q = Some s -> forall n, In n q -> proper_name n.
Lemma named_well root : well_named root <-> named root.
Proof.
  unfold well_named, named. split.
  - intros H q s W n I. apply (H q s n); [now apply walk_reaches|assumption].
  - intros H q s n R I. apply (H q s); [now apply walk_reaches|assumption].
Qed.
Lemma begins_dec p q : begins p q \/ ~ begins p q.
Proof.
  revert q. induction p as [|a p IH]; intros q; [left; exists q; reflexivity|]. destruct q as [|b q]; [right; intros [r E]; discriminate|].
  destruct (String.string_dec a b) as [->|N].
  - destruct (IH q) as [[r ->]|H]; [left; exists r; reflexivity|]. right. intros [r E]. apply H. exists r. cbn in E. congruence.
  - right. intros [r E]. cbn in E. congruence.
Qed.
Lemma named_add root cur m n : named root -> walk D root cur = Some (Group m) -> proper_name n ->
  named (replace D root cur (Group (m ++ [(n, Group [])]))).
Proof.
  intros H W P q s Q k K. destruct (begins_dec q cur) as [[r E]|B].
  - apply (H cur (Group m) W). rewrite E. apply in_or_app. now left.
  - destruct (begins_dec cur q) as [[r ->]|B2].
    + rewrite (replace_below _ _ _ _ _ W) in Q. apply in_app_or in K. destruct K as [K|K]; [eapply H; eassumption|].
      destruct r as [|j r]; [contradiction|]. cbn [walk member] in Q. rewrite find_app in Q.
      destruct (find_member D j m) as [t|] eqn:E.
      * apply (H (cur ++ j :: r) s); [|apply in_or_app; now right]. rewrite walk_app, W. cbn [walk member]. now rewrite E.
      * cbn [find_member] in Q. destruct (String.eqb_spec n j) as [->|]; [|discriminate]. destruct r; [|discriminate]. destruct K as [<-|[]]. assumption.
    + rewrite replace_other in Q by assumption. eapply H; eassumption.
Qed.
Lemma set_loop_improper debug v : forall rest root cur c, named root -> walk D root cur = Some c ->
  (exists n, In n rest /\ ~ proper_name n) -> snd (set_loop D debug root cur rest v) <> None.
Proof.
  induction rest as [|n rest IH]; intros root cur c H W (x & I & X); [contradiction|].
  assert (PC : forall k, In k cur -> proper_name k) by (intros k K; eapply H; eassumption).
  assert (ST : forall t, member D c n = Some t -> proper_name n).
  { intros t M. apply (H (cur ++ [n]) t); [rewrite walk_snoc, W; exact M|apply in_or_app; right; now left]. }
  assert (AD : ~ proper_name n -> forall y, exists f, add D c n y = Fails f).
  { intros N y. unfold add. destruct c as [|m| |]; eauto. destruct (valid_name n) eqn:V; [apply proper_valid in V; contradiction|]. cbn [negb orb]. eauto. }
  destruct rest as [|n2 rest].
  - destruct I as [->|[]]. cbn [set_loop]. rewrite (pointee_walk _ _ _ W). destruct (member D c x) as [t|] eqn:M; [exfalso; eauto|].
    unfold createSetting, exists_. rewrite M. destruct (AD X (Scalar v)) as [f ->]. discriminate.
  - set (r := n2 :: rest) in *. change (set_loop D debug root cur (n :: r) v) with
      (let current := pointee D root cur in
       if exists_ D current n then
         match lookup D root (lookup_path cur n) with
         | Some t => if debug && negb (isAggregate D t) then (root, Some GeneralException) else set_loop D debug root (cur ++ [n]) r v
         | None => (root, Some SettingNotFoundException)
         end
       else match add D current n (Group []) with
            | Done new => set_loop D debug (replace D root cur new) (cur ++ [n]) r v
            | Fails f => (root, Some f)
            end).
    cbn zeta. rewrite (pointee_walk _ _ _ W). unfold exists_ at 1. destruct (member D c n) as [t|] eqn:M.
    + specialize (ST _ eq_refl). rewrite lookup_path_walk by assumption. rewrite walk_snoc, W, M.
      destruct (debug && negb (isAggregate D t)); [discriminate|]. destruct I as [->|I]; [contradiction|].
      apply (IH _ _ t); [assumption|rewrite walk_snoc, W; exact M|eauto].
    + destruct (valid_name n) eqn:V.
      * destruct c as [|m| |]; cbn [add]; try discriminate. unfold exists_. cbn [member] in M |- *. rewrite M, V. cbn [negb orb].
        apply proper_valid in V. destruct I as [->|I]; [contradiction|]. apply (IH _ _ (Group [])).
        -- now apply named_add.
        -- rewrite walk_snoc, (replace_at _ _ _ _ W). cbn [member]. rewrite find_app, M. cbn [find_member]. now rewrite String.eqb_refl.
        -- eauto.
      * destruct (AD ltac:(intros Q; apply proper_valid in Q; congruence) (Group [])) as [f ->]. discriminate.
Qed.
End Names.
