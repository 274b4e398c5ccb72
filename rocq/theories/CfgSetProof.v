From Verif Require Import StrBase CuModel CfgModel CfgSpec CfgProof.
From Coq Require Import Lia.
Open Scope list_scope.
Open Scope Z_scope.

Section Put.
Context {D : Type}.
Implicit Types root s t leaf : setting D.
(** The setting with [leaf] at the given path. *)
Fixpoint put (s : setting D) (p : list string) (leaf : setting D) : setting D :=
  match p, s with
  | [], _ => leaf
  | n :: r, Group m => match find_member D n m with
                       | Some t => Group (replace_member D n (put t r leaf) m)
                       | None => Group (m ++ [(n, put (Group []) r leaf)])
                       end
  | _, _ => s
  end.

Lemma replace_snoc root c n s m : walk D root c = Some (Group m) -> find_member D n m <> None ->
  replace D root (c ++ [n]) s = replace D root c (Group (replace_member D n s m)).
Proof.
  revert root. induction c as [|k c IH]; intros root; cbn [walk app replace].
  - intros [= ->] F. destruct (find_member D n m); [reflexivity|congruence].
  - destruct root as [|mm| |]; cbn [member]; try discriminate. destruct (find_member D k mm) as [t|] eqn:E; [|discriminate].
    intros W F. f_equal. f_equal. now apply IH.
Qed.
Lemma replace_member_twice n s t m : replace_member D n s (replace_member D n t m) = replace_member D n s m.
Proof. induction m as [|[k u] m IH]; cbn [replace_member]; [reflexivity|]. destruct (String.eqb k n) eqn:K; cbn [replace_member]; rewrite K; congruence. Qed.
Lemma replace_twice root c s t : walk D root c <> None -> replace D (replace D root c t) c s = replace D root c s.
Proof.
  revert root. induction c as [|k c IH]; intros root; cbn [walk replace]; [reflexivity|].
  destruct root as [|mm| |]; cbn [member]; try congruence. destruct (find_member D k mm) as [u|] eqn:E; [|congruence].
  intros W. rewrite (find_replace_same _ _ _ _ E). rewrite replace_member_twice. f_equal. f_equal. auto.
Qed.
Lemma replace_id root c s : walk D root c = Some s -> replace D root c s = root.
Proof.
  revert root. induction c as [|k c IH]; intros root; cbn [walk replace]; [congruence|].
  destruct root as [|mm| |]; cbn [member]; try discriminate. destruct (find_member D k mm) as [u|] eqn:E; [|discriminate].
  intros W. rewrite (IH _ W). f_equal. clear W IH. revert E. induction mm as [|[j v] mm IH]; cbn [find_member replace_member]; [reflexivity|].
  destruct (String.eqb j k); [intros [= ->]; reflexivity|intros E; f_equal; auto].
Qed.
Lemma replace_member_last n s t m : find_member D n m = None -> replace_member D n s (m ++ [(n, t)]) = m ++ [(n, s)].
Proof.
  induction m as [|[k u] m IH]; cbn [find_member replace_member app].
  - rewrite String.eqb_refl. reflexivity.
  - destruct (String.eqb k n); [discriminate|]. intros F. now rewrite IH.
Qed.

Lemma walk_group s n r t : walk D s (n :: r) = Some t -> exists m, s = Group m.
Proof. cbn [walk]. destruct s as [|m| |]; cbn [member]; try discriminate. eauto. Qed.

Definition free s (p : list string) := forall q r u, p = q ++ r -> r <> [] -> walk D s q = Some u -> exists m, u = Group m.
Lemma free_group s n r : free s (n :: r) -> exists m, s = Group m.
Proof. intros H. apply (H [] (n :: r)); [reflexivity|discriminate|reflexivity]. Qed.
Lemma free_member m n r t : free (Group m) (n :: r) -> find_member D n m = Some t -> free t r.
Proof. intros H F q r' u -> N W. apply (H (n :: q) r'); [reflexivity|assumption|]. cbn [walk member]. now rewrite F. Qed.
Lemma free_empty r : free (Group []) r.
Proof. intros q r' u -> N. destruct q; cbn; [intros [= <-]; eauto|discriminate]. Qed.

(** What [put] does. *)
Lemma put_at s p leaf : free s p -> walk D (put s p leaf) p = Some leaf.
Proof.
  revert s. induction p as [|n r IH]; intros s F; [reflexivity|]. destruct (free_group _ _ _ F) as [m ->]. cbn [put].
  destruct (find_member D n m) as [t|] eqn:E; cbn [walk member].
  - rewrite (find_replace_same _ _ _ _ E). apply IH. eapply free_member; eassumption.
  - rewrite find_app, E. cbn [find_member]. rewrite String.eqb_refl. apply IH, free_empty.
Qed.
Lemma put_other s p leaf q : free s p -> ~ begins p q -> ~ begins q p -> walk D (put s p leaf) q = walk D s q.
Proof.
  revert s q. induction p as [|n r IH]; intros s q F B1 B2; [exfalso; apply B1; exists q; reflexivity|].
  destruct q as [|k q]; [exfalso; apply B2; eexists; reflexivity|].
  destruct (free_group _ _ _ F) as [m ->]. cbn [put].
  assert (Q : k = n -> ~ begins r q /\ ~ begins q r).
  { intros ->. split; [intros [x ->]; apply B1|intros [x ->]; apply B2]; exists x; reflexivity. }
  destruct (find_member D n m) as [t|] eqn:E; cbn [walk member].
  - destruct (String.eqb_spec k n) as [->|K].
    + rewrite (find_replace_same _ _ _ _ E), E. destruct (Q eq_refl). apply IH; auto. eapply free_member; eassumption.
    + now rewrite find_replace_other.
  - rewrite find_app. destruct (String.eqb_spec k n) as [->|K].
    + rewrite E. cbn [find_member]. rewrite String.eqb_refl. destruct (Q eq_refl). rewrite IH; auto using free_empty.
      destruct q as [|j q]; [|reflexivity]. exfalso. apply H0. exists r. reflexivity.
    + destruct (find_member D k m); [reflexivity|]. cbn [find_member]. destruct (String.eqb_spec n k); [congruence|reflexivity].
Qed.
Lemma put_above s q r leaf : free s (q ++ r) -> r <> [] ->
  exists m', walk D (put s (q ++ r) leaf) q = Some (Group m')
  /\ forall m, walk D s q = Some (Group m) -> map fst m' = map fst m
      \/ exists n, map fst m' = map fst m ++ [n] /\ begins [n] r /\ walk D s (q ++ [n]) = None.
Proof.
  revert s. induction q as [|k q IH]; intros s F N.
  - cbn [app] in *. destruct r as [|n r]; [congruence|]. destruct (free_group _ _ _ F) as [m ->]. cbn [put].
    destruct (find_member D n m) as [t|] eqn:E; eexists; (split; [reflexivity|]); intros m0 [= <-].
    + left. apply keys_replace.
    + right. exists n. rewrite map_app. repeat split; [exists r; reflexivity|]. cbn [app walk member]. now rewrite E.
  - cbn [app] in *. destruct (free_group _ _ _ F) as [m ->]. cbn [put]. destruct (find_member D k m) as [t|] eqn:E; cbn [walk member].
    + rewrite (find_replace_same _ _ _ _ E), E. apply IH; [|assumption]. eapply free_member; eassumption.
    + rewrite find_app, E. cbn [find_member]. rewrite String.eqb_refl.
      destruct (IH (Group []) (free_empty _) N) as (m' & W & _). exists m'. split; [assumption|]. discriminate.
Qed.

(** The path of a pointer. *)
Lemma join_nonempty c : c <> [] -> (forall n, In n c -> proper_name n) -> join "." c <> ""%string.
Proof.
  destruct c as [|a [|b c]]; intros N H; [congruence| |].
  - cbn. apply proper_nonempty, H. now left.
  - pose proof (proper_nonempty a (H a (or_introl eq_refl))) as A. destruct a; [congruence|]. discriminate.
Qed.
Lemma join_snoc c n : c <> [] -> join "." (c ++ [n]) = (join "." c ++ "." ++ n)%string.
Proof.
  induction c as [|a [|b c] IH]; intros N; [congruence|reflexivity|].
  change (join "." ((a :: b :: c) ++ [n])) with (a ++ String "." (join "." ((b :: c) ++ [n])))%string. rewrite IH by discriminate.
  change (join "." (a :: b :: c)) with (a ++ String "." (join "." (b :: c)))%string.
  rewrite <- !str_app_assoc. reflexivity.
Qed.
Lemma lookup_path_dotted c n : (forall k, In k c -> proper_name k) -> lookup_path c n = dotted (c ++ [n]).
Proof.
  intros H. unfold lookup_path. rewrite dotted_join. destruct c as [|a c]; [reflexivity|].
  destruct (String.eqb_spec (join "." (a :: c)) "") as [E|_]; [exfalso; revert E; apply join_nonempty; [discriminate|assumption]|].
  cbn [negb]. rewrite join_snoc by discriminate. now rewrite str_app_assoc.
Qed.
Lemma lookup_path_walk root c n : (forall k, In k c -> proper_name k) -> proper_name n -> lookup D root (lookup_path c n) = walk D root (c ++ [n]).
Proof.
  intros H N. rewrite lookup_path_dotted by assumption. apply lookup_proper. split; [destruct c; discriminate|].
  intros k K. apply in_app_or in K. destruct K as [K|[<-|[]]]; auto.
Qed.
Lemma pointee_walk root c s : walk D root c = Some s -> pointee D root c = s.
Proof. unfold pointee. now intros ->. Qed.

Lemma assign_same w v : same_type w v -> assign D (Scalar w) v = Done (Scalar v).
Proof. destruct 1; reflexivity. Qed.
Lemma assign_other s v : (forall w, s = Scalar w -> ~ same_type w v) -> assign D s v = Fails SettingTypeException.
Proof.
  intros H. destruct s as [[]| | |]; try reflexivity; destruct v; try reflexivity; exfalso; eapply H; try reflexivity; constructor.
Qed.
Lemma find_none_exists m n : find_member D n m = None -> exists_ D (Group m) n = false.
Proof. unfold exists_. cbn [member]. now intros ->. Qed.
Lemma add_ok m n s : proper_name n -> find_member D n m = None -> add D (Group m) n s = Done (Group (m ++ [(n, s)])).
Proof. intros P F. unfold add. rewrite (find_none_exists _ _ F). apply proper_valid in P. now rewrite P. Qed.

Lemma set_loop_ok debug v : forall rest root cur c, rest <> [] -> (forall k, In k cur \/ In k rest -> proper_name k) ->
  walk D root cur = Some c -> free c rest -> (forall s, walk D c rest = Some s -> exists w, s = Scalar w /\ same_type w v) ->
  set_loop D debug root cur rest v = (replace D root cur (put c rest (Scalar v)), None).
Proof.
  induction rest as [|n rest IH]; intros root cur c N P W F T; [congruence|].
  destruct (free_group _ _ _ F) as [m ->].
  assert (Pn : proper_name n) by (apply P; right; now left).
  destruct rest as [|n2 rest].
  - cbn [set_loop]. rewrite (pointee_walk _ _ _ W). cbn [member put].
    destruct (find_member D n m) as [old|] eqn:E.
    + destruct (T old) as (w & -> & S); [cbn [walk member]; now rewrite E|].
      rewrite (assign_same _ _ S). rewrite (replace_snoc _ _ _ _ _ W) by congruence. reflexivity.
    + unfold createSetting. rewrite (find_none_exists _ _ E), (add_ok _ _ _ Pn E). reflexivity.
  - set (r := n2 :: rest) in *. change (set_loop D debug root cur (n :: r) v) with
      (let current := pointee D root cur in
       if exists_ D current n then
         match lookup D root (lookup_path cur n) with
         | Some t => if debug && negb (isAggregate D t) then (root, Some GeneralException) else set_loop D debug root (cur ++ [n]) r v
         | None => (root, Some SettingNotFoundException)
         end
       else match add D current n (Group []) with
            | Done new => set_loop D debug (replace D root cur new) (cur ++ [n]) r v
            | Fails f => (root, Some f)
            end).
    cbn zeta. rewrite (pointee_walk _ _ _ W). cbn [put].
    assert (P' : forall k, In k (cur ++ [n]) \/ In k r -> proper_name k).
    { intros k [K|K]; [|apply P; right; now right]. apply in_app_or in K. destruct K as [K|[<-|[]]]; [apply P; now left|assumption]. }
    destruct (find_member D n m) as [t|] eqn:E.
    + unfold exists_. cbn [member]. rewrite E. rewrite lookup_path_walk; [|intros k K; apply P; now left|assumption].
      rewrite walk_snoc, W. cbn [member]. rewrite E.
      assert (G : exists mt, t = Group mt) by (apply (free_group t n2 rest); eapply free_member; eassumption).
      destruct G as [mt ->]. cbn [isAggregate negb]. rewrite andb_false_r.
      rewrite (IH root (cur ++ [n]) (Group mt)).
      * rewrite (replace_snoc _ _ _ _ _ W) by congruence. reflexivity.
      * discriminate.
      * assumption.
      * rewrite walk_snoc, W. cbn [member]. assumption.
      * eapply free_member; eassumption.
      * intros s Hs. apply T. cbn [walk member]. now rewrite E.
    + rewrite (find_none_exists _ _ E), (add_ok _ _ _ Pn E).
      assert (W1 : walk D (replace D root cur (Group (m ++ [(n, Group [])]))) cur = Some (Group (m ++ [(n, Group [])]))) by (eapply replace_at; eassumption).
      rewrite (IH _ (cur ++ [n]) (Group [])).
      * rewrite (replace_snoc _ _ _ _ _ W1); [|rewrite find_app, E; cbn [find_member]; rewrite String.eqb_refl; discriminate].
        rewrite replace_twice by congruence. rewrite replace_member_last by assumption. reflexivity.
      * discriminate.
      * assumption.
      * rewrite walk_snoc, W1. cbn [member]. rewrite find_app, E. cbn [find_member]. now rewrite String.eqb_refl.
      * apply free_empty.
      * discriminate.
Qed.

Lemma set_loop_step debug root cur n n2 rest v m t : walk D root cur = Some (Group m) -> find_member D n m = Some t ->
  (forall k, In k cur -> proper_name k) -> proper_name n ->
  set_loop D debug root cur (n :: n2 :: rest) v =
  if debug && negb (isAggregate D t) then (root, Some GeneralException) else set_loop D debug root (cur ++ [n]) (n2 :: rest) v.
Proof.
  intros W E P Pn. set (r := n2 :: rest) in *. change (set_loop D debug root cur (n :: r) v) with
      (let current := pointee D root cur in
       if exists_ D current n then
         match lookup D root (lookup_path cur n) with
         | Some t => if debug && negb (isAggregate D t) then (root, Some GeneralException) else set_loop D debug root (cur ++ [n]) r v
         | None => (root, Some SettingNotFoundException)
         end
       else match add D current n (Group []) with
            | Done new => set_loop D debug (replace D root cur new) (cur ++ [n]) r v
            | Fails f => (root, Some f)
            end).
  cbn zeta. rewrite (pointee_walk _ _ _ W). unfold exists_. cbn [member]. rewrite E.
  rewrite lookup_path_walk by assumption. rewrite walk_snoc, W. cbn [member]. now rewrite E.
Qed.
Lemma set_loop_wrong debug v : forall rest root cur c s, rest <> [] -> (forall k, In k cur \/ In k rest -> proper_name k) ->
  walk D root cur = Some c -> walk D c rest = Some s -> (forall w, s = Scalar w -> ~ same_type w v) ->
  set_loop D debug root cur rest v = (root, Some InvalidArgument).
Proof.
  induction rest as [|n rest IH]; intros root cur c s N P W Ws T; [congruence|].
  destruct (walk_group _ _ _ _ Ws) as [m ->]. cbn [walk member] in Ws. destruct (find_member D n m) as [t|] eqn:E; [|discriminate].
  destruct rest as [|n2 rest].
  - cbn [set_loop]. rewrite (pointee_walk _ _ _ W). cbn [member]. rewrite E. cbn [walk] in Ws. injection Ws as ->.
    rewrite assign_other by assumption. reflexivity.
  - erewrite set_loop_step; [|eassumption|eassumption|intros k K; apply P; now left|apply P; right; now left].
    destruct (walk_group _ _ _ _ Ws) as [mt ->]. cbn [isAggregate negb]. rewrite andb_false_r.
    eapply IH; [discriminate| | |eassumption|assumption].
    + intros k [K|K]; [|apply P; right; now right]. apply in_app_or in K. destruct K as [K|[<-|[]]]; apply P; [now left|right; now left].
    + rewrite walk_snoc, W. exact E.
Qed.
Lemma set_loop_stuck debug v root cur c rest : rest <> [] -> (forall m, c <> Group m) -> walk D root cur = Some c ->
  set_loop D debug root cur rest v = (root, Some SettingTypeException).
Proof.
  intros N G W. destruct rest as [|n [|n2 rest]]; [congruence| |]; cbn [set_loop]; rewrite (pointee_walk _ _ _ W);
  (destruct c as [x|m|l|l]; [|exfalso; eapply G; reflexivity| |]; reflexivity).
Qed.
Lemma set_loop_blocked debug v : forall q r root cur c s, q <> [] -> r <> [] -> (forall k, In k cur \/ In k q -> proper_name k) ->
  walk D root cur = Some c -> walk D c q = Some s -> (forall m, s <> Group m) ->
  set_loop D debug root cur (q ++ r) v = (root, Some (if debug && negb (isAggregate D s) then GeneralException else SettingTypeException)).
Proof.
  induction q as [|n q IH]; intros r root cur c s N NR P W Ws G; [congruence|].
  destruct (walk_group _ _ _ _ Ws) as [m ->]. cbn [walk member] in Ws. destruct (find_member D n m) as [t|] eqn:E; [|discriminate].
  assert (X : exists n2 l, q ++ r = n2 :: l) by (destruct q; [destruct r; [congruence|]|]; cbn; eauto).
  destruct X as (n2 & l & X). cbn [app]. rewrite X.
  erewrite set_loop_step; [|eassumption|eassumption|intros k K; apply P; now left|apply P; right; now left].
  rewrite <- X.
  assert (W1 : walk D root (cur ++ [n]) = Some t) by (rewrite walk_snoc, W; exact E).
  destruct q as [|n3 q].
  - cbn [walk] in Ws. injection Ws as ->. destruct (debug && negb (isAggregate D s)); [reflexivity|]. cbn [app]. eapply set_loop_stuck; eassumption.
  - destruct (walk_group _ _ _ _ Ws) as [mt ->]. cbn [isAggregate negb]. rewrite andb_false_r.
    eapply IH; [discriminate|assumption| |eassumption|eassumption|assumption].
    intros k [K|K]; [|apply P; right; now right]. apply in_app_or in K. destruct K as [K|[<-|[]]]; apply P; [now left|right; now left].
Qed.

Lemma aggregate_loop_ok new : forall rest root cur c, rest <> [] -> (forall k, In k cur \/ In k rest -> proper_name k) ->
  walk D root cur = Some c -> free c rest -> walk D c rest = None ->
  aggregate_loop D root cur rest new = (replace D root cur (put c rest new), None).
Proof.
  induction rest as [|n rest IH]; intros root cur c N P W F T; [congruence|].
  destruct (free_group _ _ _ F) as [m ->].
  assert (Pn : proper_name n) by (apply P; right; now left).
  assert (P' : forall k, In k (cur ++ [n]) \/ In k rest -> proper_name k).
  { intros k [K|K]; [|apply P; right; now right]. apply in_app_or in K. destruct K as [K|[<-|[]]]; [apply P; now left|assumption]. }
  cbn [aggregate_loop]. rewrite (pointee_walk _ _ _ W). cbn [put]. cbn [walk member] in T.
  destruct (find_member D n m) as [t|] eqn:E.
  - unfold exists_. cbn [member]. rewrite E. rewrite lookup_path_walk; [|intros k K; apply P; now left|assumption].
    rewrite walk_snoc, W. cbn [member]. rewrite E.
    destruct rest as [|n2 rest]; [cbn [walk] in T; discriminate|].
    rewrite (IH root (cur ++ [n]) t).
    + rewrite (replace_snoc _ _ _ _ _ W) by congruence. reflexivity.
    + discriminate.
    + assumption.
    + rewrite walk_snoc, W. exact E.
    + eapply free_member; eassumption.
    + assumption.
  - rewrite (find_none_exists _ _ E), (add_ok _ _ _ Pn E). destruct rest as [|n2 rest].
    + reflexivity.
    + assert (W1 : walk D (replace D root cur (Group (m ++ [(n, Group [])]))) cur = Some (Group (m ++ [(n, Group [])]))) by (eapply replace_at; eassumption).
      rewrite (IH _ (cur ++ [n]) (Group [])).
      * rewrite (replace_snoc _ _ _ _ _ W1); [|rewrite find_app, E; cbn [find_member]; rewrite String.eqb_refl; discriminate].
        rewrite replace_twice by congruence. rewrite replace_member_last by assumption. reflexivity.
      * discriminate.
      * assumption.
      * rewrite walk_snoc, W1. cbn [member]. rewrite find_app, E. cbn [find_member]. now rewrite String.eqb_refl.
      * apply free_empty.
      * reflexivity.
Qed.
Lemma aggregate_loop_stuck new root cur c rest : rest <> [] -> (forall m, c <> Group m) -> walk D root cur = Some c ->
  aggregate_loop D root cur rest new = (root, Some SettingTypeException).
Proof.
  intros N G W. destruct rest as [|n rest]; [congruence|]; cbn [aggregate_loop]; rewrite (pointee_walk _ _ _ W);
  (destruct c as [x|m|l|l]; [|exfalso; eapply G; reflexivity| |]; reflexivity).
Qed.
Lemma aggregate_loop_blocked new : forall q r root cur c s, r <> [] -> (forall k, In k cur \/ In k q -> proper_name k) ->
  walk D root cur = Some c -> walk D c q = Some s -> (forall m, s <> Group m) ->
  aggregate_loop D root cur (q ++ r) new = (root, Some SettingTypeException).
Proof.
  induction q as [|n q IH]; intros r root cur c s NR P W Ws G.
  - cbn [walk] in Ws. injection Ws as ->. eapply aggregate_loop_stuck; eassumption.
  - destruct (walk_group _ _ _ _ Ws) as [m ->]. cbn [walk member] in Ws. destruct (find_member D n m) as [t|] eqn:E; [|discriminate].
    cbn [app aggregate_loop]. rewrite (pointee_walk _ _ _ W). unfold exists_. cbn [member]. rewrite E.
    rewrite lookup_path_walk; [|intros k K; apply P; now left|apply P; right; now left].
    rewrite walk_snoc, W. cbn [member]. rewrite E. eapply IH; [assumption| |rewrite walk_snoc, W; exact E|eassumption|assumption].
    intros k [K|K]; [|apply P; right; now right]. apply in_app_or in K. destruct K as [K|[<-|[]]]; apply P; [now left|right; now left].
Qed.
End Put.
