From Verif Require Import StrBase CuModel CfgModel CfgSpec.
From Coq Require Import Lia.
Open Scope list_scope.
Open Scope Z_scope.

Lemma char_cases (P : ascii -> bool) : (forall n, (n < 256)%nat -> P (ascii_of_nat n) = true) -> forall a, P a = true.
Proof. intros H a. rewrite <- (ascii_nat_embedding a). apply H, nat_ascii_bounded. Qed.
Lemma all_below (f : nat -> bool) n : forallb f (seq 0 n) = true -> forall i, (i < n)%nat -> f i = true.
Proof. intros H i L. rewrite forallb_forall in H. apply H, in_seq. lia. Qed.
Lemma start_letters a : name_start a = has_char a letters.
Proof.
  apply eqb_prop. revert a. apply char_cases. apply all_below with (f := fun n => eqb (name_start (ascii_of_nat n)) (has_char (ascii_of_nat n) letters)).
  vm_compute. reflexivity.
Qed.
Lemma char_further a : name_char a = has_char a (letters ++ further).
Proof.
  apply eqb_prop. revert a. apply char_cases. apply all_below with (f := fun n => eqb (name_char (ascii_of_nat n)) (has_char (ascii_of_nat n) (letters ++ further))).
  vm_compute. reflexivity.
Qed.
Lemma all_chars_in p s : all_chars p s = true <-> forall b, has_char b s = true -> p b = true.
Proof.
  induction s as [|a s IH]; cbn [all_chars has_char]; [split; [discriminate|reflexivity]|].
  rewrite andb_true_iff, IH. split.
  - intros [H1 H2] b H. apply orb_true_iff in H. destruct H as [H|H]; [apply Ascii.eqb_eq in H; now subst|auto].
  - intros H. split; [apply H; now rewrite Ascii.eqb_refl|]. intros b B. apply H. rewrite B. apply orb_true_r.
Qed.
Lemma proper_valid s : proper_name s <-> valid_name s = true.
Proof.
  unfold proper_name, valid_name. split.
  - intros (a & r & -> & A & B). rewrite start_letters, A. apply all_chars_in. intros b Hb. rewrite char_further. auto.
  - destruct s as [|a r]; [discriminate|]. intros H. apply andb_true_iff in H. destruct H as [H1 H2]. exists a, r. rewrite <- start_letters.
    repeat split; auto. intros b Hb. rewrite <- char_further. now apply (proj1 (all_chars_in _ _) H2).
Qed.
Lemma valid_dotless s : valid_name s = true -> has_char "." s = false.
Proof.
  destruct s as [|a r]; [discriminate|]. cbn [valid_name]. intros H. apply andb_true_iff in H. destruct H as [H1 H2].
  cbn [has_char]. apply orb_false_iff. split.
  - destruct (Ascii.eqb_spec a "."); [subst; discriminate|reflexivity].
  - apply (all_chars_has _ "." _ H2). reflexivity.
Qed.
Lemma proper_dotless s : proper_name s -> has_char "." s = false.
Proof. intros H. now apply valid_dotless, proper_valid. Qed.
Lemma proper_nonempty s : proper_name s -> s <> ""%string.
Proof. intros (a & r & -> & _). discriminate. Qed.

Lemma dotted_join p : dotted p = join "." p.
Proof.
  unfold dotted. induction p as [|a [|b p] IH]; [reflexivity|reflexivity|].
  change (String.concat "." (a :: b :: p)) with (a ++ "." ++ String.concat "." (b :: p))%string. now rewrite IH.
Qed.
Lemma dotted_cons a b p : dotted (a :: b :: p) = (a ++ String "." (dotted (b :: p)))%string.
Proof. reflexivity. Qed.
Lemma split_dotted p : proper_path p -> split "." (dotted p) = p.
Proof. intros [N H]. rewrite dotted_join. apply split_join; [assumption|]. intros x X. now apply proper_dotless, H. Qed.
Lemma filter_proper p : (forall n, In n p -> proper_name n) -> filter (fun n => negb (String.eqb n "")) p = p.
Proof.
  induction p as [|a p IH]; intros H; [reflexivity|]. cbn [filter].
  destruct (String.eqb_spec a ""); [exfalso; eapply proper_nonempty; [apply H; left; reflexivity|assumption]|].
  cbn [negb]. rewrite IH; [reflexivity|]. intros n' N'. apply H. now right.
Qed.
Lemma proper_app p q : proper_path (p ++ q) -> q <> [] -> proper_path q.
Proof. intros [_ H] N. split; [assumption|]. intros n I. apply H, in_or_app. now right. Qed.

Section Proof.
Context {D : Type}.
Implicit Types root s t : setting D.
Lemma lookup_proper s p : proper_path p -> lookup D s (dotted p) = walk D s p.
Proof. intros H. unfold lookup. rewrite split_dotted by assumption. rewrite filter_proper; [reflexivity|apply H]. Qed.
Lemma lookup_one s n : proper_name n -> lookup D s n = member D s n.
Proof.
  intros H. assert (Q : proper_path [n]) by (split; [discriminate|intros x [<-|[]]; assumption]).
  change n with (dotted [n]) at 1. rewrite lookup_proper by assumption. cbn [walk]. destruct (member D s n); reflexivity.
Qed.

(** walk = reaches *)
Lemma find_member_some n m t : find_member D n m = Some t <-> exists b a, m = b ++ (n, t) :: a /\ ~ In n (map fst b).
Proof.
  induction m as [|[k u] m IH]; cbn [find_member].
  - split; [discriminate|]. intros (b & a & E & _). destruct b; discriminate.
  - destruct (String.eqb_spec k n) as [->|K].
    + split.
      * intros [= ->]. exists [], m. split; [reflexivity|tauto].
      * intros (b & a & E & NI). destruct b as [|x b]; cbn in E; [congruence|]. injection E as E1 E2. subst. exfalso. apply NI. now left.
    + rewrite IH. split.
      * intros (b & a & -> & NI). exists ((k, u) :: b), a. split; [reflexivity|]. cbn. intros [E|I]; [congruence|tauto].
      * intros (b & a & E & NI). destruct b as [|x b]; cbn in E; [congruence|]. injection E as E1 E2. subst. exists b, a. split; [reflexivity|]. intros I. apply NI. now right.
Qed.
Lemma walk_reaches s p t : walk D s p = Some t <-> reaches s p t.
Proof.
  revert s. induction p as [|n p IH]; intros s; cbn [walk].
  - split; [intros [= ->]; constructor|inversion 1; reflexivity].
  - split.
    + destruct (member D s n) as [u|] eqn:M; [|discriminate]. destruct s as [|m| |]; try discriminate. cbn [member] in M. intros W.
      apply find_member_some in M. destruct M as (b & a & -> & NI). constructor; [assumption|]. now apply IH.
    + inversion 1; subst. cbn [member]. rewrite (proj2 (find_member_some n (before ++ (n, t0) :: after) t0)); [now apply IH|]. eauto.
Qed.
Lemma walk_absent s p : walk D s p = None <-> absent s p.
Proof.
  unfold absent. split.
  - intros H t R. apply walk_reaches in R. congruence.
  - intros H. destruct (walk D s p) as [t|] eqn:E; [|reflexivity]. exfalso. eapply H. apply walk_reaches, E.
Qed.
Lemma walk_app s p q : walk D s (p ++ q) = match walk D s p with Some t => walk D t q | None => None end.
Proof. revert s. induction p as [|n p IH]; intros s; cbn [walk app]; [reflexivity|]. destruct (member D s n); [apply IH|reflexivity]. Qed.

(** Members after a replacement. *)
Lemma find_replace_same n s m u : find_member D n m = Some u -> find_member D n (replace_member D n s m) = Some s.
Proof.
  induction m as [|[k t] m IH]; cbn [find_member replace_member]; [discriminate|].
  destruct (String.eqb k n) eqn:K; cbn [find_member]; rewrite K; auto.
Qed.
Lemma find_replace_other n k s m : k <> n -> find_member D k (replace_member D n s m) = find_member D k m.
Proof.
  intros N. induction m as [|[j t] m IH]; cbn [find_member replace_member]; [reflexivity|].
  destruct (String.eqb_spec j n) as [->|K]; cbn [find_member].
  - destruct (String.eqb_spec n k); [congruence|reflexivity].
  - rewrite IH. reflexivity.
Qed.
Lemma keys_replace n s m : map fst (replace_member D n s m) = map fst m.
Proof. induction m as [|[k t] m IH]; cbn [replace_member map fst]; [reflexivity|]. destruct (String.eqb k n); cbn [map fst]; congruence. Qed.
Lemma find_app n m m' : find_member D n (m ++ m') = match find_member D n m with Some t => Some t | None => find_member D n m' end.
Proof. induction m as [|[k t] m IH]; cbn [find_member app]; [reflexivity|]. destruct (String.eqb k n); auto. Qed.

(** Replacing a setting. *)
Lemma replace_at root c s u : walk D root c = Some u -> walk D (replace D root c s) c = Some s.
Proof.
  revert root. induction c as [|n c IH]; intros root; cbn [walk replace]; [reflexivity|].
  destruct root as [|m| |]; cbn [member]; try discriminate.
  destruct (find_member D n m) as [t|] eqn:F; [|discriminate]. intros W. cbn [member].
  erewrite find_replace_same by eassumption. eauto.
Qed.
Lemma replace_below root c s u q : walk D root c = Some u -> walk D (replace D root c s) (c ++ q) = walk D s q.
Proof. intros W. rewrite walk_app, (replace_at _ _ _ _ W). reflexivity. Qed.
Lemma replace_other root c s q : ~ begins c q -> ~ begins q c -> walk D (replace D root c s) q = walk D root q.
Proof.
  revert root q. induction c as [|n c IH]; intros root q B1 B2.
  - exfalso. apply B1. exists q. reflexivity.
  - destruct q as [|k q]; [exfalso; apply B2; exists (n :: c); reflexivity|].
    cbn [replace]. destruct root as [|m| |]; try reflexivity.
    destruct (find_member D n m) as [t|] eqn:F; [|reflexivity]. cbn [walk member].
    destruct (String.eqb_spec k n) as [->|K].
    + rewrite (find_replace_same _ _ _ _ F), F. apply IH.
      * intros [r ->]. apply B1. exists r. reflexivity.
      * intros [r ->]. apply B2. exists r. reflexivity.
    + rewrite find_replace_other by assumption. reflexivity.
Qed.
Lemma replace_above root c d s m u : d <> [] -> walk D root (c ++ d) = Some u -> walk D root c = Some (Group m) ->
  exists m', walk D (replace D root (c ++ d) s) c = Some (Group m') /\ map fst m' = map fst m.
Proof.
  intros N. revert root. induction c as [|n c IH]; intros root W1 W2; cbn [app walk] in *.
  - injection W2 as ->. destruct d as [|n d]; [congruence|]. cbn [replace walk member] in *. destruct (find_member D n m) as [t|]; [|discriminate].
    eexists. split; [reflexivity|]. apply keys_replace.
  - destruct root as [|mm| |]; cbn [member] in *; try discriminate. destruct (find_member D n mm) as [t|] eqn:F; [|discriminate].
    cbn [replace]. rewrite F. cbn [walk member]. rewrite (find_replace_same _ _ _ _ F). apply IH; assumption.
Qed.
Lemma walk_snoc s p n : walk D s (p ++ [n]) = match walk D s p with Some t => member D t n | None => None end.
Proof. rewrite walk_app. destruct (walk D s p) as [t|]; [|reflexivity]. cbn [walk]. destruct (member D t n); reflexivity. Qed.
End Proof.
