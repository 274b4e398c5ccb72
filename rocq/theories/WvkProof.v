(** Proofs about wave vectors of several runs. *)
From Coq Require Import String Ascii List ZArith Bool Reals Permutation Lia Lra.
From Verif Require Import PyBase VecModel TvcModel WvkModel WvkSpec PrmProof.
Import ListNotations.
Open Scope list_scope.

Lemma leb_flip : forall n m, String.leb n m = false -> String.leb m n = true.
Proof. intros n m H. destruct (String.leb_total n m) as [E|E]; congruence. Qed.
Lemma insert_perm : forall n l, Permutation (n :: l) (insert_name n l).
Proof.
  induction l as [|m l IH]; cbn; [apply Permutation_refl|]. destruct (String.leb n m); [apply Permutation_refl|].
  eapply perm_trans; [apply perm_swap|]. now constructor.
Qed.
Lemma insert_sorted_names : forall n l, sorted_names l -> sorted_names (insert_name n l).
Proof.
  induction l as [|m l IH]; intros H; [exact I|]. cbn [insert_name]. destruct (String.leb n m) eqn:E; [split; assumption|].
  apply leb_flip in E. destruct l as [|p l]; [cbn; auto|]. destruct H as [A B]. specialize (IH B).
  cbn [insert_name] in *. destruct (String.leb n p); split; auto.
Qed.
Lemma data_files_perm : forall dir, Permutation (filter matches (map fst dir)) (data_files dir).
Proof.
  intros. unfold data_files. induction (filter matches (map fst dir)) as [|n l IH]; cbn; [constructor|].
  eapply perm_trans; [|apply insert_perm]. now constructor.
Qed.
Lemma data_files_sorted : forall dir, sorted_names (data_files dir).
Proof. intros. unfold data_files. induction (filter matches (map fst dir)); cbn; [exact I|]. now apply insert_sorted_names. Qed.

Section P.
Variable F : Type.
Variable value : F -> R.
Variable read : string -> option F.
Lemma loop_names : forall dir names l, wave_loop F value read dir names = Ok l ->
  map snd l = names /\ Forall (fun e => exists t, open_file dir (snd e) = Ok t /\ py_integer_components F value read t = Ok (fst e)) l.
Proof.
  induction names as [|n names IH]; cbn; intros l H.
  - inversion H. auto.
  - destruct (open_file dir n) as [t|] eqn:O; cbn in H; [|discriminate].
    destruct (py_integer_components F value read t) as [k|] eqn:K; cbn in H; [|discriminate].
    destruct (wave_loop F value read dir names) as [l'|] eqn:L; cbn in H; [|discriminate].
    inversion H; subst. destruct (IH l' eq_refl) as [A B]. cbn. split; [congruence|]. constructor; [|exact B]. exists t. auto.
Qed.
Lemma runs_same : forall dirs w, waves_runs F value read (Some w) dirs = Ok (Some w) <->
  Forall (fun d => getWaveVectorIntegerComponentsByRundir F value read d = Ok w) dirs.
Proof.
  induction dirs as [|d dirs IH]; intros w; cbn; [split; auto|].
  destruct (getWaveVectorIntegerComponentsByRundir F value read d) as [c|] eqn:E; cbn.
  - destruct (waves_eq_dec w c) as [<-|N].
    + rewrite IH. split; intros H; [constructor; auto|]. now inversion H.
    + split; intros H; [discriminate|]. inversion H. congruence.
  - split; intros H; [discriminate|]. inversion H. congruence.
Qed.
Lemma runs_some : forall dirs w r, waves_runs F value read (Some w) dirs = Ok r -> r = Some w.
Proof.
  induction dirs as [|d dirs IH]; cbn; intros w r H; [congruence|].
  destruct (getWaveVectorIntegerComponentsByRundir F value read d) as [c|]; cbn in H; [|discriminate].
  destruct (waves_eq_dec w c); [eauto|discriminate].
Qed.
Lemma runs_differ : forall dirs w, Forall (fun d => exists c, getWaveVectorIntegerComponentsByRundir F value read d = Ok c) dirs ->
  Exists (fun d => getWaveVectorIntegerComponentsByRundir F value read d <> Ok w) dirs -> waves_runs F value read (Some w) dirs = Err ValueError.
Proof.
  induction dirs as [|d dirs IH]; intros w A X; [inversion X|]. inversion A as [|? ? [c E] A']; subst. cbn. rewrite E. cbn.
  destruct (waves_eq_dec w c) as [<-|N]; [|reflexivity]. apply IH; [exact A'|]. inversion X; subst; [congruence|assumption].
Qed.
End P.
Lemma box_eqb_eq : forall a b, box_eqb a b = true <-> a = b.
Proof.
  intros [[x y] z] [[x' y'] z']. cbn. rewrite !andb_true_iff, !Z.eqb_eq. split; [intros [[-> ->] ->]; reflexivity|].
  intros H. inversion H. auto.
Qed.
Lemma box_same : forall boxes b, box_runs (Some b) boxes = if forallb (box_eqb b) boxes then Ok (Some b) else Err ValueError.
Proof. induction boxes as [|c boxes IH]; intros; cbn; [reflexivity|]. destruct (box_eqb b c); cbn; auto. Qed.
