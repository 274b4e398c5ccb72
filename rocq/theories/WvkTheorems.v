(** C132: wave vectors and simulation boxes of runs that are analysed together. *)
From Coq Require Import String Ascii List ZArith Bool Reals Permutation Lia Lra.
From Verif Require Import PyBase VecModel TvcModel WvkModel WvkSpec WvkProof.
Import ListNotations.
Open Scope list_scope.

(** The wave vectors of a run: one for each data file, in the order of names, as its first line says. *)
Theorem waves_listed : forall F value read dir l, getWaveVectorIntegerComponentsByRundir F value read dir = Ok l ->
  Permutation (filter matches (map fst dir)) (map snd l) /\ sorted_names (map snd l) /\
  Forall (fun e => exists t, open_file dir (snd e) = Ok t /\ py_integer_components F value read t = Ok (fst e)) l.
Proof.
  intros F value read dir l H. destruct (loop_names F value read dir _ _ H) as [-> B].
  split; [apply data_files_perm|]. split; [apply data_files_sorted|exact B].
Qed.
Print Assumptions waves_listed.
Example waves_listed_example :
  data_files [("1.data", ""); ("notes.txt", ""); (".data", ""); ("0.data.bz2", "")]%string = ["0.data.bz2"; "1.data"]%string.
Proof. vm_compute. reflexivity. Qed.

(** Runs are taken together if and only if all have the same wave vectors in files of the same names. *)
Theorem waves_agree : forall F value read d dirs w,
  getWaveVectorIntegerComponentsByRundirs F value read (d :: dirs) = Ok (Some w) <->
  Forall (fun d => getWaveVectorIntegerComponentsByRundir F value read d = Ok w) (d :: dirs).
Proof.
  intros. unfold getWaveVectorIntegerComponentsByRundirs. cbn [waves_runs].
  destruct (getWaveVectorIntegerComponentsByRundir F value read d) as [c|] eqn:E; cbn.
  - split.
    + intros H. pose proof (runs_some F value read _ _ _ H) as S. inversion S; subst. constructor; [exact E|]. now apply runs_same.
    + intros H. inversion H as [|? ? A B]; subst. rewrite E in A. inversion A; subst. now apply runs_same.
  - split; intros H; [discriminate|]. inversion H. congruence.
Qed.
Print Assumptions waves_agree.
Theorem waves_differ : forall F value read d dirs w, getWaveVectorIntegerComponentsByRundir F value read d = Ok w ->
  Forall (fun d => exists c, getWaveVectorIntegerComponentsByRundir F value read d = Ok c) dirs ->
  Exists (fun d => getWaveVectorIntegerComponentsByRundir F value read d <> Ok w) dirs ->
  getWaveVectorIntegerComponentsByRundirs F value read (d :: dirs) = Err ValueError.
Proof.
  intros F value read d dirs w E A X. unfold getWaveVectorIntegerComponentsByRundirs. cbn [waves_runs]. rewrite E. cbn.
  now apply runs_differ.
Qed.
Print Assumptions waves_differ.
(** Texts of which the numbers are read as 1, for examples. *)
Definition one_read (t : string) : option unit := Some tt.
Example waves_agree_example :
  getWaveVectorIntegerComponentsByRundirs unit (fun _ => 1%R) one_read [[("0.data", "# 1 1 1")]; [("0.data", "# 1 1 1")]]%string
  = Ok (Some [(Vec 1 1 1, "0.data"%string)]).
Proof. apply waves_agree. repeat constructor. Qed.
Example waves_differ_example :
  getWaveVectorIntegerComponentsByRundirs unit (fun _ => 1%R) one_read [[("0.data", "# 1 1 1")]; []]%string = Err ValueError.
Proof.
  eapply waves_differ; [reflexivity| |].
  - repeat constructor. eexists. reflexivity.
  - constructor. cbn. discriminate.
Qed.

(** Not true: runs with the same data are taken together. If those of one are compressed and those of another are not, they are refused; and if
    a run has a file both ways, its wave vector is listed twice. *)
Theorem compressed_refuted : forall F value read t k, py_integer_components F value read t = Ok k ->
  open_file [("0.data", t)]%string "0.data" = Ok t /\ open_file [("0.data.bz2", t)]%string "0.data" = Ok t /\
  getWaveVectorIntegerComponentsByRundirs F value read [[("0.data", t)]; [("0.data.bz2", t)]]%string = Err ValueError /\
  getWaveVectorIntegerComponentsByRundir F value read [("0.data", t); ("0.data.bz2", t)]%string = Ok [(k, "0.data"%string); (k, "0.data.bz2"%string)].
Proof.
  intros F value read t k H.
  assert (A : getWaveVectorIntegerComponentsByRundir F value read [("0.data", t)]%string = Ok [(k, "0.data"%string)]).
  { unfold getWaveVectorIntegerComponentsByRundir. cbn. rewrite H. reflexivity. }
  assert (B : getWaveVectorIntegerComponentsByRundir F value read [("0.data.bz2", t)]%string = Ok [(k, "0.data.bz2"%string)]).
  { unfold getWaveVectorIntegerComponentsByRundir. cbn. rewrite H. reflexivity. }
  split; [reflexivity|]. split; [reflexivity|]. split.
  - eapply waves_differ; [exact A| |].
    + repeat constructor. eauto.
    + constructor. rewrite B. intros E. inversion E.
  - unfold getWaveVectorIntegerComponentsByRundir. cbn. rewrite H. reflexivity.
Qed.
Print Assumptions compressed_refuted.
Example compressed_refuted_example :
  getWaveVectorIntegerComponentsByRundirs unit (fun _ => 1%R) one_read [[("0.data", "# 1 1 1")]; [("0.data.bz2", "# 1 1 1")]]%string = Err ValueError.
Proof. eapply compressed_refuted. reflexivity. Qed.

(** Without runs there are neither wave vectors nor a box. *)
Theorem no_runs : forall F value read, getWaveVectorIntegerComponentsByRundirs F value read [] = Ok None /\ getSimboxByRundirs [] = Ok None.
Proof. split; reflexivity. Qed.
Print Assumptions no_runs.
Example no_runs_example : getSimboxByRundirs [] <> Ok (Some (0, 0, 0)%Z).
Proof. discriminate. Qed.

(** All runs must have boxes of the same size. *)
Theorem boxes_agree : forall b boxes,
  (Forall (eq b) boxes -> getSimboxByRundirs (b :: boxes) = Ok (Some b)) /\ (~ Forall (eq b) boxes -> getSimboxByRundirs (b :: boxes) = Err ValueError).
Proof.
  intros b boxes. unfold getSimboxByRundirs. cbn. rewrite box_same.
  assert (E : forallb (box_eqb b) boxes = true <-> Forall (eq b) boxes).
  { rewrite forallb_forall, Forall_forall. split; intros H x X; apply box_eqb_eq; auto. }
  destruct (forallb (box_eqb b) boxes); split; intros H; try reflexivity; [now destruct H; apply E|]. apply E in H. discriminate.
Qed.
Print Assumptions boxes_agree.
Example boxes_agree_example :
  getSimboxByRundirs [(10, 10, 20); (10, 10, 20)]%Z = Ok (Some (10, 10, 20)%Z) /\ getSimboxByRundirs [(10, 10, 20); (10, 10, 20); (10, 20, 10)]%Z = Err ValueError.
Proof. split; reflexivity. Qed.

(** Wave vectors fit into the box, as often as the integers tell; they are the only ones; boxes without extent are refused. *)
Theorem wave_vector_fits : forall n b,
  (let '(x, y, z) := b in x <> 0 /\ y <> 0 /\ z <> 0)%Z ->
  exists k, getWaveVectorFromIntegerComponents n b = Ok k /\ fits k n b /\ forall k', fits k' n b -> k' = k.
Proof.
  intros [nx ny nz] [[x y] z] (X & Y & Z). unfold getWaveVectorFromIntegerComponents, wave_component. cbn.
  apply Z.eqb_neq in X as X', Y as Y', Z as Z'. rewrite X', Y', Z'. cbn. eexists. split; [reflexivity|].
  apply not_0_IZR in X, Y, Z. split.
  - cbn. repeat split; field; assumption.
  - intros [kx ky kz] (A & B & C). cbn in *.
    f_equal; [rewrite <- A|rewrite <- B|rewrite <- C]; field; assumption.
Qed.
Print Assumptions wave_vector_fits.
Example wave_vector_fits_example : exists k, getWaveVectorFromIntegerComponents (Vec 1 0 2) (10, 10, 20)%Z = Ok k /\ fits k (Vec 1 0 2) (10, 10, 20)%Z.
Proof. destruct (wave_vector_fits (Vec 1 0 2) (10, 10, 20)%Z) as (k & A & B & _); [repeat split; discriminate|]. eauto. Qed.
Theorem wave_vector_refused : forall n b, (let '(x, y, z) := b in x = 0 \/ y = 0 \/ z = 0)%Z -> getWaveVectorFromIntegerComponents n b = Err ZeroDivisionError.
Proof.
  intros n [[x y] z] H. unfold getWaveVectorFromIntegerComponents, wave_component.
  destruct (Z.eqb_spec x 0), (Z.eqb_spec y 0), (Z.eqb_spec z 0); try reflexivity. tauto.
Qed.
Print Assumptions wave_vector_refused.
Example wave_vector_refused_example : getWaveVectorFromIntegerComponents (Vec 1 0 2) (10, 0, 20)%Z = Err ZeroDivisionError.
Proof. reflexivity. Qed.
