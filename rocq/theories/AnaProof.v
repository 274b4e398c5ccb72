(** Proofs about files of runs. *)
From Coq Require Import String Ascii List ZArith Bool Reals Lra Lia.
From Verif Require Import PyBase StrBase VecModel VtfModel TvcModel TvcSpec CfgModel RsvModel AnaModel AnaSpec.
Import ListNotations.
Open Scope list_scope.

(** * Names *)
Lemma in_0_9_iff a : in_0_9 a = true <-> decimal a.
Proof.
  split.
  - unfold in_0_9. rewrite andb_true_iff, !N.leb_le. intros (A & B). exists (N.to_nat (N_of_ascii a) - 48)%nat. split; [lia|].
    replace (48 + (N.to_nat (N_of_ascii a) - 48))%nat with (nat_of_ascii a) by (unfold nat_of_ascii; lia). symmetry. apply ascii_nat_embedding.
  - intros (n & L & ->). do 10 (destruct n as [|n]; [reflexivity|]). lia.
Qed.
Lemma prefix_app p s : String.prefix p s = true <-> exists r, s = (p ++ r)%string.
Proof.
  revert s. induction p as [|a p IH]; intros s; cbn [String.prefix append]; [split; [intros _; exists s; reflexivity|destruct s; reflexivity]|].
  destruct s as [|b s]; [split; [discriminate|intros (r & E); discriminate]|]. cbn [String.prefix]. destruct (ascii_dec a b) as [->|N].
  - split.
    + intros H. apply IH in H. destruct H as (r & ->). exists r. reflexivity.
    + intros (r & E). apply IH. exists r. injection E as E. exact E.
  - split; [discriminate|]. intros (r & E). injection E as -> _. contradiction.
Qed.
Lemma after_digits_split s : exists d, (forall a, In a (list_ascii_of_string d) -> decimal a) /\ s = (d ++ after_digits s)%string.
Proof.
  induction s as [|a s (d & A & E)]; [exists ""%string; split; [intros a []|reflexivity]|]. cbn [after_digits]. destruct (in_0_9 a) eqn:D.
  - exists (String a d). split; [|cbn [append]; congruence]. intros b [<-|I]; [apply in_0_9_iff, D|apply A, I].
  - exists ""%string. split; [intros b []|reflexivity].
Qed.
Lemma after_digits_app d : (forall a, In a (list_ascii_of_string d) -> decimal a) -> forall r, after_digits (d ++ ".data" ++ r)%string = (".data" ++ r)%string.
Proof.
  induction d as [|a d IH]; intros A r; [reflexivity|]. cbn [append after_digits]. rewrite (proj2 (in_0_9_iff a)) by (apply A; left; reflexivity).
  apply IH. intros b I. apply A. right. exact I.
Qed.
Lemma regex_iff s : filename_regex s = true <-> data_name s.
Proof.
  destruct s as [|a s]; cbn [filename_regex].
  - split; [discriminate|]. intros ([|b d] & r & N & _ & E); [congruence|discriminate].
  - rewrite andb_true_iff, in_0_9_iff, prefix_app. split.
    + intros (D & r & E). destruct (after_digits_split s) as (d & A & E'). exists (String a d), r. split; [discriminate|]. split; [|cbn [append]; rewrite E' at 1; rewrite E; reflexivity].
      intros b [<-|I]; [exact D|apply A, I].
    + intros ([|b d] & r & N & A & E); [congruence|]. cbn [append] in E. injection E as -> ->. split; [apply A; left; reflexivity|]. exists r. apply after_digits_app. intros c I. apply A. right. exact I.
Qed.
Lemma sub_all s : substring 0 (String.length s) s = s.
Proof. induction s as [|a s IH]; cbn [String.length substring]; [reflexivity|rewrite IH; reflexivity]. Qed.
Lemma sub_end a b : substring (String.length a) (String.length b) (a ++ b)%string = b.
Proof. induction a as [|x a IH]; cbn [append String.length substring]; [apply sub_all|exact IH]. Qed.
Lemma sub_split s : forall n, (n <= String.length s)%nat -> s = (substring 0 n s ++ substring n (String.length s - n) s)%string.
Proof.
  induction s as [|a s IH]; intros [|n] L; cbn [String.length] in *; [reflexivity|lia| |].
  - cbn [substring append Nat.sub]. change (String a s = String a (substring 0 (String.length s) s)). rewrite sub_all. reflexivity.
  - cbn [substring append]. rewrite Nat.sub_succ, <- IH by lia. reflexivity.
Qed.
Lemma length_app a b : String.length (a ++ b)%string = (String.length a + String.length b)%nat.
Proof. induction a as [|x a IH]; cbn [append String.length]; [reflexivity|rewrite IH; reflexivity]. Qed.
Lemma suffix_iff s : (4 <= String.length s)%nat -> String.eqb (substring (String.length s - 4) 4 s) ".bz2" = true <-> ends_with ".bz2" s.
Proof.
  intros L. rewrite String.eqb_eq. split.
  - intros E. exists (substring 0 (String.length s - 4) s). rewrite (sub_split s (String.length s - 4)) at 1 by lia. replace (String.length s - (String.length s - 4))%nat with 4%nat by lia. rewrite E. reflexivity.
  - intros (t & ->). rewrite length_app. cbn [String.length]. replace (String.length t + 4 - 4)%nat with (String.length t) by lia. apply (sub_end t ".bz2").
Qed.
Lemma suffix_long s : ends_with ".bz2" s -> (4 <= String.length s)%nat.
Proof. intros (t & ->). rewrite length_app. cbn [String.length]. lia. Qed.

Section Files.
Variables (directory : string -> option (list string)) (regular : string -> option string).
Lemma selected_filter {A} (P : A -> Prop) (f : A -> bool) l : (forall x, f x = true <-> P x) -> forall l', selected P l l' <-> l' = filter f l.
Proof.
  intros H. induction l as [|x l IH]; intros l'; cbn [filter].
  - split; [intros S; inversion S; reflexivity|intros ->; constructor].
  - pose proof (H x) as Hx. destruct (f x).
    + split; [intros S; inversion S; subst; [f_equal; apply IH; assumption|exfalso; apply H2, Hx; reflexivity]|intros ->; constructor; [apply Hx; reflexivity|apply IH; reflexivity]].
    + split; [intros S; inversion S; subst; [apply Hx in H2; discriminate|apply IH; assumption]|intros ->; constructor; [intros N; apply Hx in N; discriminate|apply IH; reflexivity]].
Qed.
Lemma files_iff dir (P : string -> Prop) regex : (forall s, regex s = true <-> P s) ->
  forall found, files_in directory regular dir P found <-> found = getFilesByRegex directory regular dir regex false.
Proof.
  intros H found. unfold files_in, getFilesByRegex. destruct (directory dir) as [names|]; [|reflexivity]. rewrite map_id. apply selected_filter.
  intros x. rewrite <- H. destruct (regular (dir ++ "/" ++ x)%string); [split; [split; [discriminate|assumption]|tauto]|split; [discriminate|tauto]].
Qed.
Lemma files_prepend dir regex : getFilesByRegex directory regular dir regex true = map (fun n => (dir ++ "/" ++ n)%string) (getFilesByRegex directory regular dir regex false).
Proof. unfold getFilesByRegex. destruct (directory dir); [|reflexivity]. rewrite map_id. reflexivity. Qed.
Lemma measured_iff dirs paths : measured directory regular dirs paths <-> paths = data_paths directory regular dirs.
Proof.
  unfold measured, data_paths.
  assert (G : forall dirs names, Forall2 (fun dir found => files_in directory regular (dir ++ "/fourierTransformedVelocities")%string data_name found) dirs names ->
    concat (map (fun p => map (fun name => (fst p ++ "/fourierTransformedVelocities/" ++ name)%string) (snd p)) (combine dirs names))
    = flat_map (fun rundir => getFilesByRegex directory regular (rundir ++ "/fourierTransformedVelocities") filename_regex true) dirs).
  { intros ds ns H. induction H as [|d n ds ns A _ IH]; [reflexivity|]. cbn [combine map concat flat_map fst snd]. rewrite IH. f_equal.
    rewrite files_prepend. apply (files_iff _ data_name filename_regex regex_iff) in A. rewrite <- A. apply map_ext. intros s. rewrite <- !str_app_assoc. reflexivity. }
  split.
  - intros (names & H & ->). apply G, H.
  - intros ->. exists (map (fun dir => getFilesByRegex directory regular (dir ++ "/fourierTransformedVelocities") filename_regex false) dirs).
    assert (F : Forall2 (fun dir found => files_in directory regular (dir ++ "/fourierTransformedVelocities")%string data_name found) dirs
      (map (fun dir => getFilesByRegex directory regular (dir ++ "/fourierTransformedVelocities") filename_regex false) dirs)).
    { induction dirs as [|d dirs IH]; cbn [map]; constructor; [apply (files_iff _ data_name filename_regex regex_iff); reflexivity|exact IH]. }
    split; [exact F|]. symmetry. apply G, F.
Qed.
Variable decompressed : string -> string.
Lemma opens_cases p t : opens regular decompressed p t ->
  (regular p = Some t /\ ~ ends_with ".bz2" p) \/ (exists c, regular p = Some c /\ ends_with ".bz2" p /\ t = decompressed c)
  \/ (exists c, regular p = None /\ regular (p ++ ".bz2")%string = Some c /\ t = decompressed c).
Proof. intros H. inversion H; subst; [left; auto|right; left; exists c; auto|right; right; exists c; auto]. Qed.
Lemma file_opens p t : file_text regular decompressed p = Ok t <-> opens regular decompressed p t /\ (regular p <> None -> (4 <= String.length p)%nat).
Proof.
  unfold file_text. destruct (regular p) as [c|] eqn:E.
  - destruct (Nat.ltb_spec (String.length p) 4) as [L|L].
    + split; [discriminate|]. intros (_ & H). specialize (H ltac:(discriminate)). lia.
    + pose proof (suffix_iff p L) as S. destruct (String.eqb _ _).
      * split; [intros Q; injection Q as <-; split; [|intros _; exact L]; apply opens_compressed; [exact E|apply S; reflexivity]|].
        intros (O & _). apply opens_cases in O. destruct O as [(Q & N)|[(c' & Q & N & ->)|(c' & Q & N & ->)]]; rewrite E in Q; try discriminate; injection Q as <-; [exfalso; apply N, S; reflexivity|reflexivity].
      * split; [intros Q; injection Q as <-; split; [|intros _; exact L]; apply opens_plain; [exact E|intros N; apply S in N; discriminate]|].
        intros (O & _). apply opens_cases in O. destruct O as [(Q & N)|[(c' & Q & N & ->)|(c' & Q & N & ->)]]; rewrite E in Q; try discriminate; injection Q as <-; [reflexivity|apply S in N; discriminate].
  - destruct (regular (p ++ ".bz2")%string) as [c|] eqn:E'.
    + split; [intros Q; injection Q as <-; split; [apply opens_other; assumption|congruence]|]. intros (O & _). apply opens_cases in O. destruct O as [(Q & N)|[(c' & Q & N & ->)|(c' & Q & N & ->)]]; congruence.
    + split; [discriminate|]. intros (O & _). apply opens_cases in O. destruct O as [(Q & N)|[(c' & Q & N & ->)|(c' & Q & N & ->)]]; congruence.
Qed.
Lemma texts_all paths texts : Forall2 (fun p t => file_text regular decompressed p = Ok t) paths texts <-> texts_of regular decompressed paths = Ok texts.
Proof.
  revert texts. induction paths as [|p paths IH]; intros texts; cbn [texts_of].
  - split; [intros H; inversion H; reflexivity|intros E; injection E as <-; constructor].
  - destruct (file_text regular decompressed p) as [t|e] eqn:E; cbn [bind].
    + destruct (texts_of regular decompressed paths) as [l|e]; cbn [bind].
      * split; [intros H; inversion H; subst; apply IH in H4; congruence|]. intros Q. injection Q as <-. constructor; [exact E|apply IH; reflexivity].
      * split; [|discriminate]. intros H. inversion H; subst. apply IH in H4. discriminate.
    + split; [|discriminate]. intros H. inversion H; subst. congruence.
Qed.

(** * Settings *)
Section Settings.
Variables (F : Type) (load : string -> outcome (setting F)).
Notation setting_in := (setting_in load).
Lemma consistent_rest {A} (get : setting F -> outcome A) (differ : A -> A -> bool) v : forall dirs w,
  consistent_loop F load get differ dirs (Some v) = Done w <-> w = Some v /\ forall dir, In dir dirs -> exists v', setting_in get dir v' /\ differ v v' = false.
Proof.
  induction dirs as [|dir dirs IH]; intros w; cbn [consistent_loop].
  - split; [intros E; injection E as <-; split; [reflexivity|intros d []]|intros (-> & _); reflexivity].
  - unfold AnaSpec.setting_in. destruct (load (dir ++ "/config.txt")%string) as [config|f] eqn:L.
    + destruct (get config) as [x|f] eqn:G.
      * destruct (differ v x) eqn:D.
        -- split; [discriminate|]. intros (_ & H). destruct (H dir (or_introl eq_refl)) as (v' & (c & L' & G') & D'). congruence.
        -- rewrite IH. split; intros (-> & H); (split; [reflexivity|]); intros d I; [|apply H; right; exact I]. destruct I as [<-|I]; [|apply H, I]. exists x. split; [exists config; auto|exact D].
      * split; [discriminate|]. intros (_ & H). destruct (H dir (or_introl eq_refl)) as (v' & (c & L' & G') & D'). congruence.
    + split; [discriminate|]. intros (_ & H). destruct (H dir (or_introl eq_refl)) as (v' & (c & L' & G') & D'). congruence.
Qed.
Lemma consistent_iff {A} (get : setting F -> outcome A) (differ : A -> A -> bool) dirs v : differ v v = false ->
  getConsistentConfigValue F load get differ dirs = Done v <->
  (exists first rest, dirs = first :: rest /\ setting_in get first v) /\ forall dir, In dir dirs -> exists v', setting_in get dir v' /\ differ v v' = false.
Proof.
  intros R. unfold getConsistentConfigValue. destruct dirs as [|dir dirs]; cbn [consistent_loop].
  - split; [discriminate|]. intros ((f & r & E & _) & _). discriminate.
  - assert (X : forall v', setting_in get dir v' -> setting_in get dir v -> v' = v).
    { intros v' (c & L & G) (c' & L' & G'). congruence. }
    destruct (load (dir ++ "/config.txt")%string) as [config|f] eqn:L.
    + destruct (get config) as [x|f] eqn:G.
      * assert (Sx : setting_in get dir x) by (exists config; auto). destruct (consistent_loop F load get differ dirs (Some x)) as [w|f] eqn:C.
        -- apply consistent_rest in C. destruct C as (-> & H). split.
           ++ intros E. injection E as <-. split; [exists dir, dirs; auto|]. intros d [<-|I]; [exists x; auto|apply H, I].
           ++ intros ((f & r & E & Sv) & _). injection E as <- <-. rewrite (X x Sx Sv). reflexivity.
        -- split; [discriminate|]. intros ((f' & r & E & Sv) & H). injection E as <- <-. rewrite (X x Sx Sv) in C.
           assert (consistent_loop F load get differ dirs (Some v) = Done (Some v)) by (apply consistent_rest; split; [reflexivity|]; intros d I; apply H; right; exact I). congruence.
      * split; [discriminate|]. intros ((f' & r & E & c & L' & G') & _). injection E as <- <-. congruence.
    + split; [discriminate|]. intros ((f' & r & E & c & L' & G') & _). injection E as <- <-. congruence.
Qed.
End Settings.
End Files.
