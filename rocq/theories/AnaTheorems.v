(** Files of runs in C++, and the program that writes tables of transverse velocity correlation functions: C110, C111. *)
From Coq Require Import String Ascii List ZArith Bool Reals Lra Lia Sorting.Sorted.
From Verif Require Import PyBase StrBase VecModel VecSpec VecProof VtfModel VtfSpec VtfStepProof VtfPyModel FourModel TvcModel TvcSpec TvcTextProof TvcProof TvcRunProof TvcTheorems.
From Verif Require Import CfgModel CfgSpec CfgProof CfgReadProof CfgTheorems CfgSimProof RsvModel AnaModel AnaSpec AnaProof AnaRunProof.
Import ListNotations.
Open Scope list_scope.
Open Scope R_scope.

(** * Files *)
(** C110: which text a file has, and when there is none. *)
Theorem file_opened : forall regular decompressed p, (regular p <> None -> (4 <= String.length p)%nat) ->
  (forall t, file_text regular decompressed p = Ok t <-> opens regular decompressed p t)
  /\ (regular p = None -> regular (p ++ ".bz2")%string = None -> file_text regular decompressed p = Err IOException).
Proof.
  intros regular decompressed p L. split; [intros t; rewrite file_opens; tauto|]. intros A B. unfold file_text. rewrite A, B. reflexivity.
Qed.
Print Assumptions file_opened.
Example file_opened_ex :
  let regular p := if String.eqb p "0.data" then Some "a"%string else if String.eqb p "1.data.bz2" then Some "b"%string else None in
  let decompressed c := (c ++ c)%string in
  map (file_text regular decompressed) ["0.data"; "1.data"; "1.data.bz2"; "2.data"]%string = [Ok "a"; Ok "bb"; Ok "bb"; Err IOException]%string.
Proof. vm_compute. reflexivity. Qed.
(** C110: a file whose name has fewer than four characters exists, but cannot be opened. *)
Theorem file_opened_refuted : ~ (forall regular decompressed p c, regular p = Some c -> ~ ends_with ".bz2" p -> file_text regular decompressed p = Ok c).
Proof.
  intros H. specialize (H (fun _ => Some ""%string) (fun c => c) "a"%string ""%string eq_refl). assert (N : ~ ends_with ".bz2" "a") by (intros E; apply suffix_long in E; cbn in E; lia).
  specialize (H N). discriminate.
Qed.
Print Assumptions file_opened_refuted.

(** C110: which files are found. *)
Theorem files_found : forall directory regular dir (P : string -> Prop) regex, (forall s, regex s = true <-> P s) ->
  files_in directory regular dir P (getFilesByRegex directory regular dir regex false)
  /\ (forall found, files_in directory regular dir P found -> found = getFilesByRegex directory regular dir regex false)
  /\ getFilesByRegex directory regular dir regex true = map (fun n => (dir ++ "/" ++ n)%string) (getFilesByRegex directory regular dir regex false).
Proof. intros directory regular dir P regex H. split; [apply (files_iff directory regular dir P regex H); reflexivity|]. split; [intros found; apply files_iff, H|apply files_prepend]. Qed.
Print Assumptions files_found.
Theorem data_files_found : forall directory regular dirs, (forall s, filename_regex s = true <-> data_name s)
  /\ forall paths, measured directory regular dirs paths <-> paths = data_paths directory regular dirs.
Proof. intros directory regular dirs. split; [apply regex_iff|apply measured_iff]. Qed.
Print Assumptions data_files_found.
Definition ex_directory (p : string) : option (list string) :=
  if String.eqb p "run/fourierTransformedVelocities" then Some ["0.data"; "a.data"; "10.data.bz2"; "2.dat"; "3.data"; "0.data.bz2"]%string else None.
Definition ex_file (p : string) : option string := if String.eqb p "run/fourierTransformedVelocities/3.data" then None else Some ""%string.
Example data_files_found_ex : data_paths ex_directory ex_file ["run"; "other"]%string
  = ["run/fourierTransformedVelocities/0.data"; "run/fourierTransformedVelocities/10.data.bz2"; "run/fourierTransformedVelocities/0.data.bz2"]%string.
Proof. vm_compute. reflexivity. Qed.
(** C110: measurements that are there with and without compression are used twice. *)
Theorem data_files_once_refuted : ~ (forall directory regular dirs, NoDup dirs -> (forall dir names, directory dir = Some names -> NoDup names) ->
  forall p, In p (data_paths directory regular dirs) -> ~ In (p ++ ".bz2")%string (data_paths directory regular dirs)).
Proof.
  intros H. refine (H ex_directory ex_file ["run"]%string _ _ "run/fourierTransformedVelocities/0.data"%string _ _).
  - constructor; [intros []|constructor].
  - intros dir names. unfold ex_directory. destruct (String.eqb dir "run/fourierTransformedVelocities"); [|discriminate]. intros E. injection E as <-.
    repeat (constructor; [cbn [In]; intuition discriminate|]). constructor.
  - left. reflexivity.
  - right. right. left. reflexivity.
Qed.
Print Assumptions data_files_once_refuted.

(** * Names and values *)
Lemma split_hash a : has_char "#" a = false -> forall b, has_char "#" b = false -> split_any (fun c => Ascii.eqb c "#") (a ++ String "#" b)%string = [a; b].
Proof.
  intros A b B.
  assert (G : forall s, has_char "#" s = false -> split_any (fun c => Ascii.eqb c "#") s = [s]).
  { induction s as [|x s IH]; intros H; [reflexivity|]. cbn [has_char] in H. apply orb_false_iff in H. destruct H as (H1 & H2). cbn [split_any].
    destruct (Ascii.eqb x "#") eqn:E; [apply Ascii.eqb_eq in E; subst; discriminate|]. rewrite IH by exact H2. reflexivity. }
  induction a as [|x a IH]; cbn [append split_any]; [change (Ascii.eqb "#" "#") with true; cbn iota; rewrite G by exact B; reflexivity|].
  cbn [has_char] in A. apply orb_false_iff in A. destruct A as (A1 & A2). destruct (Ascii.eqb x "#") eqn:E; [apply Ascii.eqb_eq in E; subst; discriminate|]. rewrite IH by exact A2. reflexivity.
Qed.
Lemma split_plain s : has_char "#" s = false -> split_any (fun c => Ascii.eqb c "#") s = [s].
Proof.
  induction s as [|x s IH]; intros H; [reflexivity|]. cbn [has_char] in H. apply orb_false_iff in H. destruct H as (H1 & H2). cbn [split_any].
  destruct (Ascii.eqb x "#") eqn:E; [apply Ascii.eqb_eq in E; subst; discriminate|]. rewrite IH by exact H2. reflexivity.
Qed.
Lemma find_set n v : forall m name, find_pair name (set_pair n v m) = if String.eqb n name then Some v else find_pair name m.
Proof.
  induction m as [|[a b] m IH]; intros name; cbn [set_pair find_pair]; [reflexivity|]. destruct (String.eqb_spec a n) as [->|N]; cbn [find_pair].
  - destruct (String.eqb n name); reflexivity.
  - rewrite IH. destruct (String.eqb_spec a name) as [->|M]; [destruct (String.eqb_spec n name); [congruence|reflexivity]|reflexivity].
Qed.
(** C110: properties can be given by lines with two number signs. *)
Theorem properties_read : forall pairs rest, (forall p, In p pairs -> has_char "#" (fst p) = false /\ has_char "#" (snd p) = false) -> (forall l r, rest <> String "#" l :: r) ->
  exists m, readNameValuePairs (map (fun p => "#" ++ fst p ++ "#" ++ snd p)%string pairs ++ rest) [] = Ok (rest, m)
  /\ (forall name, hasProperty m name = true <-> last_given name pairs <> None)
  /\ (forall (F : Type) (read : string -> option F) name,
      (forall v x, last_given name pairs = Some v -> read v = Some x -> getProperty F read m name = Ok x)
      /\ (forall v, last_given name pairs = Some v -> read v = None -> getProperty F read m name = Err IOException)
      /\ (last_given name pairs = None -> getProperty F read m name = Err InvalidArgumentException)).
Proof.
  intros pairs rest H N.
  assert (G : forall m0, exists m, readNameValuePairs (map (fun p => "#" ++ fst p ++ "#" ++ snd p)%string pairs ++ rest) m0 = Ok (rest, m)
    /\ forall name, find_pair name m = fold_left (fun v p => if String.eqb (trim (fst p)) name then Some (trim (snd p)) else v) pairs (find_pair name m0)).
  { induction pairs as [|[n v] pairs IH]; intros m0.
    - exists m0. split; [|reflexivity]. cbn [map app]. destruct rest as [|[|a l] r]; [reflexivity|reflexivity|]. cbn [readNameValuePairs]. destruct (Ascii.eqb_spec a "#") as [->|]; [exfalso; exact (N l r eq_refl)|reflexivity].
    - destruct (H (n, v) (or_introl eq_refl)) as (A & B). cbn [fst snd] in A, B. destruct (IH (fun p I => H p (or_intror I)) (set_pair (trim n) (trim v) m0)) as (m & E & L). exists m. split.
      + cbn [map app fst snd append readNameValuePairs]. change (Ascii.eqb "#" "#") with true. cbn iota. rewrite split_hash by assumption. exact E.
      + intros name. rewrite L, find_set. reflexivity. }
  destruct (G []) as (m & E & L). exists m. split; [exact E|]. assert (L' : forall name, find_pair name m = last_given name pairs) by (intros name; rewrite L; reflexivity). split.
  - intros name. unfold hasProperty. rewrite L'. destruct (last_given name pairs); split; congruence.
  - intros F read name. unfold getProperty. rewrite L'. split; [intros v x -> ->; reflexivity|]. split; [intros v -> ->; reflexivity|intros ->; reflexivity].
Qed.
Print Assumptions properties_read.
Example properties_read_ex : exists m, readNameValuePairs ["# a # 12 "; "#b#x"; "#a#13"; "7"]%string [] = Ok (["7"]%string, m)
  /\ getProperty Z Z_of_str m "a" = Ok 13%Z /\ getProperty Z Z_of_str m "b" = Err IOException /\ getProperty Z Z_of_str m "c" = Err InvalidArgumentException.
Proof. eexists. split; [vm_compute; reflexivity|]. vm_compute. repeat split. Qed.
(** C110: the documented format is an error. *)
Theorem properties_documented_refuted : forall name value rest m, has_char "#" name = false -> has_char "#" value = false ->
  readNameValuePairs (("# " ++ name ++ " = " ++ value)%string :: rest) m = Err IOException.
Proof.
  intros name value rest m A B. cbn [append readNameValuePairs]. change (Ascii.eqb "#" "#") with true. cbn iota. rewrite split_plain; [reflexivity|].
  change (has_char "#" (" " ++ name ++ " = " ++ value) = false)%string. rewrite !has_char_app, A, B. reflexivity.
Qed.
Print Assumptions properties_documented_refuted.
Example properties_documented_ex : readNameValuePairs ["# kT = 1"]%string [] = Err IOException.
Proof. apply (properties_documented_refuted "kT" "1" [] []); reflexivity. Qed.

(** * Settings *)
Section Settings.
Context (F : Type) (value : F -> R) (load : string -> outcome (setting F)) (neg : Z -> option Z).
Lemma read_iff t p v config : proper_path p -> (forall s, reaches config p s -> ~ negative_read t s) ->
  CfgModel.read F neg t config (dotted p) = Done v <-> reaches config p (Scalar v) /\ has_type v t.
Proof.
  intros Q N. unfold CfgModel.read. rewrite read_value_proper by assumption. destruct (walk F config p) as [s|] eqn:W.
  - apply walk_reaches in W. pose proof (convert_iff neg t s v (N s W)) as C. destruct (convert F neg t s) as [w|].
    + split; [intros E; injection E as ->; destruct (proj1 C eq_refl) as (-> & T); auto|]. intros (R & T). apply walk_reaches in R. apply walk_reaches in W. rewrite W in R. injection R as ->.
      rewrite (f_equal (fun o => match o with Some x => x | None => v end) (proj2 C (conj eq_refl T))). reflexivity.
    + split; [discriminate|]. intros (R & T). apply walk_reaches in R. apply walk_reaches in W. rewrite W in R. injection R as ->. discriminate (proj2 C (conj eq_refl T)).
  - split; [discriminate|]. intros (R & _). apply walk_reaches in R. congruence.
Qed.
Lemma double_setting_iff p d config : proper_path p -> double_setting F neg (dotted p) config = Done d <-> reaches config p (Scalar (VFloat d)).
Proof.
  intros Q. pose proof (fun v => read_iff TFloat p v config Q (fun s _ H => ltac:(destruct H as (E & _); discriminate))) as H. unfold double_setting. split.
  - intros E. destruct (CfgModel.read F neg TFloat config (dotted p)) as [v|f] eqn:R; [|discriminate]. destruct v as [b|z|z|x|s]; try discriminate. injection E as ->. apply (H (VFloat d)). reflexivity.
  - intros R. rewrite (proj2 (H (VFloat d)) (conj R (has_float d))). reflexivity.
Qed.
Lemma unsigned_setting_iff p z config : proper_path p -> (forall z, reaches config p (Scalar (VInt z)) -> (0 <= z)%Z) ->
  unsigned_setting F neg (dotted p) config = Done z <-> reaches config p (Scalar (VInt z)).
Proof.
  intros Q N. assert (NN : forall s, reaches config p s -> ~ negative_read TUnsigned s) by (intros s R (_ & z' & -> & L); specialize (N z' R); lia).
  pose proof (fun v => read_iff TUnsigned p v config Q NN) as H. unfold unsigned_setting. split.
  - intros E. destruct (CfgModel.read F neg TUnsigned config (dotted p)) as [v|f] eqn:R; [|discriminate]. destruct v as [b|z'|z'|x|s]; try discriminate. injection E as ->. apply (H (VInt z)). reflexivity.
  - intros R. rewrite (proj2 (H (VInt z)) (conj R (has_unsigned z (N z R)))). reflexivity.
Qed.
(** C110: a value from all configurations. *)
Theorem consistent_integer : forall dirs p, proper_path p -> never_negative load dirs p ->
  (forall z, getConsistentConfigValue F load (unsigned_setting F neg (dotted p)) integers_differ dirs = Done z <-> agreed_integer load dirs p z).
Proof.
  intros dirs p Q N z. rewrite consistent_iff by (unfold integers_differ; rewrite Z.eqb_refl; reflexivity).
  assert (G : forall dir v, In dir dirs -> setting_in load (unsigned_setting F neg (dotted p)) dir v <-> configured load dir p (VInt v)).
  { intros dir v I. unfold AnaSpec.setting_in, configured. split; intros (c & L & E); exists c; (split; [exact L|]); apply (unsigned_setting_iff p v c Q); try exact E; intros z' R; apply (N dir z' I); exists c; auto. }
  unfold agreed_integer. split.
  - intros ((f & r & -> & _) & H). split; [discriminate|]. intros dir I. destruct (H dir I) as (v & Sv & D). unfold integers_differ in D. apply negb_false_iff, Z.eqb_eq in D. subst v. apply G; assumption.
  - intros (NE & H). destruct dirs as [|f r]; [congruence|]. split; [exists f, r; split; [reflexivity|]; apply G; [left; reflexivity|apply H; left; reflexivity]|].
    intros dir I. exists z. split; [apply G; [exact I|apply H, I]|]. unfold integers_differ. rewrite Z.eqb_refl. reflexivity.
Qed.
Theorem consistent_number : forall dirs p, proper_path p ->
  (forall x, (exists d, getConsistentConfigValue F load (double_setting F neg (dotted p)) (doubles_differ F value) dirs = Done d /\ value d = x) <-> agreed_number value load dirs p x).
Proof.
  intros dirs p Q x.
  assert (G : forall dir v, setting_in load (double_setting F neg (dotted p)) dir v <-> configured load dir p (VFloat v)).
  { intros dir v. unfold AnaSpec.setting_in, configured. split; intros (c & L & E); exists c; (split; [exact L|]); apply (double_setting_iff p v c Q); exact E. }
  assert (R : forall a b, doubles_differ F value a b = false <-> value a = value b).
  { intros a b. unfold doubles_differ, reqb. destruct (Req_EM_T (value a) (value b)); cbn [negb]; split; congruence. }
  unfold agreed_number. split.
  - intros (d & E & <-). apply consistent_iff in E; [|apply R; reflexivity]. destruct E as ((f & r & -> & _) & H). split; [discriminate|]. intros dir I. destruct (H dir I) as (v & Sv & D).
    exists v. split; [apply G, Sv|]. symmetry. apply R, D.
  - intros (NE & H). destruct dirs as [|f r]; [congruence|]. destruct (H f (or_introl eq_refl)) as (d & C & <-). exists d. split; [|reflexivity]. apply consistent_iff; [apply R; reflexivity|].
    split; [exists f, r; split; [reflexivity|apply G, C]|]. intros dir I. destruct (H dir I) as (v & Cv & E). exists v. split; [apply G, Cv|]. apply R. congruence.
Qed.
(** C110: without runs, with configurations that cannot be loaded, and otherwise. *)
Theorem consistent_failures : forall (A : Type) (get : setting F -> outcome A) differ dirs,
  getConsistentConfigValue F load get differ [] = Fails InvalidArgument
  /\ (forall f, getConsistentConfigValue F load get differ dirs = Fails f -> dirs <> [] ->
      (exists dir, In dir dirs /\ load (dir ++ "/config.txt")%string = Fails f) \/ (exists dir config, In dir dirs /\ load (dir ++ "/config.txt")%string = Done config /\ get config = Fails f)
      \/ (f = InvalidConfiguration /\ exists dir dir' v v', In dir dirs /\ In dir' dirs /\ setting_in load get dir v /\ setting_in load get dir' v' /\ differ v v' = true)).
Proof.
  intros A get differ dirs. split; [reflexivity|]. intros f E NE. unfold getConsistentConfigValue in E. destruct (consistent_loop F load get differ dirs None) as [[v|]|f'] eqn:C.
  - discriminate.
  - exfalso. destruct dirs as [|dir dirs]; [congruence|]. cbn [consistent_loop] in C. destruct (load (dir ++ "/config.txt")%string) as [c|]; [|discriminate]. destruct (get c) as [x|]; [|discriminate].
    apply consistent_rest in C. destruct C as (C & _). discriminate.
  - injection E as ->.
    assert (G : forall ds w, (forall dir, In dir ds -> In dir dirs) -> (forall v, w = Some v -> exists dir, In dir dirs /\ setting_in load get dir v) -> consistent_loop F load get differ ds w = Fails f ->
      (exists dir, In dir dirs /\ load (dir ++ "/config.txt")%string = Fails f) \/ (exists dir config, In dir dirs /\ load (dir ++ "/config.txt")%string = Done config /\ get config = Fails f)
      \/ (f = InvalidConfiguration /\ exists dir dir' v v', In dir dirs /\ In dir' dirs /\ setting_in load get dir v /\ setting_in load get dir' v' /\ differ v v' = true)).
    { induction ds as [|dir ds IH]; intros w Sub W E; cbn [consistent_loop] in E; [discriminate|]. pose proof (Sub dir (or_introl eq_refl)) as I.
      destruct (load (dir ++ "/config.txt")%string) as [c|f'] eqn:L; [|injection E as ->; left; exists dir; auto].
      destruct (get c) as [x|f'] eqn:Gc; [|injection E as ->; right; left; exists dir, c; auto]. assert (Sx : setting_in load get dir x) by (exists c; auto).
      destruct w as [v|].
      - destruct (W v eq_refl) as (d0 & I0 & S0). destruct (differ v x) eqn:D; [injection E as <-; right; right; split; [reflexivity|]; exists d0, dir, v, x; auto|].
        apply (IH (Some v)); [intros d J; apply Sub; right; exact J|exact W|exact E].
      - apply (IH (Some x)); [intros d J; apply Sub; right; exact J|intros v Q; injection Q as <-; exists dir; auto|exact E]. }
    apply (G dirs None); [auto|discriminate|exact C].
Qed.
End Settings.
Print Assumptions consistent_integer.
Print Assumptions consistent_number.
Print Assumptions consistent_failures.
Definition ex_config (z : Z) : setting Z := Group [("mpc", Group [("timestep", Scalar (VFloat z))])]%string.
Definition ex_load (p : string) : outcome (setting Z) :=
  if String.eqb p "a/config.txt" then Done (ex_config 2) else if String.eqb p "b/config.txt" then Done (ex_config 2) else if String.eqb p "c/config.txt" then Done (ex_config 3) else Fails GeneralException.
Example consistent_ex : agreed_number IZR ex_load ["a"; "b"]%string ["mpc"; "timestep"]%string 2
  /\ (forall x, ~ agreed_number IZR ex_load ["a"; "c"]%string ["mpc"; "timestep"]%string x)
  /\ getConsistentConfigValue Z ex_load (double_setting Z (fun z => Some z) "mpc.timestep") (fun a b => negb (Z.eqb a b)) ["a"; "b"; "c"]%string = Fails InvalidConfiguration
  /\ getConsistentConfigValue Z ex_load (double_setting Z (fun z => Some z) "mpc.timestep") (fun a b => negb (Z.eqb a b)) ["a"; "b"; "d"]%string = Fails GeneralException
  /\ getConsistentConfigValue Z ex_load (double_setting Z (fun z => Some z) "mpc.timestep") (fun a b => negb (Z.eqb a b)) ["a"; "b"]%string = Done 2%Z.
Proof.
  assert (R : forall z, reaches (ex_config z) ["mpc"; "timestep"]%string (Scalar (VFloat z))) by (intros z; apply walk_reaches; reflexivity).
  split; [|split; [|vm_compute; repeat split]].
  - split; [discriminate|]. intros dir I. exists 2%Z. split; [|reflexivity]. exists (ex_config 2). split; [|apply R]. destruct I as [<-|[<-|[]]]; reflexivity.
  - intros x (_ & H).
    destruct (H "a"%string (or_introl eq_refl)) as (d & (c & L & Q) & <-). destruct (H "c"%string (or_intror (or_introl eq_refl))) as (d' & (c' & L' & Q') & E).
    vm_compute in L, L'. injection L as <-. injection L' as <-. apply walk_reaches in Q. apply walk_reaches in Q'. vm_compute in Q, Q'. injection Q as <-. injection Q' as <-. apply eq_IZR in E. discriminate.
Qed.
