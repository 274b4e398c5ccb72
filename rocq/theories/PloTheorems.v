(** Files that are plotted: C112. *)
From Coq Require Import String Ascii Permutation Lia.
From Verif Require Import QcBase PyBase StrBase VtfModel VtfPyModel EmpModel Data2DModel EmpSpec EmpProof PtsSpec PtsProof PloModel PloSpec PloProof PloLineProof PloListProof.
From Verif Require AnaModel.
Open Scope string_scope.
Open Scope list_scope.
Open Scope Qc_scope.

(** C112: a file that has comments with characteristics, and points, becomes a plot, hidden at first; the given dictionary has its characteristics, and nothing else changes. *)
Theorem file_provided : forall float fs p path text d e x y, openPossiblyCompressedFile fs path = EmpModel.Done text -> says float (keep_lines text) (dict_at p d) e x y -> (d < length (heap p))%nat ->
  exists p' r, provideDataFile float fs p path d = (p', r)
  /\ plots p' = plots p ++ [PlotOf None x y false None d] /\ dict_at p' d = e /\ (forall i, i <> d -> dict_at p' i = dict_at p i) /\ canvas p' = canvas p
  /\ (sorted_by (selection p) = None -> r = Ok tt).
Proof.
  intros float fs p path text d e x y O S L. destruct (file_ok float fs p path text d e x y O S L) as (A & B & C & _ & D).
  destruct (provideDataFile float fs p path d) as [p' r] eqn:E. exists p', r. cbn [fst] in *. repeat (split; [assumption || reflexivity|]).
  intros N. destruct (file_unsorted float fs p path text d e x y O S N) as (q & F & _). congruence.
Qed.
Print Assumptions file_provided.
(** C112: every other file is refused; no plot is added, though the dictionary may have grown. *)
Theorem file_refused : forall float fs p path d,
  (forall text, openPossiblyCompressedFile fs path = EmpModel.Done text -> (d < length (heap p))%nat -> (forall e x y, ~ says float (keep_lines text) (dict_at p d) e x y) ->
    exists p' r more, provideDataFile float fs p path d = (p', Err r) /\ (r = MalformedFileException \/ r = ValueError)
    /\ plots p' = plots p /\ canvas p' = canvas p /\ selection p' = selection p /\ dict_at p' d = dict_at p d ++ more /\ (forall i, i <> d -> dict_at p' i = dict_at p i))
  /\ (fs path = None -> fs (path ++ ".bz2")%string = None -> exists r, provideDataFile float fs p path d = (p, Err r) /\ (r = OSError \/ r = ValueError)).
Proof.
  intros float fs p path d. split.
  - intros text O L N. unfold provideDataFile. rewrite O. destruct (read_keeps float (keep_lines text) (dict_at p d) [] []) as [more M].
    destruct (read_lines float (keep_lines text) (dict_at p d) [] []) as [e [[x y]|r]] eqn:R; [exfalso; apply (N e x y), read_iff, R|]. cbn [fst] in M. subst e.
    eexists _, r, more. split; [reflexivity|]. split; [eapply read_error, R|]. do 3 (split; [reflexivity|]). unfold dict_at at 1 3. cbn [heap with_heap].
    split; [apply replace_at, L|]. intros i I. unfold dict_at. apply replace_other. congruence.
  - intros A B. unfold provideDataFile, openPossiblyCompressedFile. rewrite A, B. destruct (String.eqb (last4 path) ".bz2"); eexists; (split; [reflexivity|]); auto.
Qed.
Print Assumptions file_refused.
Definition ex_float (s : string) : option Qc :=
  if String.eqb s "1" then Some 1 else if String.eqb s "-2" then Some (- (1 + 1)) else if String.eqb s (String " " (String "1" (String newline ""))) then Some 1 else None.
Definition nl (s : string) : string := (s ++ String newline "")%string.
Definition ex_text : string := (nl "#T = 1" ++ nl "# rundirs = ['a=b']" ++ nl "#T = 2" ++ nl "1 -2" ++ "-2 1")%string.
Example file_provided_ex : says ex_float (keep_lines ex_text) [] [("T", Number 1); ("rundirs", Text (nl " ['a=b']"))] [1; - (1 + 1)] [- (1 + 1); 1].
Proof. apply read_iff. reflexivity. Qed.
Example file_refused_ex : snd (provideDataFile ex_float (fun s => if String.eqb s "a" then Some (nl "#T=1=2") else if String.eqb s "b" then Some "1 2" else None) new_plotter "a" 0) = Err MalformedFileException
  /\ snd (provideDataFile ex_float (fun s => if String.eqb s "a" then Some (nl "#T=1=2") else if String.eqb s "b" then Some "1 2" else None) new_plotter "b" 0) = Err ValueError.
Proof. split; reflexivity. Qed.

(** C112: a directory: one plot for each file, with a dictionary of its own. *)
Theorem directory_provided : forall float fs listdir given recursive fuel p path p', provideDataDirectory float fs listdir fuel given recursive p path = Some (p', Ok tt) ->
  exists files new, files_in fs listdir recursive path files /\ plots p' = plots p ++ new
  /\ Forall2 (fun path q => exists text, openPossiblyCompressedFile fs path = EmpModel.Done text /\ plot_of float p' given (keep_lines text) q) files new
  /\ NoDup (map pdict new) /\ Forall (fun q => length (heap p) <= pdict q)%nat new /\ (forall i, (i < length (heap p))%nat -> dict_at p' i = dict_at p i).
Proof.
  intros float fs listdir given recursive fuel p path p' H. destruct (directory_added float fs listdir given recursive fuel p path p' H) as (files & F & new & A & B & C & D & E & _).
  exists files, new. repeat (split; [assumption|]). split; [|exact E]. eapply Forall_impl; [|exact D]. cbn beta. intros; lia.
Qed.
Print Assumptions directory_provided.
(** C112: and all files are read if each of them can be. *)
Theorem directory_readable : forall float fs listdir given recursive path files, files_in fs listdir recursive path files ->
  Forall (fun path => exists text e x y, openPossiblyCompressedFile fs path = EmpModel.Done text /\ says float (keep_lines text) given e x y) files ->
  forall p, sorted_by (selection p) = None -> exists fuel p', provideDataDirectory float fs listdir fuel given recursive p path = Some (p', Ok tt).
Proof.
  intros float fs listdir given recursive path files H R p N. destruct (directory_reads float fs listdir given recursive path files H R p N) as (fuel & p' & E & _). eauto.
Qed.
Print Assumptions directory_readable.
Definition ex_fs (s : string) : option string :=
  if String.eqb s "d/a" then Some (nl "#T = x") else if String.eqb s "d/e/b" then Some (nl "#T = y" ++ nl "#S = z")%string else None.
Definition ex_listdir (s : string) : option (list string) := if String.eqb s "d" then Some ["a"; "e"] else if String.eqb s "d/e" then Some ["b"] else None.
Example directory_provided_ex : match provideDataDirectory (fun _ => None) ex_fs ex_listdir 2 [("R", Text "r")] true new_plotter "d" with
  | Some (p, Ok _) => map (fun q => dict_at p (pdict q)) (plots p) = [[("R", Text "r"); ("T", Text (nl " x"))]; [("R", Text "r"); ("T", Text (nl " y")); ("S", Text (nl " z"))]]
    /\ columns (selection p) = ["Plotted"; "R"; "T"; "S"]
  | _ => False end.
Proof. split; reflexivity. Qed.
(** C112: a file that is there with and without compression is read twice in its compressed form, and never in the other one. *)
Theorem directory_each_file_refuted : ~ (forall float fs listdir fuel p path p' files f text, provideDataDirectory float fs listdir fuel [] false p path = Some (p', Ok tt) ->
  files_in fs listdir false path files -> In f files -> fs f = Some text -> exists q, In q (plots p') /\ plot_of float p' [] (keep_lines text) q).
Proof.
  intros H. set (fs := fun s => if String.eqb s "d/a" then Some (nl "#T = x") else if String.eqb s "d/a.bz2" then Some (nl "#T = y") else None).
  set (ls := fun s => if String.eqb s "d" then Some ["a"; "a.bz2"] else None).
  destruct (provideDataDirectory (fun _ => None) fs ls 1 [] false new_plotter "d") as [[p' [[]|e]]|] eqn:E; [|discriminate E|discriminate E].
  assert (F : files_in fs ls false "d" ["d/a"; "d/a.bz2"]).
  { eapply files_dir; [reflexivity|]. refine (named_file fs ls false "d" "a" _ _ _ eq_refl _). refine (named_file fs ls false "d" "a.bz2" _ _ _ eq_refl _). constructor. }
  destruct (H _ _ _ _ _ _ _ _ "d/a" (nl "#T = x") E F ltac:(left; reflexivity) eq_refl) as (q & I & x & y & S & _). apply read_iff in S.
  cbv in E. injection E as <-. cbn [plots In] in I. destruct I as [<-|[<-|[]]]; discriminate S.
Qed.
Print Assumptions directory_each_file_refuted.

(** C112: files that are provided without a dictionary share one, so that the second file has the values of the first one. *)
Theorem file_dictionary_refuted : ~ (forall float fs a b ta tb p1 p2, openPossiblyCompressedFile fs a = EmpModel.Done ta -> openPossiblyCompressedFile fs b = EmpModel.Done tb ->
  provideDataFile_default float fs new_plotter a = (p1, Ok tt) -> provideDataFile_default float fs p1 b = (p2, Ok tt) ->
  exists q, nth_error (plots p2) 1 = Some q /\ plot_of float p2 [] (keep_lines tb) q).
Proof.
  intros H. set (fs := fun s => if String.eqb s "a" then Some (nl "#T = x") else if String.eqb s "b" then Some (nl "#T = y") else None).
  destruct (provideDataFile_default (fun _ => None) fs new_plotter "a") as [p1 [[]|e]] eqn:E; [|discriminate E].
  destruct (provideDataFile_default (fun _ => None) fs p1 "b") as [p2 [[]|e]] eqn:E2; [|cbv in E; injection E as <-; discriminate E2].
  destruct (H _ fs "a" "b" (nl "#T = x") (nl "#T = y") _ _ eq_refl eq_refl E E2) as (q & I & x & y & S & _). apply read_iff in S.
  cbv in E. injection E as <-. cbv in E2. injection E2 as <-. injection I as <-. discriminate S.
Qed.
Print Assumptions file_dictionary_refuted.
(** C112: as is the case for any one dictionary that is passed for several files: the earlier plot changes. *)
Theorem file_plots_kept_refuted : ~ (forall float fs p path d p' q, reachable float fs (fun _ => None) p -> In q (plots p) -> provideDataFile float fs p path d = (p', Ok tt) -> (d < length (heap p))%nat ->
  dict_at p' (pdict q) = dict_at p (pdict q)).
Proof.
  intros H. set (fs := fun s => if String.eqb s "a" then Some "" else if String.eqb s "b" then Some (nl "#T = y") else None).
  destruct (provideDataFile (fun _ => None) fs new_plotter "a" 0) as [p1 [[]|e]] eqn:E; [|discriminate E].
  destruct (provideDataFile (fun _ => None) fs p1 "b" 0) as [p2 [[]|e]] eqn:E2; [|cbv in E; injection E as <-; discriminate E2].
  pose proof (reach_file (fun _ => None) fs (fun _ => None) _ _ _ _ (reach_new _ _ _) E) as R.
  cbv in E. injection E as <-. specialize (H _ _ _ _ _ _ _ R (or_introl eq_refl) E2 ltac:(cbn; lia)). cbv in E2. injection E2 as <-. discriminate H.
Qed.
Print Assumptions file_plots_kept_refuted.
(** C112: a text keeps the blanks after the equals sign, and the end of the line. *)
Theorem file_text_refuted : ~ (forall float name value e, plain name -> plain value -> float (" " ++ nl value)%string = None -> says float [("#" ++ name ++ " = " ++ nl value)%string] [] e [] [] -> e = [(name, Text value)]).
Proof.
  intros H. assert (P : forall a, ~ blank a -> a <> "="%char -> plain (String a "")) by (intros a A B; split; [split; [discriminate|split; [exact A|constructor]]|split; [exact B|constructor]]).
  specialize (H (fun _ => None) "a" "b" [("a", Text (" " ++ nl "b")%string)]). discriminate H.
  - apply P; [intros B; cbv in B; repeat (destruct B as [B|B]; try discriminate); discriminate|discriminate].
  - apply P; [intros B; cbv in B; repeat (destruct B as [B|B]; try discriminate); discriminate|discriminate].
  - reflexivity.
  - apply read_iff. reflexivity.
Qed.
Print Assumptions file_text_refuted.

(** * The files of other programs *)
Lemma keep_break a b : keep_lines (a ++ String newline b)%string = keep_lines (a ++ String newline "")%string ++ keep_lines b.
Proof.
  induction a as [|c a IH]; [reflexivity|]. cbn [append keep_lines]. rewrite IH. destruct (Ascii.eqb c newline); [reflexivity|].
  destruct (keep_lines (a ++ String newline "")%string) as [|h t] eqn:E; [|reflexivity]. exfalso. destruct a as [|x a]; [discriminate E|]. cbn [append keep_lines] in E.
  destruct (Ascii.eqb x newline); [discriminate E|]. destruct (keep_lines (a ++ String newline "")%string); discriminate E.
Qed.
Lemma keep_line s r : one_line s -> keep_lines (text_line s ++ r)%string = text_line s :: keep_lines r.
Proof.
  intros H. unfold text_line. rewrite app_assoc_s. cbn [append]. rewrite keep_break. assert (E : keep_lines (s ++ String newline "")%string = [(s ++ String newline "")%string]); [|rewrite E; reflexivity].
  induction s as [|a s IH]; [reflexivity|]. destruct H as [A H].
  cbn [append keep_lines]. destruct (Ascii.eqb_spec a newline) as [->|_]; [exfalso; apply A; reflexivity|]. rewrite (IH H). reflexivity.
Qed.
Lemma keep_later x s r : In x (keep_lines r) -> In x (keep_lines (text_line s ++ r)%string).
Proof. intros H. unfold text_line. rewrite app_assoc_s. cbn [append]. rewrite keep_break. apply in_or_app. right. exact H. Qed.
(** C112: the tables of the C++ program for transverse velocity correlation functions (C111) cannot be read. *)
Theorem correlation_tables_unreadable : forall text17 dirs k_n box kT timestep sampleSize table float fs p path d,
  openPossiblyCompressedFile fs path = EmpModel.Done (AnaModel.header text17 dirs k_n box kT timestep sampleSize ++ table)%string -> (d < length (heap p))%nat ->
  exists p' r, provideDataFile float fs p path d = (p', Err r) /\ plots p' = plots p.
Proof.
  intros text17 dirs k_n [[Lx Ly] Lz] kT dt n table float fs p path d O L.
  destruct (file_refused float fs p path d) as [F _]. destruct (F _ O L) as (p' & r & more & E & _ & P & _); [|eauto].
  intros e x y. apply says_bad with (line := text_line "#").
  - unfold AnaModel.header. change AnaModel.line with text_line.
    set (last := text_line ("#correlation-time" ++ _)%string). clearbody last. rewrite !app_assoc_s.
    do 10 apply keep_later. rewrite keep_line by (split; [discriminate|constructor]). left. reflexivity.
  - intros name value C. apply comment_iff in C. destruct C as (_ & q & C & _). discriminate C.
  - intros q N. exfalso. exact (N (String newline "") eq_refl).
Qed.
Print Assumptions correlation_tables_unreadable.
(** C112: whereas the files of the Python script are read with all settings and points. Numbers are read with blanks around them, and are written without blanks and equals signs, and not like comments. *)
Theorem script_files_read : forall float text text5 rundirs x y z Lx Ly Lz kT nu kT' nu' points,
  (forall s v, float s = Some v -> float (" " ++ nl s)%string = Some v) ->
  (forall v, In v ([x; y; z; Lx; Ly; Lz] ++ map fst points ++ map snd points) -> plain (text v) /\ no_comment (text v) /\ float (text v) = Some v) -> plain (text5 kT) -> plain (text5 nu) -> float (text5 kT) = Some kT' -> float (text5 nu) = Some nu' ->
  Forall one_line rundirs -> float (nl (" [" ++ listed_rundirs true rundirs ++ "]"))%string = None ->
  says float (keep_lines (plotfile text text5 rundirs (x, y, z) (Lx, Ly, Lz) kT nu points)) []
    [("rundirs", Text (nl (" [" ++ listed_rundirs true rundirs ++ "]"))); ("k_nx", Number x); ("k_ny", Number y); ("k_nz", Number z); ("L_x", Number Lx); ("L_y", Number Ly); ("L_z", Number Lz);
     ("kT", Number kT'); ("nu", Number nu')] (map fst points) (map snd points).
Proof.
  intros float text text5 rundirs x y z Lx Ly Lz kT nu kT' nu' points B T T5 T5' K N D O.
  assert (ONE : forall s, plain s -> one_line s).
  { intros s [[_ W] _]. unfold one_line. clear -W. induction s as [|a s IH]; [constructor|]. destruct W as [A W]. split; [|apply IH, W]. intros ->. apply A. cbv. auto 10. }
  assert (L : forall first l, Forall one_line l -> one_line (listed_rundirs first l)).
  { intros first l H. revert first. unfold one_line in *. induction H as [|r l A H IH]; intros first; cbn [listed_rundirs]; [constructor|].
    rewrite !every_app. repeat split; try discriminate; try exact A; try apply IH. destruct first; repeat split; discriminate. }
  assert (ROW : forall name s rest d e xs ys v, every_char (fun a => a <> "="%char) name -> strip name = name -> strip (name ++ " ")%string = name -> plain s -> float s = Some v -> ~ known d name ->
    one_line name -> says float (keep_lines rest) (d ++ [(name, Number v)]) e xs ys -> says float (keep_lines (text_line ("#" ++ name ++ " = " ++ s) ++ rest)) d e xs ys).
  { intros name s rest d e xs ys v A _ S P F U ON H. rewrite keep_line.
    - eapply says_new with (name := name) (value := (" " ++ nl s)%string) (v := Number v); [|exact U|left; exists v; auto|exact H].
      exists (name ++ " ")%string. split; [|split; [|split; [apply strip_iff, S|right]]].
      + unfold text_line. cbn [append]. f_equal. rewrite !app_assoc_s. cbn [append]. rewrite ?app_assoc_s. reflexivity.
      + apply every_app. split; [exact A|]. split; [discriminate|constructor].
      + unfold nl. cbn [append every_char]. split; [discriminate|]. apply every_app. split; [apply P|]. split; [discriminate|constructor].
    - unfold one_line in *. cbn [append every_char]. split; [discriminate|]. rewrite every_app. split; [exact ON|]. cbn [append every_char]. do 3 (split; [discriminate|]). apply ONE, P. }
  assert (CLEAN : forall n, has_char "=" n = false -> every_char (fun a => a <> "="%char) n) by (intros n; apply without_char).
  assert (LINE : forall n, has_char "010" n = false -> one_line n) by (intros n; apply without_char).
  assert (POINTS : forall d, says float (keep_lines (String.concat "" (map (fun q => text_line (text (fst q) ++ String "009" (text (snd q)))) points))) d d (map fst points) (map snd points)).
  { intros d. assert (T' : forall v, In v (map fst points ++ map snd points) -> plain (text v) /\ no_comment (text v) /\ float (text v) = Some v) by (intros v I; apply T; do 6 right; exact I).
    clear T. rename T' into T. induction points as [|q l IH]; [constructor|].
    assert (T1 := T (fst q) ltac:(left; reflexivity)). assert (T2 := T (snd q) ltac:(apply in_or_app; right; left; reflexivity)).
    assert (E : String.concat "" (map (fun q => text_line (text (fst q) ++ String "009" (text (snd q)))) (q :: l))
              = (text_line (text (fst q) ++ String "009" (text (snd q))) ++ String.concat "" (map (fun q => text_line (text (fst q) ++ String "009" (text (snd q)))) l))%string)
      by (cbn [map String.concat]; destruct l; cbn [map]; [rewrite append_nil_r|]; reflexivity).
    rewrite E, keep_line.
    - cbn [map]. apply says_point; [| |apply IH; intros v I; apply T; apply in_app_or in I; cbn [map]; apply in_or_app; destruct I; [left|right]; right; assumption].
      + intros r R. destruct T1 as [[[W _] _] [C _]]. destruct (text (fst q)) as [|a t] eqn:TT; [contradiction|]. injection R as -> _. exact (C t eq_refl).
      + apply line_has_words. exists (text (fst q)), (text (snd q)). split; [|split; [apply T1|apply T2]]. unfold text_line. rewrite words_eol. rewrite words_tab by apply T1. rewrite words_only by apply T2. reflexivity.
    - unfold one_line. apply every_app. split; [apply ONE, T1|]. split; [discriminate|]. apply ONE, T2. }
  unfold plotfile. rewrite keep_line.
  2: { unfold one_line. rewrite every_app. split; [repeat split; discriminate|]. apply every_app. split; [apply L, D|repeat split; discriminate]. }
  eapply says_new with (name := "rundirs"); [|intros []|right; split; [exact O|reflexivity]|].
  { exists "rundirs ". split; [|split; [repeat split; discriminate|split; [apply strip_iff; reflexivity|left; reflexivity]]]. reflexivity. }
  cbn [app].
  assert (KN : forall (d : dict) n, existsb (String.eqb n) (map fst d) = false -> ~ known d n).
  { intros d n H I. unfold known in I. assert (X : existsb (String.eqb n) (map fst d) = true) by (apply existsb_exists; exists n; split; [exact I|apply String.eqb_refl]). congruence. }
  apply (ROW "k_nx" (text x)) with (v := x); [exact (CLEAN "k_nx" eq_refl)|reflexivity|reflexivity|apply T; cbn [app In]; auto 10|apply T; cbn [app In]; auto 10|apply KN; reflexivity|exact (LINE "k_nx" eq_refl)|cbn [app]].
  apply (ROW "k_ny" (text y)) with (v := y); [exact (CLEAN "k_ny" eq_refl)|reflexivity|reflexivity|apply T; cbn [app In]; auto 10|apply T; cbn [app In]; auto 10|apply KN; reflexivity|exact (LINE "k_ny" eq_refl)|cbn [app]].
  apply (ROW "k_nz" (text z)) with (v := z); [exact (CLEAN "k_nz" eq_refl)|reflexivity|reflexivity|apply T; cbn [app In]; auto 10|apply T; cbn [app In]; auto 10|apply KN; reflexivity|exact (LINE "k_nz" eq_refl)|cbn [app]].
  apply (ROW "L_x" (text Lx)) with (v := Lx); [exact (CLEAN "L_x" eq_refl)|reflexivity|reflexivity|apply T; cbn [app In]; auto 10|apply T; cbn [app In]; auto 10|apply KN; reflexivity|exact (LINE "L_x" eq_refl)|cbn [app]].
  apply (ROW "L_y" (text Ly)) with (v := Ly); [exact (CLEAN "L_y" eq_refl)|reflexivity|reflexivity|apply T; cbn [app In]; auto 10|apply T; cbn [app In]; auto 10|apply KN; reflexivity|exact (LINE "L_y" eq_refl)|cbn [app]].
  apply (ROW "L_z" (text Lz)) with (v := Lz); [exact (CLEAN "L_z" eq_refl)|reflexivity|reflexivity|apply T; cbn [app In]; auto 10|apply T; cbn [app In]; auto 10|apply KN; reflexivity|exact (LINE "L_z" eq_refl)|cbn [app]].
  apply (ROW "kT" (text5 kT)) with (v := kT'); [exact (CLEAN "kT" eq_refl)|reflexivity|reflexivity|exact T5|exact K|apply KN; reflexivity|exact (LINE "kT" eq_refl)|cbn [app]].
  apply (ROW "nu" (text5 nu)) with (v := nu'); [exact (CLEAN "nu" eq_refl)|reflexivity|reflexivity|exact T5'|exact N|apply KN; reflexivity|exact (LINE "nu" eq_refl)|cbn [app]].
  apply POINTS.
Qed.
Print Assumptions script_files_read.
Definition ex_number (s : string) : option Qc := if String.eqb (strip s) "1" then Some 1 else if String.eqb (strip s) "0" then Some 0 else None.
Definition ex_number_text (v : Qc) : string := if qeqb v 1 then "1" else "0".
Example script_files_read_ex : says ex_number (keep_lines (plotfile ex_number_text ex_number_text ["r=1"; "s"] (0, 1, 0) (1, 1, 1) 1 0 [(0, 1); (1, 0)])) []
    [("rundirs", Text (nl " ['r=1', 's']")); ("k_nx", Number 0); ("k_ny", Number 1); ("k_nz", Number 0); ("L_x", Number 1); ("L_y", Number 1); ("L_z", Number 1); ("kT", Number 1); ("nu", Number 0)]
    [0; 1] [1; 0].
Proof.
  assert (P : forall a, ~ blank a -> a <> "="%char -> plain (String a "")) by (intros a A B; split; [split; [discriminate|split; [exact A|constructor]]|split; [exact B|constructor]]).
  assert (P1 : plain "1") by (apply P; [intros B; cbv in B; repeat (destruct B as [B|B]; try discriminate); discriminate|discriminate]).
  assert (P0 : plain "0") by (apply P; [intros B; cbv in B; repeat (destruct B as [B|B]; try discriminate); discriminate|discriminate]).
  apply script_files_read; try reflexivity.
  - intros s v. unfold ex_number. assert (E : strip (" " ++ nl s)%string = strip s); [|rewrite E; auto].
    apply strip_iff. destruct (proj2 (strip_iff s (strip s)) eq_refl) as (a & b & Q & A & B & C). exists (" " ++ a)%string, (b ++ String newline "")%string.
    split; [unfold nl; rewrite Q at 1; cbn [append]; rewrite !app_assoc_s; reflexivity|]. split; [split; [cbv; auto|exact A]|]. split; [|exact C].
    apply every_app. split; [exact B|]. split; [cbv; auto 10|constructor].
  - intros v I. cbn [app map fst snd In] in I. assert (V : v = 0 \/ v = 1) by (repeat (destruct I as [<-|I]; [auto|]); destruct I). destruct V as [-> | ->].
    + split; [exact P0|]. split; [intros r R; discriminate R|reflexivity].
    + split; [exact P1|]. split; [intros r R; discriminate R|reflexivity].
  - exact P1.
  - exact P0.
  - repeat constructor; discriminate.
Qed.
