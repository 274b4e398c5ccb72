(** Lemmas about files that are plotted. *)
From Coq Require Import String Ascii Permutation Lia.
From Verif Require Import QcBase PyBase StrBase VtfModel VtfPyModel EmpModel Data2DModel EmpSpec EmpProof PtsSpec PtsProof PloModel PloSpec.
Open Scope string_scope.
Open Scope list_scope.
Open Scope Qc_scope.

(** * Text *)
Lemma without_char (c : ascii) s : every_char (fun a => a <> c) s <-> has_char c s = false.
Proof.
  induction s as [|a s IH]; [split; reflexivity|]. cbn [every_char has_char]. rewrite orb_false_iff, IH, Ascii.eqb_neq. reflexivity.
Qed.
Lemma char_cases (c : ascii) s : has_char c s = false \/ exists a b, s = (a ++ String c b)%string /\ has_char c a = false.
Proof.
  induction s as [|x s [IH|(a & b & -> & H)]]; [left; reflexivity| |].
  - destruct (Ascii.eqb x c) eqn:E; [right; exists "", s; apply Ascii.eqb_eq in E; subst x; split; reflexivity|left; cbn [has_char]; rewrite E, IH; reflexivity].
  - destruct (Ascii.eqb x c) eqn:E; right; [exists "", (a ++ String c b)%string; apply Ascii.eqb_eq in E; subst x; split; reflexivity|].
    exists (String x a), b. split; [reflexivity|]. cbn [has_char]. rewrite E, H. reflexivity.
Qed.
Lemma split_here c a b : has_char c a = false -> StrBase.split c (a ++ String c b)%string = a :: StrBase.split c b.
Proof. intros H. exact (split_cons c a b H). Qed.
Lemma split_single c s t : StrBase.split c s = [t] -> has_char c s = false /\ t = s.
Proof.
  intros H. destruct (char_cases c s) as [N|(a & b & -> & N)].
  - rewrite split_none in H by exact N. injection H as <-. auto.
  - rewrite split_here in H by exact N. injection H as _ H. exfalso. exact (split_nonempty c b H).
Qed.
Lemma once_none c s : has_char c s = false -> split_once c s = [s].
Proof. induction s as [|a s IH]; intros H; [reflexivity|]. cbn [has_char] in H. apply orb_false_iff in H. destruct H as [H1 H2]. cbn [split_once]. rewrite H1, (IH H2). reflexivity. Qed.
Lemma once_here c a b : has_char c a = false -> split_once c (a ++ String c b)%string = [a; b].
Proof.
  induction a as [|x a IH]; intros H; cbn [append split_once]; [rewrite Ascii.eqb_refl; reflexivity|].
  cbn [has_char] in H. apply orb_false_iff in H. destruct H as [H1 H2]. rewrite H1, (IH H2). reflexivity.
Qed.
Lemma strip_iff s t : stripped s t <-> strip s = t.
Proof. unfold strip, TvcModel.trim. rewrite stripped_iff. split; intros H; symmetry; exact H. Qed.
Lemma hash_prefix s : String.prefix "#" s = true <-> exists r, s = String "#" r.
Proof.
  destruct s as [|a s]; [split; [discriminate|intros [r H]; discriminate H]|]. cbn [String.prefix]. destruct (ascii_dec "#" a) as [<-|N].
  - split; [intros _; exists s; reflexivity|intros _; destruct s; reflexivity].
  - split; [discriminate|intros [r H]; injection H as H _; congruence].
Qed.
Lemma comment_iff line name value : comment line name value <-> String.prefix "#" line = true /\ exists q, comment_parts line = [q; value] /\ name = strip (tail q).
Proof.
  unfold comment, comment_parts. split.
  - intros (b & -> & B & N & V). rewrite without_char in B. apply strip_iff in N. split; [apply hash_prefix; eauto|].
    assert (B' : has_char "=" (String "#" b) = false) by exact B.
    exists (String "#" b). split; [|cbn [tail]; auto]. change (String "#" (b ++ String "=" value)) with (String "#" b ++ String "=" value)%string.
    rewrite (split_here _ _ _ B'). cbn [hd tail]. rewrite N. destruct (String.eqb_spec name "rundirs") as [E|E]; [exact (once_here _ _ _ B')|].
    destruct V as [V|V]; [contradiction|]. rewrite without_char in V. rewrite split_none by exact V. reflexivity.
  - intros (H & q & P & ->). apply hash_prefix in H. destruct H as [r ->].
    destruct (char_cases "=" r) as [N|(b & v & -> & N)].
    + assert (N' : has_char "=" (String "#" r) = false) by exact N. rewrite (split_none _ _ N'), (once_none _ _ N') in P. destruct (String.eqb _ _); discriminate P.
    + assert (N' : has_char "=" (String "#" b) = false) by exact N. change (String "#" (b ++ String "=" v)) with (String "#" b ++ String "=" v)%string in P.
      rewrite (split_here _ _ _ N'), (once_here _ _ _ N') in P. cbn [hd tail] in P. destruct (String.eqb_spec (strip b) "rundirs") as [E|E].
      * injection P as <- <-. exists b. split; [reflexivity|]. split; [apply without_char, N|]. split; [apply strip_iff; reflexivity|left; exact E].
      * injection P as <- P. apply split_single in P. destruct P as [V ->]. exists b. split; [reflexivity|]. split; [apply without_char, N|].
        split; [apply strip_iff; reflexivity|right; apply without_char, V].
Qed.
Lemma no_comment_iff line : no_comment line <-> String.prefix "#" line = false.
Proof.
  unfold no_comment. destruct (String.prefix "#" line) eqn:E.
  - apply hash_prefix in E. destruct E as [r ->]. split; [intros H; exfalso; exact (H r eq_refl)|discriminate].
  - split; [reflexivity|]. intros _ r ->. assert (X : String.prefix "#" (String "#" r) = true) by (apply hash_prefix; eauto). congruence.
Qed.
Lemma lookup_none d c : lookup d c = None <-> ~ known d c.
Proof.
  unfold known. induction d as [|[n v] d IH]; cbn [lookup map fst In]; [tauto|]. destruct (String.eqb_spec n c) as [E|E]; [split; [discriminate|tauto]|]. rewrite IH. tauto.
Qed.
Lemma lookup_some d c v : lookup d c = Some v <-> first_value d c v.
Proof.
  unfold first_value. split.
  - induction d as [|[n w] d IH]; cbn [lookup]; [discriminate|]. destruct (String.eqb_spec n c) as [->|E].
    + intros H. injection H as ->. exists [], d. split; [reflexivity|tauto].
    + intros H. destruct (IH H) as (u & z & -> & N). exists ((n, w) :: u), z. split; [reflexivity|]. cbn. tauto.
  - intros (u & w & -> & N). induction u as [|[n z] u IH]; cbn [app lookup]; [rewrite String.eqb_refl; reflexivity|].
    cbn in N. destruct (String.eqb_spec n c) as [->|E]; [tauto|]. apply IH. tauto.
Qed.

Section Files.
Variable float : string -> option Qc.
Lemma stands_iff value v : stands_for float value v <-> v = interpreted float value.
Proof.
  unfold stands_for, interpreted. destruct (float value) as [x|]; split.
  - intros [(y & H & ->)|[H _]]; [injection H as ->; reflexivity|discriminate H].
  - intros ->. left. eauto.
  - intros [(y & H & _)|[_ ->]]; [discriminate H|reflexivity].
  - intros ->. right. auto.
Qed.
Lemma read_says lines d e x y : says float lines d e x y -> forall u v, read_lines float lines d u v = (e, Ok (u ++ x, v ++ y)).
Proof.
  induction 1 as [d|line name value lines d e x y C K _ IH|line name value w lines d e x y C K S _ IH|line a b lines d e x y N L _ IH]; intros u v; cbn [read_lines].
  - rewrite !app_nil_r. reflexivity.
  - apply comment_iff in C. destruct C as (P & q & Q & ->). rewrite P, Q. destruct (lookup d (strip (tail q))) eqn:E; [apply IH|]. apply lookup_none in E. contradiction.
  - apply comment_iff in C. destruct C as (P & q & Q & ->). rewrite P, Q. apply lookup_none in K. rewrite K. apply stands_iff in S. rewrite <- S. apply IH.
  - apply no_comment_iff in N. rewrite N. apply line_has_words in L. destruct L as (s & t & W & A & B). cbn [fst snd] in A, B. rewrite W, A, B, IH, <- !app_assoc. reflexivity.
Qed.
Lemma says_read lines : forall d e u v x' y', read_lines float lines d u v = (e, Ok (x', y')) -> exists x y, x' = u ++ x /\ y' = v ++ y /\ says float lines d e x y.
Proof.
  induction lines as [|line lines IH]; intros d e u v x' y'; cbn [read_lines].
  - intros H. injection H as -> <- <-. exists [], []. rewrite !app_nil_r. repeat split. constructor.
  - destruct (String.prefix "#" line) eqn:P.
    + destruct (comment_parts line) as [|q [|value [|]]] eqn:C; try discriminate.
      assert (CC : comment line (strip (tail q)) value) by (apply comment_iff; eauto).
      destruct (lookup d (strip (tail q))) eqn:L; intros H; destruct (IH _ _ _ _ _ _ H) as (x & y & -> & -> & S); exists x, y; repeat split.
      * eapply says_known; [exact CC| |exact S]. destruct (in_dec string_dec (strip (tail q)) (map fst d)) as [I|I]; [exact I|]. apply lookup_none in I. congruence.
      * eapply says_new; [exact CC|apply lookup_none, L|apply stands_iff; reflexivity|exact S].
    + destruct (words is_ws line) as [|a [|b [|]]] eqn:W; try discriminate. destruct (float a) as [s|] eqn:A; [|discriminate]. destruct (float b) as [t|] eqn:B; [|discriminate].
      intros H. destruct (IH _ _ _ _ _ _ H) as (x & y & -> & -> & S). exists (s :: x), (t :: y). rewrite <- !app_assoc. repeat split.
      constructor; [apply no_comment_iff, P| |exact S]. apply line_has_words. exists a, b. auto.
Qed.
Lemma read_iff lines d e x y : says float lines d e x y <-> read_lines float lines d [] [] = (e, Ok (x, y)).
Proof.
  split; [intros H; exact (read_says _ _ _ _ _ H [] [])|]. intros H. apply says_read in H. destruct H as (? & ? & -> & -> & H). exact H.
Qed.
(** Exceptions. *)
Lemma read_error lines d u v e r : read_lines float lines d u v = (e, Err r) -> r = MalformedFileException \/ r = ValueError.
Proof.
  revert d u v. induction lines as [|line lines IH]; intros d u v; cbn [read_lines]; [discriminate|]. destruct (String.prefix "#" line).
  - destruct (comment_parts line) as [|q [|value [|]]]; try (intros H; injection H as _ <-; left; reflexivity). destruct (lookup d _); apply IH.
  - destruct (words is_ws line) as [|a [|b [|]]]; try (intros H; injection H as _ <-; left; reflexivity).
    destruct (float a); [|intros H; injection H as _ <-; right; reflexivity]. destruct (float b); [|intros H; injection H as _ <-; right; reflexivity]. apply IH.
Qed.
Lemma read_keeps lines : forall d u v, exists more, fst (read_lines float lines d u v) = d ++ more.
Proof.
  induction lines as [|line lines IH]; intros d u v; cbn [read_lines]; [exists []; symmetry; apply app_nil_r|]. destruct (String.prefix "#" line).
  - destruct (comment_parts line) as [|q [|value [|]]]; try (exists []; symmetry; apply app_nil_r). destruct (lookup d _); [apply IH|].
    destruct (IH (d ++ [(strip (tail q), interpreted float value)]) u v) as [m ->]. exists ((strip (tail q), interpreted float value) :: m). rewrite <- app_assoc. reflexivity.
  - destruct (words is_ws line) as [|a [|b [|]]]; try (exists []; symmetry; apply app_nil_r).
    destruct (float a); [|exists []; symmetry; apply app_nil_r]. destruct (float b); [|exists []; symmetry; apply app_nil_r]. apply IH.
Qed.
(** A line that says nothing makes the file unreadable. *)
Lemma says_bad lines d e x y line : In line lines -> (forall name value, ~ comment line name value) -> (forall p, no_comment line -> ~ line_has float line p) -> ~ says float lines d e x y.
Proof.
  intros I C L. induction 1 as [d|l name value lines d e x y CC K _ IH|l name value w lines d e x y CC K S _ IH|l a b lines d e x y N LH _ IH]; [exact I| | |];
  (destruct I as [->|I]; [|exact (IH I)]); [exact (C _ _ CC)|exact (C _ _ CC)|exact (L _ N LH)].
Qed.
End Files.

(** * Dictionaries *)
Lemma nodup_two {A} (a b : list A) : NoDup a -> NoDup b -> (forall x, In x a -> ~ In x b) -> NoDup (a ++ b).
Proof.
  induction 1 as [|x a N _ IH]; intros B D; [exact B|]. cbn. constructor.
  - rewrite in_app_iff. intros [I|I]; [exact (N I)|exact (D x (or_introl eq_refl) I)].
  - apply IH; [exact B|]. intros y I. apply D. right. exact I.
Qed.
Lemma replace_length {A} i (x : A) l : length (replace i x l) = length l.
Proof. revert i. induction l as [|a l IH]; intros [|i]; cbn; auto. Qed.
Lemma replace_at {A} i (x d : A) l : (i < length l)%nat -> nth i (replace i x l) d = x.
Proof. revert i. induction l as [|a l IH]; intros [|i] H; cbn in *; [lia|lia|reflexivity|apply IH; lia]. Qed.
Lemma replace_other {A} i j (x d : A) l : i <> j -> nth j (replace i x l) d = nth j l d.
Proof. revert i j. induction l as [|a l IH]; intros [|i] [|j] H; cbn; try reflexivity; [congruence|]. apply IH. congruence. Qed.
Lemma update_keeps p : heap (fst (updatePlotSelector p)) = heap p /\ plots (fst (updatePlotSelector p)) = plots p /\ canvas (fst (updatePlotSelector p)) = canvas p
  /\ plot_dashed (fst (updatePlotSelector p)) = plot_dashed p /\ hidden (fst (updatePlotSelector p)) = hidden p /\ order (fst (updatePlotSelector p)) = order p /\ y_log (fst (updatePlotSelector p)) = y_log p.
Proof. unfold updatePlotSelector. destruct (sort_state p) as [[[c a]|]|]; repeat split. Qed.

Section Providing.
Variable float : string -> option Qc.
Variable fs : filesystem.
Lemma file_ok p path text d e x y : openPossiblyCompressedFile fs path = EmpModel.Done text -> says float (keep_lines text) (dict_at p d) e x y -> (d < length (heap p))%nat ->
  let p' := fst (provideDataFile float fs p path d) in
  plots p' = plots p ++ [PlotOf None x y false None d] /\ dict_at p' d = e /\ (forall i, i <> d -> dict_at p' i = dict_at p i) /\ length (heap p') = length (heap p) /\ canvas p' = canvas p.
Proof.
  intros O S H. unfold provideDataFile. rewrite O. apply read_iff in S. rewrite S. unfold provideData.
  destruct (update_keeps (with_plots (with_heap p (replace d e (heap p))) (plots (with_heap p (replace d e (heap p))) ++ [PlotOf None x y false None d]))) as (A & B & C & _).
  cbn zeta. unfold dict_at. rewrite A, B, C. cbn [heap plots canvas with_plots with_heap].
  split; [reflexivity|]. split; [apply replace_at, H|]. split; [intros i N; apply replace_other; congruence|]. split; [apply replace_length|reflexivity].
Qed.
Lemma file_not p path d e : snd (provideDataFile float fs p path d) = Err e ->
  plots (fst (provideDataFile float fs p path d)) = plots p \/ (exists text x y, openPossiblyCompressedFile fs path = EmpModel.Done text /\ snd (read_lines float (keep_lines text) (dict_at p d) [] []) = Ok (x, y)).
Proof.
  unfold provideDataFile. destruct (openPossiblyCompressedFile fs path) as [text|[|f]]; [|left; reflexivity|left; reflexivity].
  destruct (read_lines float (keep_lines text) (dict_at p d) [] []) as [e' [[x y]|r]] eqn:R; [intros _; right; exists text, x, y; split; [reflexivity|]; rewrite R; reflexivity|left; reflexivity].
Qed.
Lemma file_success p path d p' : provideDataFile float fs p path d = (p', Ok tt) -> exists text e x y, openPossiblyCompressedFile fs path = EmpModel.Done text /\ says float (keep_lines text) (dict_at p d) e x y.
Proof.
  unfold provideDataFile. destruct (openPossiblyCompressedFile fs path) as [text|[|f]]; [|discriminate|discriminate].
  destruct (read_lines float (keep_lines text) (dict_at p d) [] []) as [e [[x y]|r]] eqn:R; [|discriminate]. intros _. exists text, e, x, y. split; [reflexivity|]. apply read_iff, R.
Qed.

(** Directories: what has been added. *)
Definition added (p p' : plotter) (given : dict) (files : list string) : Prop :=
  exists new, plots p' = plots p ++ new
  /\ Forall2 (fun path q => exists text, openPossiblyCompressedFile fs path = EmpModel.Done text /\ plot_of float p' given (keep_lines text) q) files new
  /\ NoDup (map pdict new) /\ Forall (fun q => length (heap p) <= pdict q < length (heap p'))%nat new
  /\ (forall i, (i < length (heap p))%nat -> dict_at p' i = dict_at p i) /\ (length (heap p) <= length (heap p'))%nat.
Lemma added_none p given : added p p given [].
Proof. exists []. rewrite app_nil_r. repeat split; try constructor; auto. Qed.
Lemma added_app p q r given a b : added p q given a -> added q r given b -> added p r given (a ++ b).
Proof.
  intros (n & A & B & C & D & E & F) (m & A' & B' & C' & D' & E' & F'). exists (n ++ m). split; [rewrite A', A, app_assoc; reflexivity|]. split.
  { apply Forall2_app; [|exact B']. clear A C A'. induction B as [|path q0 files n (text & O & x & y & S & X) B IH]; constructor.
    - inversion D as [|? ? Hq _]; subst. exists text. split; [exact O|]. exists x, y. rewrite E' by lia. auto.
    - inversion D; subst. apply IH; assumption. }
  split.
  { rewrite map_app. rewrite Forall_forall in D, D'. apply nodup_two; [exact C|exact C'|]. intros i I J.
    apply in_map_iff in I. destruct I as (q1 & <- & I). apply in_map_iff in J. destruct J as (q2 & Eq & J). specialize (D _ I). specialize (D' _ J). lia. }
  split; [apply Forall_app; split; (eapply Forall_impl; [|eassumption]); cbn beta; intros; lia|].
  split; [|lia]. intros i Hi. rewrite E', E by lia. reflexivity.
Qed.
Lemma added_file p path given p' : provideDataFile float fs (fst (new_dict p given)) path (length (heap p)) = (p', Ok tt) -> added p p' given [path].
Proof.
  intros H. destruct (file_success _ _ _ _ H) as (text & e & x & y & O & S).
  assert (L : (length (heap p) < length (heap (fst (new_dict p given))))%nat) by (cbn; rewrite app_length; cbn; lia).
  pose proof (file_ok _ _ _ _ _ _ _ O S L) as K. rewrite H in K. cbn [fst] in K. destruct K as (A & B & C & D & _).
  assert (G : dict_at (fst (new_dict p given)) (length (heap p)) = given) by (unfold dict_at; cbn; rewrite app_nth2, Nat.sub_diag by lia; reflexivity).
  rewrite G in S. exists [PlotOf None x y false None (length (heap p))]. split; [exact A|]. split.
  { constructor; [|constructor]. exists text. split; [exact O|]. exists x, y. cbn [pdict px py pshow plines plabel]. rewrite B. auto 6. }
  split; [repeat constructor; intros []|]. split; [constructor; [cbn [pdict]; cbn in D, L; lia|constructor]|].
  split; [|cbn in D, L; lia]. intros i Hi. rewrite C by lia. unfold dict_at. cbn. apply app_nth1, Hi.
Qed.
Variable listdir : string -> option (list string).
Lemma names_added given recursive directory path : 
  (forall p sub p', directory p sub = Some (p', Ok tt) -> exists files, files_in fs listdir recursive sub files /\ added p p' given files) ->
  forall names p p', names_loop float fs directory path given recursive p names = Some (p', Ok tt) ->
  exists files, files_named fs listdir recursive path names files /\ added p p' given files.
Proof.
  intros D names. induction names as [|name names IH]; intros p p'; cbn [names_loop].
  - intros H. injection H as <-. exists []. split; [constructor|apply added_none].
  - unfold isfile. destruct (fs (path ++ "/" ++ name)%string) as [t|] eqn:F.
    + change (let (p0, d) := new_dict p given in Some (provideDataFile float fs p0 (path ++ "/" ++ name)%string d))
        with (Some (provideDataFile float fs (fst (new_dict p given)) (path ++ "/" ++ name)%string (length (heap p)))).
      destruct (provideDataFile float fs (fst (new_dict p given)) (path ++ "/" ++ name)%string (length (heap p))) as [q [[]|e]] eqn:E; [|discriminate].
      intros H. destruct (IH _ _ H) as (files & N & A). exists ((path ++ "/" ++ name)%string :: files). split; [econstructor; eassumption|].
      change (added p p' given ([(path ++ "/" ++ name)%string] ++ files)). eapply added_app; [apply added_file, E|exact A].
    + destruct recursive eqn:R.
      * destruct (directory p (path ++ "/" ++ name)%string) as [[q [[]|e]]|] eqn:E; [|discriminate|discriminate]. intros H. destruct (IH _ _ H) as (files & N & A).
        destruct (D _ _ _ E) as (inner & I & B). exists (inner ++ files). split; [apply named_directory; auto|eapply added_app; eassumption].
      * intros H. destruct (IH _ _ H) as (files & N & A). exists files. split; [apply named_ignored; auto|exact A].
Qed.
Lemma directory_added given recursive fuel : forall p path p', provideDataDirectory float fs listdir fuel given recursive p path = Some (p', Ok tt) ->
  exists files, files_in fs listdir recursive path files /\ added p p' given files.
Proof.
  induction fuel as [|fuel IH]; intros p path p'; cbn [provideDataDirectory]; [discriminate|]. destruct (listdir path) as [names|] eqn:L; [|discriminate].
  intros H. apply names_added in H; [|exact IH]. destruct H as (files & N & A). exists files. split; [econstructor; eassumption|exact A].
Qed.
End Providing.
