(** Lemmas about the list of plots, files that can be read, and axes that are merged. *)
From Coq Require Import String Ascii Permutation Lia.
From Verif Require Import QcBase QcLra PyBase StrBase VtfModel VtfPyModel EmpModel Data2DModel EmpSpec EmpProof PtsSpec PtsProof PloModel PloSpec PloProof PloLineProof.
Open Scope string_scope.
Open Scope list_scope.
Open Scope Qc_scope.

Lemma mem_iff c l : mem c l = true <-> In c l.
Proof.
  unfold mem. rewrite existsb_exists. split; [intros (x & I & E); apply String.eqb_eq in E; subst x; exact I|intros I; exists c; split; [exact I|apply String.eqb_refl]].
Qed.
Lemma mem_not c l : mem c l = false <-> ~ In c l.
Proof. rewrite <- mem_iff. destruct (mem c l); split; intros; congruence. Qed.
Lemma used_iff p c : used p c = true <-> has_characteristic p c.
Proof.
  unfold used, has_characteristic. rewrite existsb_exists. split.
  - intros (q & I & E). exists q. split; [exact I|]. destruct (lookup (dict_at p (pdict q)) c) eqn:L; [|discriminate]. destruct (in_dec string_dec c (map fst (dict_at p (pdict q)))) as [K|K]; [exact K|].
    apply lookup_none in K. congruence.
  - intros (q & I & K). exists q. split; [exact I|]. destruct (lookup (dict_at p (pdict q)) c) eqn:L; [reflexivity|]. apply lookup_none in L. contradiction.
Qed.
Lemma nodup_snoc_s (l : list string) c : NoDup l -> ~ In c l -> NoDup (l ++ [c]).
Proof. intros H N. apply nodup_two; [exact H|repeat constructor; intros []|]. intros x I [<-|[]]. exact (N I). Qed.
Lemma add_new_nodup l : forall acc, NoDup acc -> NoDup (add_new l acc).
Proof.
  induction l as [|c l IH]; intros acc H; cbn [add_new]; [exact H|]. destruct (mem c acc) eqn:M; apply IH; [exact H|]. apply nodup_snoc_s; [exact H|apply mem_not, M].
Qed.
Lemma add_new_in l : forall acc c, In c (add_new l acc) <-> In c acc \/ In c l.
Proof.
  induction l as [|d l IH]; intros acc c; cbn [add_new In]; [tauto|]. rewrite IH. destruct (mem d acc) eqn:M.
  - apply mem_iff in M. split; [tauto|]. intros [I|[->|I]]; auto.
  - rewrite in_app_iff. cbn [In]. tauto.
Qed.
Lemma add_new_more l : forall acc, exists more, add_new l acc = acc ++ more.
Proof.
  induction l as [|d l IH]; intros acc; cbn [add_new]; [exists []; symmetry; apply app_nil_r|]. destruct (mem d acc); [apply IH|]. destruct (IH (acc ++ [d])) as [m ->]. exists (d :: m). rewrite <- app_assoc. reflexivity.
Qed.
Section List.
Variables (p : plotter) (initial : list string).
Definition eligible (c : string) : Prop := In c initial \/ has_characteristic p c.
Lemma eligible_iff c : (mem c initial || used p c)%bool = true <-> eligible c.
Proof. unfold eligible. rewrite orb_true_iff, mem_iff, used_iff. reflexivity. Qed.
Lemma ordered_nodup o : forall acc, NoDup acc -> NoDup (ordered p initial o acc).
Proof.
  induction o as [|c o IH]; intros acc H; cbn [ordered]; [exact H|]. apply IH. destruct (mem c acc) eqn:M; cbn [negb andb]; [exact H|]. destruct (mem c initial || used p c)%bool; [|exact H].
  apply nodup_snoc_s; [exact H|apply mem_not, M].
Qed.
Lemma ordered_in o : forall acc c, In c (ordered p initial o acc) <-> In c acc \/ (In c o /\ eligible c).
Proof.
  induction o as [|d o IH]; intros acc c; cbn [ordered In]; [tauto|]. rewrite IH. destruct (mem d acc) eqn:M; cbn [negb andb].
  - apply mem_iff in M. split; [tauto|]. intros [I|[[->|I] E]]; auto.
  - destruct (mem d initial || used p d)%bool eqn:E; [apply eligible_iff in E; rewrite in_app_iff; cbn [In]|].
    + split; [intros [[I|[->|[]]]|[I K]]; auto|]. intros [I|[[->|I] K]]; auto.
    + assert (N : ~ eligible d) by (rewrite <- eligible_iff; congruence). split; [tauto|]. intros [I|[[->|I] K]]; [auto|contradiction|auto].
Qed.
Lemma ordered_more o : forall acc, exists more, ordered p initial o acc = acc ++ more.
Proof.
  induction o as [|d o IH]; intros acc; cbn [ordered]; [exists []; symmetry; apply app_nil_r|]. destruct (negb (mem d acc) && (mem d initial || used p d))%bool; [|apply IH].
  destruct (IH (acc ++ [d])) as [m ->]. exists (d :: m). rewrite <- app_assoc. reflexivity.
Qed.
Lemma ordered_before c d : eligible c -> c <> d -> forall u v acc, ~ In d u -> ~ In c acc -> ~ In d acc -> before (ordered p initial (u ++ c :: v) acc) c d.
Proof.
  intros E N. assert (H : forall o acc, ~ In c acc -> ~ In d acc -> before (ordered p initial (c :: o) acc) c d).
  { intros o acc A B. cbn [ordered]. apply mem_not in A. rewrite A. apply eligible_iff in E. rewrite E. cbn [negb andb].
    destruct (ordered_more o (acc ++ [c])) as [m ->]. exists acc, m. rewrite <- app_assoc. auto. }
  induction u as [|x u IH]; intros v acc D A B; [apply H; assumption|]. cbn [app]. destruct (string_dec x c) as [->|X]; [apply H; assumption|]. cbn [ordered]. apply IH.
  - intros I. apply D. right. exact I.
  - destruct (negb (mem x acc) && (mem x initial || used p x))%bool; [|exact A]. rewrite in_app_iff. intros [I|[I|[]]]; [exact (A I)|congruence].
  - destruct (negb (mem x acc) && (mem x initial || used p x))%bool; [|exact B]. rewrite in_app_iff. intros [I|[I|[]]]; [exact (B I)|]. apply D. left. exact I.
Qed.
End List.
Lemma before_more l m c d : before l c d -> before (l ++ m) c d.
Proof. intros (u & v & -> & N & E). exists u, (v ++ m). rewrite <- app_assoc. auto. Qed.
Lemma before_filter f l c d : f c = true -> before l c d -> before (filter f l) c d.
Proof.
  intros F (u & v & -> & N & E). exists (filter f u), (filter f v). rewrite filter_app. cbn [filter]. rewrite F. split; [reflexivity|]. split; [|exact E].
  intros I. apply filter_In in I. tauto.
Qed.
Definition names (p : plotter) : list string := filter (fun c => negb (mem c (hidden p))) (getListOfPlotCharacteristics p ["Plotted"]).
Lemma names_nodup p : NoDup (names p).
Proof. apply NoDup_filter, add_new_nodup, add_new_nodup, ordered_nodup. constructor. Qed.
Lemma names_in p c : In c (names p) <-> ~ In c (hidden p) /\ (c = "Plotted" \/ has_characteristic p c).
Proof.
  unfold names, getListOfPlotCharacteristics. rewrite filter_In, !add_new_in, ordered_in, negb_true_iff, mem_not. unfold eligible. cbn [In].
  assert (K : In c (flat_map (fun q => map fst (dict_at p (pdict q))) (plots p)) <-> has_characteristic p c) by (unfold has_characteristic, known; rewrite in_flat_map; reflexivity).
  rewrite K. intuition congruence.
Qed.
Lemma names_before p c d : before (order p) c d -> In c (names p) -> before (names p) c d.
Proof.
  intros (u & v & E & N & D) I. pose proof I as J. apply names_in in J. destruct J as [H J]. unfold names. apply before_filter; [apply negb_true_iff, mem_not, H|].
  unfold getListOfPlotCharacteristics. destruct (add_new_more ["Plotted"] (ordered p ["Plotted"] (order p) [])) as [m1 ->].
  destruct (add_new_more (flat_map (fun q => map fst (dict_at p (pdict q))) (plots p)) (ordered p ["Plotted"] (order p) [] ++ m1)) as [m2 ->].
  apply before_more, before_more. rewrite E. apply ordered_before; auto. unfold eligible. cbn [In]. destruct J as [->|J]; auto.
Qed.
Lemma right_cell_of p q c : right_cell p q c (cell_of p q c).
Proof.
  unfold right_cell, cell_of. destruct (string_dec c "Plotted") as [->|N]; [reflexivity|]. destruct (String.eqb_spec c "Plotted") as [E|_]; [contradiction|].
  destruct (lookup (dict_at p (pdict q)) c) as [v|] eqn:L; [left; exists v; split; [apply lookup_some, L|reflexivity]|right; split; [apply lookup_none, L|reflexivity]].
Qed.
Lemma forall2_map {A B} (P : A -> B -> Prop) f l : (forall x, P x (f x)) -> Forall2 P l (map f l).
Proof. intros H. induction l; constructor; auto. Qed.
Lemma list_with p s : list_right p -> columns s = columns (selection p) -> cells s = cells (selection p) -> list_right (with_selection p s).
Proof. intros H C D. unfold list_right in *. cbn [selection with_selection hidden order plots]. rewrite C, D. exact H. Qed.
Lemma update_right p p' : updatePlotSelector p = (p', Ok tt) -> list_right p'.
Proof.
  unfold updatePlotSelector. fold (names p). destruct (sort_state p) as [state|e]; [|discriminate].
  assert (G : list_right (with_selection p (Selector (names p) (map (fun q => map (cell_of p q) (names p)) (plots p)) None))).
  { unfold list_right. cbn [selection with_selection columns cells hidden order plots]. split; [apply names_nodup|]. split; [intros c; exact (names_in p c)|].
    split; [intros c d B I _; exact (names_before p c d B I)|]. apply forall2_map. intros q. apply forall2_map. intros c. exact (right_cell_of p q c). }
  destruct state as [[c a]|]; [|intros H; injection H as <-; exact G]. unfold sortListItems. intros H. injection H as <- _. exact (list_with _ _ G eq_refl eq_refl).
Qed.
Lemma data_right p x y show lab c p' : provideData p x y show lab c = (p', Ok tt) -> list_right p'.
Proof.
  unfold provideData. destruct show; [destruct (draw (plot_dashed p) (canvas p) x y lab) as [ax [ids|e]]; cbn [bind]; [|discriminate]|]; (destruct c; apply update_right).
Qed.
Lemma toggle_right p i p' : toggleVisibility p i = (p', Ok tt) -> list_right p'.
Proof.
  unfold toggleVisibility. destruct (nth_error (plots p) i) as [q|]; [|discriminate]. destruct (negb (pshow q)).
  - destruct (draw (plot_dashed p) (canvas p) (px q) (py q) (plabel q)) as [ax [ids|e]]; [|discriminate]. apply update_right.
  - destruct (plines q) as [ids|]; [|discriminate]. destruct (remove_lines ids (canvas p)) as [ax [[]|e]]; [|discriminate]. apply update_right.
Qed.

(** Sorting. *)
Lemma column_found c l : In c l -> exists i, column_of c l = Some i /\ nth_error l i = Some c.
Proof.
  induction l as [|d l IH]; [intros []|]. intros I. cbn [column_of]. destruct (String.eqb_spec d c) as [->|N]; [exists O; auto|]. destruct I as [I|I]; [contradiction|].
  destruct (IH I) as (i & -> & E). exists (S i). auto.
Qed.
Lemma column_missing c l : ~ In c l -> column_of c l = None.
Proof.
  induction l as [|d l IH]; intros N; [reflexivity|]. cbn [column_of]. destruct (String.eqb_spec d c) as [->|E]; [exfalso; apply N; left; reflexivity|].
  rewrite IH; [reflexivity|]. intros I. apply N. right. exact I.
Qed.
Lemma update_sort p p' i a c : updatePlotSelector p = (p', Ok tt) -> sorted_by (selection p) = Some (i, a) -> nth_error (columns (selection p)) i = Some c ->
  sorted_by (selection p') = if mem c (hidden p) then None else Some (i, a).
Proof.
  intros U S N. unfold updatePlotSelector, sort_state in U. rewrite S, N in U. destruct (columns (selection p)) eqn:C; [destruct i; discriminate N|].
  destruct (mem c (hidden p)); [injection U as <-; reflexivity|]. unfold sortListItems in U. injection U as <- _. reflexivity.
Qed.
Lemma update_unsorted p : sorted_by (selection p) = None -> exists p', updatePlotSelector p = (p', Ok tt) /\ sorted_by (selection p') = None.
Proof.
  intros H. unfold updatePlotSelector, sort_state. rewrite H. destruct (columns (selection p)); eexists; split; reflexivity.
Qed.

(** Files and directories that can be read. *)
Section Reading.
Variables (float : string -> option Qc) (fs : filesystem) (listdir : string -> option (list string)).
Lemma file_right p path d p' : provideDataFile float fs p path d = (p', Ok tt) -> list_right p'.
Proof.
  unfold provideDataFile. destruct (openPossiblyCompressedFile fs path) as [t|[|f]]; [|discriminate|discriminate].
  destruct (read_lines float (keep_lines t) (dict_at p d) [] []) as [e [[x y]|r]]; [|discriminate]. apply data_right.
Qed.
Lemma names_right directory path c recursive p0 : (forall p sub p', (p = p0 \/ list_right p) -> directory p sub = Some (p', Ok tt) -> p' = p0 \/ list_right p') ->
  forall l p p', (p = p0 \/ list_right p) -> names_loop float fs directory path c recursive p l = Some (p', Ok tt) -> p' = p0 \/ list_right p'.
Proof.
  intros D. induction l as [|n l IH]; intros p p' H; cbn [names_loop]; [intros E; injection E as <-; exact H|].
  destruct (isfile fs (path ++ "/" ++ n)%string).
  - change (let (p0, d) := new_dict p c in Some (provideDataFile float fs p0 (path ++ "/" ++ n)%string d))
      with (Some (provideDataFile float fs (fst (new_dict p c)) (path ++ "/" ++ n)%string (length (heap p)))).
    destruct (provideDataFile float fs (fst (new_dict p c)) (path ++ "/" ++ n)%string (length (heap p))) as [q [[]|e]] eqn:E; [|discriminate].
    apply IH. right. eapply file_right, E.
  - destruct recursive; [|apply IH, H]. destruct (directory p (path ++ "/" ++ n)%string) as [[q [[]|e]]|] eqn:E; [|discriminate|discriminate]. apply IH. eapply D; [exact H|exact E].
Qed.
Lemma directory_right c recursive p0 fuel : forall p path p', (p = p0 \/ list_right p) -> provideDataDirectory float fs listdir fuel c recursive p path = Some (p', Ok tt) -> p' = p0 \/ list_right p'.
Proof.
  induction fuel as [|fuel IH]; intros p path p' H; cbn [provideDataDirectory]; [discriminate|]. destruct (listdir path); [|discriminate]. apply names_right; [exact IH|exact H].
Qed.
Lemma file_unsorted p path text d e x y : openPossiblyCompressedFile fs path = EmpModel.Done text -> says float (keep_lines text) (dict_at p d) e x y -> sorted_by (selection p) = None ->
  exists p', provideDataFile float fs p path d = (p', Ok tt) /\ sorted_by (selection p') = None.
Proof. intros O S N. unfold provideDataFile. rewrite O. apply read_iff in S. rewrite S. unfold provideData. apply update_unsorted. exact N. Qed.
(** More fuel does no harm. *)
Lemma names_mono given recursive path (D D' : plotter -> string -> option (plotter * result unit)) : (forall p sub r, D p sub = Some r -> D' p sub = Some r) ->
  forall l p r, names_loop float fs D path given recursive p l = Some r -> names_loop float fs D' path given recursive p l = Some r.
Proof.
  intros H. induction l as [|n l IH]; intros p r; cbn [names_loop]; [auto|]. destruct (isfile fs (path ++ "/" ++ n)%string).
  - destruct (let (p0, d) := new_dict p given in Some (provideDataFile float fs p0 (path ++ "/" ++ n)%string d)) as [[q [u|e]]|]; auto.
  - destruct recursive; [|apply IH]. destruct (D p (path ++ "/" ++ n)%string) as [[q [u|e]]|] eqn:E; [| |discriminate]; rewrite (H _ _ _ E); auto.
Qed.
Lemma directory_mono given recursive : forall n m p path r, (n <= m)%nat -> provideDataDirectory float fs listdir n given recursive p path = Some r -> provideDataDirectory float fs listdir m given recursive p path = Some r.
Proof.
  induction n as [|n IH]; intros m p path r L; [discriminate|]. destruct m as [|m]; [lia|]. cbn [provideDataDirectory]. destruct (listdir path); [|auto].
  apply names_mono. intros q sub s. apply IH. lia.
Qed.
Scheme files_in_min := Minimality for files_in Sort Prop with files_named_min := Minimality for files_named Sort Prop.
Definition readable (given : dict) (path : string) : Prop := exists text e x y, openPossiblyCompressedFile fs path = EmpModel.Done text /\ says float (keep_lines text) given e x y.
Lemma directory_reads given recursive path files : files_in fs listdir recursive path files -> Forall (readable given) files ->
  forall p, sorted_by (selection p) = None -> exists fuel p', provideDataDirectory float fs listdir fuel given recursive p path = Some (p', Ok tt) /\ sorted_by (selection p') = None.
Proof.
  intros H. refine (files_in_min fs listdir recursive
    (fun path files => Forall (readable given) files -> forall p, sorted_by (selection p) = None ->
       exists fuel p', provideDataDirectory float fs listdir fuel given recursive p path = Some (p', Ok tt) /\ sorted_by (selection p') = None)
    (fun path l files => Forall (readable given) files -> forall p, sorted_by (selection p) = None ->
       exists fuel p', names_loop float fs (provideDataDirectory float fs listdir fuel given recursive) path given recursive p l = Some (p', Ok tt) /\ sorted_by (selection p') = None)
    _ _ _ _ _ path files H).
  - clear. intros path l files L _ IH R p N. destruct (IH R p N) as (fuel & p' & E & N'). exists (S fuel), p'. cbn [provideDataDirectory]. rewrite L. auto.
  - clear. intros path _ p N. exists O, p. auto.
  - clear. intros path n l t files F _ IH R p N. inversion R as [|? ? (text & e & x & y & O & S) R']; subst.
    assert (G : dict_at (fst (new_dict p given)) (length (heap p)) = given) by (unfold dict_at; cbn; rewrite app_nth2, Nat.sub_diag by lia; reflexivity).
    rewrite <- G in S. destruct (file_unsorted (fst (new_dict p given)) _ _ _ _ _ _ O S N) as (q & E & M). destruct (IH R' q M) as (fuel & p' & K & N').
    exists fuel, p'. split; [|exact N']. cbn [names_loop]. unfold isfile. rewrite F.
    unfold new_dict in E |- *. cbn [fst] in E. change (String "/" n) with ("/" ++ n)%string in E. cbv beta iota zeta. rewrite E. exact K.
  - clear. intros path n l inner files F -> _ IH1 _ IH2 R p N. apply Forall_app in R. destruct R as [R1 R2].
    destruct (IH1 R1 p N) as (f1 & q & E & M). destruct (IH2 R2 q M) as (f2 & p' & K & N'). exists (Nat.max f1 f2), p'. split; [|exact N']. cbn [names_loop]. unfold isfile. rewrite F.
    rewrite (directory_mono _ _ f1 (Nat.max f1 f2) _ _ _ ltac:(lia) E). eapply names_mono; [|exact K]. intros a b r. apply directory_mono. lia.
  - clear. intros path n l files F -> _ IH R p N. destruct (IH R p N) as (fuel & p' & E & N'). exists fuel, p'. cbn [names_loop]. unfold isfile. rewrite F. auto.
Qed.
End Reading.

(** Merging. *)
Lemma collect_ok l : Forall (fun a => legend a <> None) l -> collect l = Ok (flat_map chart_lines l, map title l, map xlabel l, map ylabel l, flat_map (fun a => match legend a with Some t => map snd t | None => [] end) l).
Proof.
  induction 1 as [|a l H _ IH]; [reflexivity|]. cbn [collect flat_map map]. destruct (legend a) as [t|]; [|congruence]. rewrite IH. reflexivity.
Qed.
Lemma collect_fails l a : In a l -> legend a = None -> collect l = Err AttributeError.
Proof.
  induction l as [|b l IH]; intros I H; [destruct I|]. cbn [collect]. destruct (legend b) as [t|] eqn:E; [|reflexivity]. destruct I as [->|I]; [congruence|]. rewrite (IH I H). reflexivity.
Qed.
Lemma combine_snd {A} (l : list A) : forall n, map snd (combine (seq n (length l)) l) = l.
Proof. induction l as [|a l IH]; intros n; cbn; [reflexivity|]. rewrite IH. reflexivity. Qed.

(** Bounds of errors. *)
Lemma bounds_abs d v e : error_bounds false d v e = (absolute v - e, absolute v + e).
Proof.
  unfold error_bounds. destruct (qltb v 0) eqn:E.
  - apply qltb_spec in E. rewrite absolute_neg by exact E. f_equal; ring.
  - apply qltb_false in E. rewrite absolute_pos by exact E. reflexivity.
Qed.
