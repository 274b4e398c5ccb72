(** Pairs of numbers read from files, means of stored histograms, the alignment of dumbbells. *)
From Coq Require Import String Ascii Permutation Qround Lia.
From Verif Require Import QcBase QcLra PyBase StrBase VtfModel VtfPyModel MeasModel MeasSpec MeasProof MsdSpec MsdTheorems EmpModel EmpSpec EmpProof.
Open Scope string_scope.
Open Scope list_scope.
Open Scope Qc_scope.

(** C87: the pairs in the lines with exactly two numbers are returned in increasing order, those with too small a key excepted; nothing else matters in the file, except that a key must not be there twice. *)
Theorem pairs_read : forall (float : string -> option Qc) m text,
  exists ls rest ps, text = text_of_lines ls rest /\ Forall one_line ls /\ one_line rest /\ lists float (all_lines ls rest) ps
  /\ (NoDup (map fst (filter (at_least m) ps)) -> exists d, read_pairs float m text = Ok d /\ Permutation d (filter (at_least m) ps) /\ increasing d)
  /\ (~ NoDup (map fst (filter (at_least m) ps)) -> read_pairs float m text = Err ValueError).
Proof.
  intros float m text. destruct (text_split text) as (ls & rest & E & F & O). destruct (lists_total float (all_lines ls rest)) as [ps L].
  exists ls, rest, ps. rewrite E. repeat split; auto; apply read_ok; assumption.
Qed.
Print Assumptions pairs_read.
(** C87: the same, for whichever way the lines and their pairs are found. *)
Theorem pairs_read_lines : forall (float : string -> option Qc) m ls rest ps, Forall one_line ls -> one_line rest -> lists float (all_lines ls rest) ps ->
  (NoDup (map fst (filter (at_least m) ps)) -> exists d, read_pairs float m (text_of_lines ls rest) = Ok d /\ Permutation d (filter (at_least m) ps) /\ increasing d)
  /\ (~ NoDup (map fst (filter (at_least m) ps)) -> read_pairs float m (text_of_lines ls rest) = Err ValueError).
Proof. exact read_ok. Qed.
Print Assumptions pairs_read_lines.

(** A [float] for the examples: a sign and digits. *)
Definition digits_only (s : string) : option Qc := option_map qz (Z_of_str s).
Definition text1 : string := text_of_lines ["# a comment"; "7 1"; "  3" ++ String "009" "4 "; "1 2 3"; ""; "x 5"]%string "5 -6".
Example pairs_read_ex1 : read_pairs digits_only None text1 = Ok [(qz 3, qz 4); (qz 5, qz (-6)); (qz 7, qz 1)].
Proof. vm_compute. reflexivity. Qed.
Example pairs_read_ex2 : read_pairs digits_only (Some (qz 5)) text1 = Ok [(qz 5, qz (-6)); (qz 7, qz 1)].
Proof. vm_compute. reflexivity. Qed.
Example pairs_read_ex3 : read_pairs digits_only None (text_of_lines ["1 2"; "1 3"] "") = Err ValueError
  /\ read_pairs digits_only (Some (qz 5)) (text_of_lines ["1 2"; "1 3"] "") = Ok [].
Proof. vm_compute. auto. Qed.

(** C87, refuted: pairs are kept if the key is at least [minXValue]; the documentation says "only if the key is smaller than the given value" (Utilities.py l.64-67). *)
Theorem pairs_minimum_refuted :
  exists (float : string -> option Qc) m ls ps, Forall one_line ls /\ lists float ls ps /\ NoDup (map fst ps)
  /\ forall d, read_pairs float (Some m) (text_of_lines ls "") = Ok d -> ~ Permutation d (filter (less_than (Some m)) ps).
Proof.
  assert (W : word "1" /\ word "7" /\ word "2").
  { repeat split; try discriminate; intros [X|[X|[X|[X|[X|X]]]]]; discriminate X. }
  assert (T : forall a, word a -> two_columns (a ++ " 2") a "2").
  { intros a A. exists "", " ", "". cbn. repeat split; try apply A; try apply W; try discriminate. unfold blank. auto. }
  exists digits_only, (qz 5), ["1 2"; "7 2"], [(qz 1, qz 2); (qz 7, qz 2)]. repeat split.
  - repeat constructor; cbn; repeat split; discriminate.
  - apply lists_take; [exists "1", "2"; split; [apply (T "1"), W|split; vm_compute; reflexivity]|].
    apply lists_take; [exists "7", "2"; split; [apply (T "7"), W|split; vm_compute; reflexivity]|]. apply lists_nil.
  - cbn. constructor; [|constructor; [intros []|constructor]]. intros [X|[]]. apply qz_inj in X. discriminate X.
  - intros d H P. assert (E : Ok d = Ok [(qz 7, qz 2)]) by (rewrite <- H; vm_compute; reflexivity).
    injection E as ->. assert (F : filter (less_than (Some (qz 5))) [(qz 1, qz 2); (qz 7, qz 2)] = [(qz 1, qz 2)]) by (vm_compute; reflexivity).
    rewrite F in P. apply Permutation_length_1 in P. injection P as X. discriminate X.
Qed.
Print Assumptions pairs_minimum_refuted.

(** C87: the compressed file is preferred; if there is none, the file itself is read, and if that is missing too it is a [ValueError]. A name that says that the file is
    compressed is that of the only file that is tried, and the error is that of opening it. *)
Theorem open_file : forall fs name,
  (last4 name <> ".bz2" ->
    (forall t, fs (name ++ ".bz2")%string = Some t -> openPossiblyCompressedFile fs name = Done t)
    /\ (forall t, fs (name ++ ".bz2")%string = None -> fs name = Some t -> openPossiblyCompressedFile fs name = Done t)
    /\ (fs (name ++ ".bz2")%string = None -> fs name = None -> openPossiblyCompressedFile fs name = Failed (Failure ValueError)))
  /\ (last4 name = ".bz2" ->
    (forall t, fs name = Some t -> openPossiblyCompressedFile fs name = Done t)
    /\ (fs name = None -> openPossiblyCompressedFile fs name = Failed NoEntry)).
Proof.
  intros fs name. unfold openPossiblyCompressedFile. destruct (String.eqb_spec (last4 name) ".bz2") as [E|E]; (split; intros H; [|try contradiction]); try contradiction;
  repeat split; intros; repeat match goal with X : fs _ = _ |- _ => rewrite X; clear X end; reflexivity.
Qed.
Print Assumptions open_file.
Definition one_file (p t : string) : filesystem := fun q => if String.eqb q p then Some t else None.
Example open_file_ex : openPossiblyCompressedFile (one_file "a.data.bz2" "1 2") "a.data" = Done "1 2"
  /\ openPossiblyCompressedFile (one_file "a.data.bz2" "1 2") "a.data.bz2" = Done "1 2" /\ last4 "a.data" = "data".
Proof. vm_compute. auto. Qed.

(** C87: the mean of a stored histogram is the mean of the values that were in its range, up to half a bin and the error [e] of writing the middles of bins. *)
Theorem histogram_mean : forall (show : Qc -> string) float rd, prints_as show float rd -> float "#overflows" = None ->
  forall low high e n l h, n <> 0%nat -> low < high -> hist_fill_all (hist_new low high n) l = Ok h ->
  (forall k, rd (qn k) = qn k) ->
  (forall i j, (i < n)%nat -> (j < n)%nat -> rd (bin_middle low high n i) = rd (bin_middle low high n j) -> i = j) ->
  (forall i, (i < n)%nat -> within e (rd (bin_middle low high n i)) (bin_middle low high n i)) ->
  exists d, read_pairs float None (hist_text show h (1 / (1 + 1))) = Ok d
  /\ Permutation d (map (fun i => (rd (bin_middle low high n i), qn (count (bin_has low high n i) l))) (seq 0 n)) /\ increasing d
  /\ (filter (in_range low high) l <> [] -> exists m, sample_mean d = Ok m /\ within ((high - low) / qn n / (1 + 1) + e) m (mean_of (filter (in_range low high) l)))
  /\ (filter (in_range low high) l = [] -> sample_mean d = Err ZeroDivisionError).
Proof.
  intros show float rd P H0 low high e n l h N L F K D C.
  destruct (saved_read show float rd P H0 low high n l h N L F K D) as (d & R & PE & IN). exists d.
  split; [exact R|]. split; [exact PE|]. split; [exact IN|]. split.
  - intros NE. destruct (saved_mean show float rd P H0 low high e n l h N L F K D C NE) as (d' & m & R' & M & W).
    rewrite R in R'. injection R' as <-. exists m. split; [exact M|].
    replace ((high - low) / qn n / (1 + 1)) with ((high - low) / qn n * half); [exact W|].
    unfold half. field. split; [apply qn_neq0, N|discriminate].
  - intros NE. destruct (saved_empty show float rd P H0 low high n l h N L F K D NE) as (d' & R' & M).
    rewrite R in R'. injection R' as <-. exact M.
Qed.
Print Assumptions histogram_mean.

(** C87: [tan(2 chi) = 2 <xy> / (<xx> - <yy>)]. *)
Theorem tan_2_chi : forall xx yy xy,
  (forall a b c, sample_mean xx = Ok a -> sample_mean yy = Ok b -> sample_mean xy = Ok c ->
    (a <> b -> getTan2Chi (xx, yy, xy) = Ok ((1 + 1) * c / (a - b))) /\ (a = b -> getTan2Chi (xx, yy, xy) = Err ZeroDivisionError))
  /\ (qsum (map snd xx) = 0 \/ qsum (map snd yy) = 0 \/ qsum (map snd xy) = 0 -> getTan2Chi (xx, yy, xy) = Err ZeroDivisionError)
  /\ (qsum (map snd xx) <> 0 -> sample_mean xx = Ok (weighted_mean xx)).
Proof.
  intros xx yy xy.
  assert (Z : forall d, qsum (map snd d) = 0 -> sample_mean d = Err ZeroDivisionError).
  { intros d H. rewrite sample_mean_ok, H. reflexivity. }
  assert (NZ : forall d, qsum (map snd d) <> 0 -> sample_mean d = Ok (weighted_mean d)).
  { intros d H. rewrite sample_mean_ok. destruct (qeqb _ 0) eqn:Q; [apply qeqb_spec in Q; contradiction|reflexivity]. }
  assert (T : forall d, sample_mean d = Err ZeroDivisionError \/ exists m, sample_mean d = Ok m).
  { intros d. destruct (Qc_eq_dec (qsum (map snd d)) 0) as [H|H]; [left|right; eexists]; eauto. }
  split; [|split; [|apply NZ]].
  - intros a b c A B C. unfold getTan2Chi. rewrite A, B, C. cbn [bind]. split; intros H.
    + destruct (qeqb (a - b) 0) eqn:Q; [|f_equal; f_equal; f_equal; apply Qc_is_canon; reflexivity].
      apply qeqb_spec in Q. exfalso. apply H. clear - Q. qlra.
    + subst. replace (b - b) with 0 by ring. reflexivity.
  - intros H. unfold getTan2Chi.
    destruct (T xx) as [X|[a X]], (T yy) as [Y|[b Y]], (T xy) as [V|[c V]]; rewrite ?X, ?Y, ?V; cbn [bind]; try reflexivity.
    destruct H as [H|[H|H]]; apply Z in H; congruence.
Qed.
Print Assumptions tan_2_chi.
Example tan_2_chi_ex : getTan2Chi ([(qz 1, qz 1); (qz 3, qz 3)], [(qz 1, qz 5)], [(qz 2, qz 2)]) = Ok ((1 + 1) * qz 2 / (qz 5 / (1 + 1) - 1)).
Proof. apply tan_2_chi; [| | |intros E; discriminate E]; rewrite sample_mean_ok; cbn; f_equal; apply Qc_is_canon; reflexivity. Qed.

(** C87: a missing file is a [ValueError], and only files ending in ".data" or ".data.bz2" are ever read. *)
Theorem alignment_files : forall float fs rundir,
  alignment float fs rundir = read_alignment float fs rundir ".data"
  /\ (forall f, In f ["XX"; "YY"; "XY"] -> fs (rundir ++ "/dumbbellBond" ++ f ++ "Histogram.data")%string = None ->
      fs (rundir ++ "/dumbbellBond" ++ f ++ "Histogram.data.bz2")%string = None -> exists e, alignment float fs rundir = Failed (Failure e)).
Proof.
  intros float fs rundir.
  assert (NE : forall s, (4 <= String.length s)%nat -> last4 s <> ".bz2" -> readValuePairsFromFile float fs (rundir ++ s)%string None <> Failed NoEntry).
  { intros s L H. unfold readValuePairsFromFile, openPossiblyCompressedFile. rewrite last4_data by exact L.
    destruct (String.eqb_spec (last4 s) ".bz2"); [contradiction|].
    destruct (fs _) as [t|]; [|destruct (fs _) as [t|]]; cbn [next]; try discriminate; destruct (read_pairs _ _ t); discriminate. }
  assert (A : alignment float fs rundir = read_alignment float fs rundir ".data" /\ read_alignment float fs rundir ".data" <> Failed NoEntry).
  { assert (Q : read_alignment float fs rundir ".data" <> Failed NoEntry).
    { unfold read_alignment.
      destruct (readValuePairsFromFile float fs _ None) as [xx|[]] eqn:X; cbn [next]; try discriminate; [|apply NE in X; [contradiction|cbn; repeat constructor|discriminate]].
      destruct (readValuePairsFromFile float fs (rundir ++ _)%string None) as [yy|[]] eqn:Y in |- *; cbn [next]; try discriminate; [|apply NE in Y; [contradiction|cbn; repeat constructor|discriminate]].
      destruct (readValuePairsFromFile float fs (rundir ++ "/dumbbellBondXYHistogram" ++ ".data")%string None) as [xy|[]] eqn:V; cbn [next]; try discriminate; apply NE in V; [contradiction|cbn; repeat constructor|discriminate]. }
    split; [|exact Q]. unfold alignment. destruct (read_alignment float fs rundir ".data") as [|[]]; congruence. }
  destruct A as [A Q]. split; [exact A|]. intros f I H0 H1. rewrite A.
  assert (G : readValuePairsFromFile float fs (rundir ++ "/dumbbellBond" ++ f ++ "Histogram.data")%string None = Failed (Failure ValueError)).
  { unfold readValuePairsFromFile, openPossiblyCompressedFile.
    destruct (String.eqb_spec (last4 (rundir ++ "/dumbbellBond" ++ f ++ "Histogram.data")%string) ".bz2") as [X|_].
    - exfalso. destruct I as [<-|[<-|[<-|[]]]]; (rewrite last4_data in X; [discriminate X|cbn; repeat constructor]).
    - rewrite VtfTextProof.append_assoc'. destruct I as [<-|[<-|[<-|[]]]]; cbn [append] in H0, H1 |- *; rewrite H1, H0; reflexivity. }
  destruct (read_alignment float fs rundir ".data") as [d|[|e]] eqn:R; [exfalso|congruence|exists e; reflexivity].
  unfold read_alignment in R. destruct I as [<-|[<-|[<-|[]]]]; cbn [append] in G, R; rewrite G in R;
    repeat (destruct (readValuePairsFromFile _ _ _ _); cbn [next] in R); discriminate R.
Qed.
Print Assumptions alignment_files.
(** C87, refuted: the files ending in ".gnuplot" are not read if those ending in ".data" are missing, although DumbbellAlignment.py l.11-16 means to. *)
Theorem alignment_fallback_refuted : exists float fs rundir, (exists d, read_alignment float fs rundir ".gnuplot" = Done d)
  /\ (forall f, In f ["XX"; "YY"; "XY"] -> fs (rundir ++ "/dumbbellBond" ++ f ++ "Histogram.data")%string = None /\ fs (rundir ++ "/dumbbellBond" ++ f ++ "Histogram.data.bz2")%string = None)
  /\ alignment float fs rundir = Failed (Failure ValueError).
Proof.
  exists digits_only, (fun p => if existsb (String.eqb p) (map (fun f => "r/dumbbellBond" ++ f ++ "Histogram.gnuplot")%string ["XX"; "YY"; "XY"]) then Some "1 2" else None), "r".
  split; [eexists; vm_compute; reflexivity|]. split; [|vm_compute; reflexivity].
  intros f [<-|[<-|[<-|[]]]]; vm_compute; auto.
Qed.
Print Assumptions alignment_fallback_refuted.
Example alignment_ex : alignment digits_only (fun p => if existsb (String.eqb p) (map (fun f => "r/dumbbellBond" ++ f ++ "Histogram.data")%string ["XX"; "YY"; "XY"]) then Some "1 2" else None) "r"
  = Done ([(qz 1, qz 2)], [(qz 1, qz 2)], [(qz 1, qz 2)]).
Proof. vm_compute. reflexivity. Qed.

(** Four bins of width two between 0 and 8; numbers are written without decimals. *)
Example histogram_mean_ex : exists h, hist_fill_all (hist_new 0 (qz 8) 4) [qz 5; qz 1; qz 9; qz 4; qz (-1)] = Ok h
  /\ (forall k, Q2Qc (inject_Z (Z.abs (Qfloor (qn k)))) = qn k)
  /\ (forall i, (i < 4)%nat -> Q2Qc (inject_Z (Z.abs (Qfloor (bin_middle 0 (qz 8) 4 i)))) = bin_middle 0 (qz 8) 4 i)
  /\ (forall i j, (i < 4)%nat -> (j < 4)%nat -> bin_middle 0 (qz 8) 4 i = bin_middle 0 (qz 8) 4 j -> i = j)
  /\ filter (in_range 0 (qz 8)) [qz 5; qz 1; qz 9; qz 4; qz (-1)] = [qz 5; qz 1; qz 4]
  /\ read_pairs read_integer None (hist_text show_integer h (1 / (1 + 1))) = Ok [(qz 1, qz 1); (qz 3, qz 0); (qz 5, qz 2); (qz 7, qz 0)]
  /\ sample_mean [(qz 1, qz 1); (qz 3, qz 0); (qz 5, qz 2); (qz 7, qz 0)] = Ok (qz 11 / qz 3).
Proof.
  assert (L : 0 < qz 8) by reflexivity.
  destruct (@hist_run 0 (qz 8) 4 [qz 5; qz 1; qz 9; qz 4; qz (-1)] ltac:(discriminate) L) as (h & E & _). exists h. split; [exact E|].
  split. { intros k. rewrite qn_qz. replace (Qfloor (qz (Z.of_nat k))) with (Z.of_nat k); [rewrite Z.abs_eq by lia; reflexivity|].
    rewrite <- (Qfloor_Z (Z.of_nat k)) at 1. apply Qfloor_comp. symmetry. apply Qred_correct. }
  split. { intros i Hi. do 4 (destruct i as [|i]; [apply Qc_is_canon; reflexivity|]). lia. }
  split. { intros i j Hi Hj. do 4 (destruct i as [|i]; [do 4 (destruct j as [|j]; [solve [intros X; (reflexivity || discriminate X)]|]); lia|]). lia. }
  split; [vm_compute; reflexivity|].
  split; [|rewrite sample_mean_ok; cbn; f_equal; apply Qc_is_canon; reflexivity].
  assert (B : match hist_fill_all (hist_new 0 (qz 8) 4) [qz 5; qz 1; qz 9; qz 4; qz (-1)] with
    | Ok h => String.eqb (hist_text show_integer h (1 / (1 + 1)))
        (text_of_lines ["#underflows = 1"; "#overflows =1"; "1" ++ String "009" "1"; "3" ++ String "009" "0"; "5" ++ String "009" "2"; "7" ++ String "009" "0"]%string "") | Err _ => false end = true) by (vm_compute; reflexivity).
  rewrite E in B. apply String.eqb_eq in B. rewrite B. vm_compute. reflexivity.
Qed.
