(** Proofs about the plots of statistics. *)
From Coq Require Import String List ZArith Reals Sorted Permutation Bool Lia.
From Verif Require Import QcBase PyBase DictBase SortBase OtfsModel OtfsSpec OtfsProof DddaModel DddaSpec DddaProof AutocorrModel AutocorrSpec AutocorrProof Data2DModel
  Data2DProof MsdModel NmModel AxsModel AxsSpec.
Import ListNotations.
Open Scope string_scope.
Open Scope list_scope.
Open Scope Qc_scope.

(** * Collections *)
Definition rel (p : Qc * otfs) (q : Qc * list Qc) : Prop := fst p = fst q /\ answers (snd p) (snd q).

Lemma rel_size p q : rel p q -> getSampleSize (snd p) = length (snd q).
Proof. intros (_ & A & _). exact A. Qed.
Lemma rel_mean p q : rel p q -> snd q <> [] -> getSampleMean (snd p) = Ok (mean (snd q)).
Proof. intros (_ & _ & A & _) N. rewrite A. destruct (snd q); [contradiction|reflexivity]. Qed.

Lemma means_loop_ok discard c D : Forall2 rel c D -> no_empty D ->
  means_loop discard c = Ok (map (fun q => mean (snd q)) (filter (fun q => negb (discard && single q)) D), map fst (filter single D)).
Proof.
  induction 1 as [|p q c D R0 F IH]; intros NE; [reflexivity|].
  assert (NE' : no_empty D) by (intros k I0; apply (NE k); right; exact I0).
  assert (NQ : snd q <> []) by (intros E; apply (NE (fst q)); left; destruct q; cbn in *; congruence).
  pose proof (rel_size _ _ R0) as SZ. pose proof (rel_mean _ _ R0 NQ) as M.
  destruct p as [k v]. cbn [fst snd] in *. assert (EK : k = fst q) by apply R0.
  assert (SG : single q = Nat.eqb (length (snd q)) 1) by reflexivity.
  cbn [means_loop filter]. rewrite SZ, SG.
  destruct (Nat.eqb_spec (length (snd q)) 0) as [E0|_].
  { destruct (snd q); [contradiction|discriminate]. }
  rewrite (IH NE'). destruct (Nat.eqb (length (snd q)) 1), discard; cbn [andb negb bind map filter]; rewrite ?M; cbn [bind]; rewrite ?EK; reflexivity.
Qed.

Lemma ddel_mid pre k v l : ~ In k (map fst pre) -> ddel qeqb (pre ++ (k, v) :: l) k = pre ++ l :> list (Qc * otfs).
Proof.
  induction pre as [|(k', v') pre IH]; cbn; intros N.
  - assert (qeqb k k = true) as -> by (apply qeqb_spec; reflexivity). reflexivity.
  - destruct (qeqb k k') eqn:E; [apply qeqb_spec in E; exfalso; apply N; left; auto|].
    f_equal. apply IH. tauto.
Qed.
Lemma del_loop_ok (P : Qc * otfs -> bool) l pre : NoDup (map fst (pre ++ l)) ->
  del_loop (pre ++ l) (map fst (filter P l)) = pre ++ filter (fun p => negb (P p)) l.
Proof.
  revert pre. induction l as [|(k, v) l IH]; intros pre N; [reflexivity|].
  cbn [filter]. destruct (P (k, v)); cbn [negb].
  - cbn [map fst del_loop]. rewrite ddel_mid.
    + apply IH. rewrite map_app in *. cbn [map] in N. eapply NoDup_remove_1, N.
    + rewrite map_app in N. cbn [map fst] in N. apply NoDup_remove_2 in N. intros I0. apply N, in_or_app. left. exact I0.
  - change (pre ++ (k, v) :: l) with (pre ++ [(k, v)] ++ l). rewrite app_assoc. rewrite IH.
    + rewrite <- app_assoc. reflexivity.
    + rewrite <- app_assoc. exact N.
Qed.
Lemma forall2_filter {A B} (Q : A -> B -> Prop) f g (l : list A) (m : list B) : Forall2 Q l m ->
  (forall a b, Q a b -> f a = g b) -> Forall2 Q (filter f l) (filter g m).
Proof.
  intros F H. induction F as [|a b l m R0 F IH]; cbn; [constructor|].
  rewrite (H a b R0). destruct (g b); [constructor|]; assumption.
Qed.
Lemma rel_keys c D : Forall2 rel c D -> map fst c = map fst D.
Proof. induction 1 as [|p q c D R0 F IH]; cbn; [reflexivity|]. rewrite IH, (proj1 R0). reflexivity. Qed.
Lemma singles_keys c D : Forall2 rel c D -> map fst (filter single D) = map fst (filter (fun p => Nat.eqb (getSampleSize (snd p)) 1) c).
Proof.
  intros F. symmetry. apply rel_keys. apply (forall2_filter rel); [exact F|].
  intros a b R0. unfold single. rewrite (rel_size _ _ R0). reflexivity.
Qed.

Lemma answers_sd s l : answers s l -> (2 <= length l)%nat -> standardDeviation s = Ok (sd l).
Proof.
  intros (_ & _ & V) H. unfold standardDeviation. rewrite V. destruct l as [|a [|b l]]; cbn [length] in H; try lia. reflexivity.
Qed.
Lemma answers_sem s l : answers s l -> (2 <= length l)%nat -> standardError s = Ok (sem l).
Proof.
  intros A H. unfold standardError. rewrite (answers_sd _ _ A H). cbn [bind]. rewrite (proj1 A). reflexivity.
Qed.
Lemma errors_loop_ok error f c D : Forall2 rel c D -> no_empty D ->
  (forall s l, answers s l -> (2 <= length l)%nat -> error s = Ok (f l)) ->
  errors_loop error c = Ok (map (fun q => or_zero f (snd q)) D).
Proof.
  intros F NE H. induction F as [|p q c D R0 F IH]; [reflexivity|].
  assert (NE' : no_empty D) by (intros k I0; apply (NE k); right; exact I0).
  assert (NQ : snd q <> []) by (intros E; apply (NE (fst q)); left; destruct q; cbn in *; congruence).
  pose proof (rel_size _ _ R0) as SZ. destruct p as [k v]. cbn [fst snd] in *.
  cbn [errors_loop map]. rewrite (IH NE'), SZ. cbn [bind]. destruct R0 as [_ A]. cbn [snd] in A.
  destruct (Nat.eqb_spec (length (snd q)) 1) as [E|E].
  - destruct (snd q) as [|a [|b l]]; try discriminate. reflexivity.
  - rewrite (H v (snd q) A) by (destruct (snd q) as [|a [|b l]]; cbn [length] in *; [contradiction|lia|lia]).
    cbn [bind]. destruct (snd q) as [|a [|b l]]; cbn [length] in *; [contradiction|lia|reflexivity].
Qed.

Lemma check_show_ok s : valid_show s -> check_show s = Ok tt.
Proof.
  destruct s as [b|x|]; cbn; [reflexivity| |contradiction]. intros [A B].
  destruct (qleb x 0) eqn:E; [apply qleb_spec in E; exfalso; exact (Qclt_not_le _ _ A E)|].
  destruct (qltb 1 x) eqn:E'; [apply qltb_spec in E'; exfalso; exact (Qclt_not_le _ _ E' B)|]. reflexivity.
Qed.
Lemma shown_wants s : valid_show s -> (shown s = true <-> wants s).
Proof.
  unfold wants. destruct s as [[]|x|]; cbn; intros V0; try (split; congruence).
  destruct V0 as [A _]. destruct (qeqb x 0) eqn:E; [apply qeqb_spec in E; subst; exfalso; exact (Qclt_not_eq _ _ A eq_refl)|].
  cbn [negb]; split; congruence.
Qed.
Lemma combine_maps {A B C D} (f : A -> B) (g : A -> C) (h : B * C -> D) (l : list A) : map h (combine (map f l) (map g l)) = map (fun a => h (f a, g a)) l.
Proof. induction l; cbn; congruence. Qed.
Lemma combine_maps' {A B C} (f : A -> B) (g : A -> C) (l : list A) : combine (map f l) (map g l) = map (fun a => (f a, g a)) l.
Proof. induction l; cbn; congruence. Qed.

Lemma no_empty_filter D f : no_empty D -> no_empty (filter f D).
Proof. intros NE k I0. apply filter_In in I0. apply (NE k), I0. Qed.

Lemma filter_true {A} (l : list A) : filter (fun _ => true) l = l.
Proof. induction l; cbn; congruence. Qed.

(** The function, when the arguments are valid. *)
Lemma axes_ok c D showSE showSD treatment n : collects c D -> no_empty D -> valid_show showSE -> valid_show showSD ->
  ~ (showSE = ShowBool true /\ showSD = ShowBool true) -> is_in treatment ["raise"; "discard"; "warn"; "warnAndDiscard"] = true ->
  getMPLAxes c showSE showSD treatment n =
  let any := shown showSE || shown showSD in
  if any && (String.eqb treatment "raise" && existsb single D) then Err RuntimeError else
  Ok (picture_of showSE showSD (filter (fun q => negb ((any && is_in treatment ["discard"; "warnAndDiscard"]) && single q)) D)
    (if any && (is_in treatment ["warn"; "warnAndDiscard"] && existsb single D) then Some (map fst (filter single D)) else None)).
Proof.
  intros (SD & c' & P & F) NE V1 V2 NB IT. change (Forall2 rel c' D) in F.
  assert (SC : StronglySorted klt c').
  { clear -SD F. revert SD. induction F as [|p q c D R0 F IH]; intros SD; [constructor|]. inversion SD as [|? ? S1 S2]; subst.
    constructor; [apply IH, S1|]. rewrite Forall_forall in *. intros p' I0.
    assert (K : In (fst p') (map fst D)) by (rewrite <- (rel_keys _ _ F); apply in_map, I0).
    apply in_map_iff in K. destruct K as (q' & E & I1). unfold klt. rewrite <- E, (proj1 R0). apply (S2 q' I1). }
  assert (ORD : getOrderedData c = c') by (unfold getOrderedData; apply sorted_perm; assumption).
  assert (ND : NoDup (map fst c')) by (apply klt_nodup, SC).
  unfold getMPLAxes. rewrite (check_show_ok _ V1), (check_show_ok _ V2). cbn [bind].
  assert (is_true showSE && is_true showSD = false) as ->.
  { destruct showSE as [[]| |], showSD as [[]| |]; try reflexivity. exfalso. apply NB. split; reflexivity. }
  rewrite IT. cbn [negb]. cbv zeta. set (any := shown showSE || shown showSD). set (discard := any && is_in treatment ["discard"; "warnAndDiscard"]).
  rewrite ORD, (means_loop_ok discard _ _ F NE). cbn [bind].
  assert (LEN : negb (Nat.eqb (length (map fst (filter single D))) 0) = existsb single D).
  { rewrite map_length. clear. induction D as [|q D IH]; [reflexivity|]. cbn [filter existsb]. destruct (single q); [reflexivity|exact IH]. }
  rewrite LEN. destruct (any && (String.eqb treatment "raise" && existsb single D)); [reflexivity|].
  set (D' := filter (fun q => negb (discard && single q)) D).
  set (data := if discard then del_loop c' (map fst (filter single D)) else c').
  assert (F' : Forall2 rel data D').
  { subst data D'. destruct discard.
    - rewrite (singles_keys _ _ F). pose proof (del_loop_ok (fun p => Nat.eqb (getSampleSize (snd p)) 1) c' [] ND) as E. cbn [app] in E. rewrite E.
      apply (forall2_filter rel); [exact F|]. intros a b R0. unfold single. rewrite (rel_size _ _ R0). reflexivity.
    - cbn [andb negb]. rewrite filter_true. exact F. }
  assert (NE' : no_empty D') by (apply no_empty_filter, NE).
  rewrite (errors_loop_ok standardError sem _ _ F' NE' answers_sem), (errors_loop_ok standardDeviation sd _ _ F' NE' answers_sd).
  assert (LD : length data = length D') by (clear -F'; induction F'; cbn; congruence).
  unfold picture_of.
  destruct (shown showSE) eqn:E1, (shown showSD) eqn:E2; cbn [bind]; rewrite map_length, LD, Nat.eqb_refl; cbn [negb];
    rewrite (rel_keys _ _ F'), combine_maps'; f_equal; f_equal;
    destruct showSE as [[]|x|], showSD as [[]|y|]; cbn in E1, E2 |- *; try discriminate; try contradiction; try reflexivity;
    rewrite ?combine_maps; try reflexivity.
  all: try (exfalso; apply NB; split; reflexivity).
  all: exfalso; cbn in V1, V2.
  all: repeat match goal with H : negb _ = false |- _ => apply negb_false_iff in H; apply qeqb_spec in H; subst end.
  all: try (exact (Qclt_not_eq _ _ (proj1 V1) eq_refl)); exact (Qclt_not_eq _ _ (proj1 V2) eq_refl).
Qed.

(** * Accumulators *)
Lemma good_fold l d D : good d D -> good (fold_left ddda_add l d) (D ++ l).
Proof.
  revert d D. induction l as [|x l IH]; intros d D G; cbn [fold_left]; [rewrite app_nil_r; exact G|].
  replace (D ++ x :: l) with ((D ++ [x]) ++ l) by (rewrite <- app_assoc; reflexivity). apply IH, good_add, G.
Qed.
Lemma good_accumulated D : good (accumulated D) D.
Proof. exact (good_fold D _ [] good_new). Qed.
Lemma block_big D i : (2 <= length D)%nat -> (i <= Nat.log2 (length D) - 1)%nat -> (2 <= length (block_data D i))%nat.
Proof.
  intros H Hi. rewrite block_data_length. destruct (Nat.log2_spec (length D)) as [A B]; [lia|].
  assert (1 <= Nat.log2 (length D))%nat by (apply Nat.log2_le_pow2; cbn; lia).
  apply Nat.div_le_lower_bound; [apply Nat.pow_nonzero; lia|].
  rewrite Nat.mul_comm. change (2 * 2 ^ i)%nat with (2 ^ S i)%nat.
  etransitivity; [|exact A]. apply Nat.pow_le_mono_r; lia.
Qed.
Lemma block_answers D i : (i <= Nat.log2 (length D))%nat -> answers (block (accumulated D) i) (block_data D i).
Proof.
  intros H. destruct (stream_correct D) as [L A]. apply A. rewrite L. unfold block_count. lia.
Qed.
Lemma max_block D : maxBlockID (accumulated D) = Nat.log2 (length D).
Proof. unfold maxBlockID. pose proof (good_count (good_accumulated D)) as ->. unfold block_count. lia. Qed.
Lemma se2_data D i : (2 <= length D)%nat -> (i <= Nat.log2 (length D) - 1)%nat -> se2 (block (accumulated D) i) = block_se2 D i.
Proof.
  intros H Hi. pose proof (block_big _ _ H Hi) as B. assert (A : answers (block (accumulated D) i) (block_data D i)) by (apply block_answers; lia).
  destruct A as (S0 & _ & V). unfold se2, block_se2. rewrite V, S0. destruct (block_data D i) as [|a [|b l]]; cbn [length] in B; try lia. reflexivity.
Qed.
Lemma criterion_data D i : (2 <= length D)%nat -> (i <= Nat.log2 (length D) - 1)%nat -> criterion (accumulated D) i <-> lee D i.
Proof.
  intros H Hi. unfold criterion, lee. rewrite !se2_data, (good_size0 (good_accumulated D)) by lia. reflexivity.
Qed.
Lemma documented_data D b : (2 <= length D)%nat -> documented_block (accumulated D) (Nat.log2 (length D) - 1) b -> best_block D b.
Proof.
  intros H. unfold documented_block, best_block. rewrite se2_data by lia. destruct (qeqb (block_se2 D 0) 0); [auto|].
  intros [(A & B & C)|(A & C)]; [left|right].
  - split; [exact A|]. split; [exact (proj1 (criterion_data D b H A) B)|]. intros b' Hb' L. exact (C b' Hb' (proj2 (criterion_data D b' H ltac:(lia)) L)).
  - split; [exact A|]. intros b' Hb' L. exact (C b' Hb' (proj2 (criterion_data D b' H ltac:(lia)) L)).
Qed.
Lemma best_block_bound D b : best_block D b -> (b <= Nat.log2 (length D) - 1)%nat.
Proof. unfold best_block. destruct (qeqb (block_se2 D 0) 0); [intros ->; lia|]. intros [(A & _)|(A & _)]; lia. Qed.
Lemma hasBlockVariance_data D i : (i <= Nat.log2 (length D))%nat -> hasBlockVariance (accumulated D) i = Ok (Nat.leb 2 (length (block_data D i))).
Proof.
  intros H. unfold hasBlockVariance. rewrite max_block. destruct (Nat.ltb_spec (Nat.log2 (length D)) i); [lia|].
  rewrite (proj1 (block_answers D i H)). reflexivity.
Qed.
Lemma blockStandardError_data D i : (2 <= length D)%nat -> (i <= Nat.log2 (length D) - 1)%nat -> blockStandardError (accumulated D) i = Ok (block_se D i).
Proof.
  intros H Hi. pose proof (block_big _ _ H Hi) as B. unfold blockStandardError. rewrite max_block. destruct (Nat.ltb_spec (Nat.log2 (length D)) i); [lia|].
  rewrite hasBlockVariance_data by lia. apply Nat.leb_le in B as B'. rewrite B'. cbn [bind negb].
  apply answers_sem; [apply block_answers; lia|exact B].
Qed.
Lemma optimal_data D : (2 <= length D)%nat -> exists e, optimalStandardError (accumulated D) = Ok e /\ best_error D e.
Proof.
  intros H. destruct (good_optimal (good_accumulated D) H) as (b & E & Db & _). apply documented_data in Db; [|exact H].
  exists (block_se D b). unfold optimalStandardError. rewrite E. cbn [bind]. split; [|exists b; split; [exact Db|reflexivity]].
  apply blockStandardError_data; [exact H|apply best_block_bound, Db].
Qed.
Lemma mean_data D : D <> [] -> ddda_mean (accumulated D) = Ok (mean D).
Proof.
  intros N. unfold ddda_mean. rewrite (good_size0 (good_accumulated D)).
  destruct (Nat.eqb_spec (length D) 0) as [E|_]; [destruct D; [contradiction|discriminate]|].
  pose proof (block_answers D 0 (Nat.le_0_l _)) as (_ & M & _). rewrite block_data_0 in M. rewrite M. destruct D; [contradiction|reflexivity].
Qed.

Lemma point_ok show D : (needed show <= length D)%nat ->
  exists es, point_of show (accumulated D) = Ok (mean D, es) /\ if show then exists e, es = [e] /\ best_error D e else es = [].
Proof.
  intros H. unfold point_of. rewrite mean_data by (intros ->; destruct show; cbn in H; lia). cbn [bind]. destruct show.
  - destruct (optimal_data D H) as (e & E & B). rewrite E. cbn [bind]. exists [e]. split; [reflexivity|]. exists e. auto.
  - exists []. auto.
Qed.
Lemma point_none show : point_of show (accumulated []) = Err PyException.
Proof. reflexivity. Qed.
Lemma point_single x : point_of true (accumulated [x]) = Err RuntimeError.
Proof.
  unfold point_of. rewrite mean_data by discriminate. cbn [bind]. unfold optimalStandardError.
  rewrite (good_optimal_small (good_accumulated [x])) by (cbn; lia). reflexivity.
Qed.
Lemma point_short show D : D <> [] -> (length D < needed show)%nat -> point_of show (accumulated D) = Err RuntimeError.
Proof.
  intros N H. destruct show, D as [|x [|y D]]; cbn in H; try lia; try contradiction. apply point_single.
Qed.

Section Times.
Variables (get : Z -> result ddda) (data : nat -> list Qc) (show : bool).
Lemma times_ok times : (forall t, In t times -> get (Z.of_nat t) = Ok (accumulated (data t)) /\ (needed show <= length (data t))%nat) ->
  exists es, times_loop get show times = Ok (map (fun t => (Z.of_nat t, mean (data t))) times, es) /\
    if show then Forall2 (fun t e => best_error (data t) e) times es else es = [].
Proof.
  induction times as [|t times IH]; intros H.
  - exists []. split; [reflexivity|]. destruct show; constructor.
  - destruct (H t (or_introl eq_refl)) as [G N]. destruct (point_ok _ _ N) as (es & E & B).
    destruct IH as (es' & E' & B'); [intros t' I0; apply H; right; exact I0|].
    cbn [times_loop]. rewrite G. cbn [bind]. rewrite E. cbn [bind]. rewrite E'. cbn [bind fst snd map].
    exists (es ++ es'). split; [reflexivity|]. destruct show.
    + destruct B as (e & -> & B). cbn [app]. constructor; assumption.
    + rewrite B, B'. reflexivity.
Qed.
Lemma times_short times : (forall t, In t times -> get (Z.of_nat t) = Ok (accumulated (data t))) ->
  (exists t, In t times /\ (length (data t) < needed show)%nat) ->
  exists e, times_loop get show times = Err e /\ (e = PyException \/ e = RuntimeError) /\ ((forall t, In t times -> data t <> []) -> e = RuntimeError).
Proof.
  intros G. induction times as [|t times IH]; intros (t0 & I0 & L); [destruct I0|].
  cbn [times_loop]. rewrite (G t (or_introl eq_refl)). cbn [bind].
  destruct (Nat.lt_ge_cases (length (data t)) (needed show)) as [S0|B].
  - destruct (data t) as [|x D] eqn:ED.
    + rewrite point_none. exists PyException. split; [reflexivity|]. split; [left; reflexivity|].
      intros N. exfalso. apply (N t (or_introl eq_refl)). exact ED.
    + rewrite point_short; [|discriminate|exact S0]. exists RuntimeError. auto.
  - destruct I0 as [-> |I0]; [lia|].
    destruct (point_ok _ _ B) as (es & E & _). rewrite E. cbn [bind].
    destruct IH as (e & E' & B1 & B2); [intros t' I1; apply G; right; exact I1|exists t0; auto|].
    rewrite E'. exists e. split; [reflexivity|]. split; [exact B1|]. intros N. apply B2. intros t' I1. apply N. right. exact I1.
Qed.
Lemma draws_ok times es : (if show then Forall2 (fun t e => best_error (data t) e) times es else es = []) ->
  draws (drawn (map (fun t => (Z.of_nat t, mean (data t))) times, es)) show (map (fun t => (Z.of_nat t, data t)) times).
Proof.
  intros H. unfold draws, drawn. cbn [cu_points cu_bars fst snd]. split; [rewrite map_map; reflexivity|].
  destruct show; [|rewrite H; reflexivity]. destruct times as [|t times]; cbn [map]; [inversion H; reflexivity|].
  exists es. split; [destruct es; [inversion H|reflexivity]|]. clear -H. 
  change ((Z.of_nat t, data t) :: map (fun t => (Z.of_nat t, data t)) times) with (map (fun t => (Z.of_nat t, data t)) (t :: times)).
  induction H; cbn [map]; constructor; assumption.
Qed.
End Times.

(** Blocks. *)
Lemma blocks_loop_ok D f g a n : (2 <= length D)%nat -> (a + n = Nat.log2 (length D))%nat ->
  (forall i, (i < Nat.log2 (length D))%nat -> f i = Ok (g i)) ->
  blocks_loop (accumulated D) f (seq a (n + 1)) = Ok (map (fun i => (i, g i)) (seq a n)).
Proof.
  intros H. revert a. induction n as [|n IH]; intros a E F.
  - cbn [seq Nat.add blocks_loop map]. rewrite hasBlockVariance_data by lia.
    replace (Nat.leb 2 (length (block_data D a))) with false; [reflexivity|]. symmetry. apply Nat.leb_gt. rewrite block_data_length.
    replace a with (Nat.log2 (length D)) by lia. destruct (Nat.log2_spec (length D)) as [A B]; [lia|].
    apply Nat.div_lt_upper_bound; [apply Nat.pow_nonzero; lia|]. cbn [Nat.pow] in B. lia.
  - cbn [seq Nat.add blocks_loop map]. rewrite hasBlockVariance_data by lia.
    assert (B : (2 <= length (block_data D a))%nat) by (apply block_big; lia). apply Nat.leb_le in B. rewrite B. cbn [bind negb].
    rewrite F by lia. cbn [bind]. rewrite IH by (try lia; assumption). reflexivity.
Qed.
Lemma blockDeviation_data D i : (2 <= length D)%nat -> (i < Nat.log2 (length D))%nat ->
  blockStandardErrorDeviation (accumulated D) i = Ok (block_se D i / sqrt (2 * INR (length (block_data D i))))%R.
Proof.
  intros H Hi. unfold blockStandardErrorDeviation. rewrite max_block. destruct (Nat.ltb_spec (Nat.log2 (length D)) i); [lia|].
  rewrite hasBlockVariance_data by lia. assert (B : (2 <= length (block_data D i))%nat) by (apply block_big; lia). apply Nat.leb_le in B. rewrite B. cbn [bind negb].
  rewrite blockStandardError_data by lia. cbn [bind]. rewrite (proj1 (block_answers D i ltac:(lia))). reflexivity.
Qed.
Lemma ddda_axes_ok D show : (2 <= length D)%nat ->
  ddda_getMPLAxes (accumulated D) show = Ok (mk_curve
    (map (fun i => (i, block_se D i)) (seq 0 (Nat.log2 (length D))))
    (if show then Some (map (fun i => block_se D i / sqrt (2 * INR (length (block_data D i))))%R (seq 0 (Nat.log2 (length D)))) else None)).
Proof.
  intros H. unfold ddda_getMPLAxes. rewrite max_block. cbv zeta.
  rewrite (blocks_loop_ok D _ (block_se D) 0 (Nat.log2 (length D))) by (try lia; intros; apply blockStandardError_data; lia).
  cbn [bind]. destruct show; [|reflexivity].
  rewrite (blocks_loop_ok D _ (fun i => block_se D i / sqrt (2 * INR (length (block_data D i))))%R 0 (Nat.log2 (length D))) by (try lia; intros; apply blockDeviation_data; lia).
  cbn [bind]. rewrite map_map. reflexivity.
Qed.
Lemma ddda_axes_small D show : (length D < 2)%nat ->
  ddda_getMPLAxes (accumulated D) show = Ok (mk_curve [] (if show then Some [] else None)).
Proof.
  intros H. assert (L : Nat.log2 (length D) = 0%nat) by (destruct D as [|x [|y D]]; cbn in *; try lia; reflexivity).
  unfold ddda_getMPLAxes. rewrite max_block, L. cbv zeta. cbn [Nat.add seq blocks_loop].
  rewrite hasBlockVariance_data by lia. rewrite block_data_0. destruct (Nat.leb_spec 2 (length D)); [lia|]. cbn [bind negb]. destruct show; reflexivity.
Qed.

(** Autocorrelations. *)
Lemma ac_times_eq {A} (mul : A -> A -> Qc) m s l show k a : ac_new A m = Ok s -> (Z.of_nat (a + k) <= m + 1)%Z ->
  let s' := fold_left (ac_add mul) l s in
  ac_times_loop s' show (seq a k) = times_loop (ac_get s') show (seq a (Nat.min k (length l - a))).
Proof.
  intros N. cbv zeta. revert a. induction k as [|k IH]; intros a B; [reflexivity|].
  cbn [seq ac_times_loop].
  destruct (proj2 (@ac_correct A mul m s l N (Z.of_nat a)) ltac:(lia)) as [AV _].
  unfold feed in AV. rewrite AV, Nat2Z.id. cbn [bind]. destruct (Nat.ltb_spec a (length l)) as [L|L]; cbn [negb].
  - replace (Nat.min (S k) (length l - a)) with (S (Nat.min k (length l - S a))) by lia. cbn [seq times_loop].
    rewrite IH by lia. reflexivity.
  - replace (Nat.min (S k) (length l - a)) with 0%nat by lia. reflexivity.
Qed.
Lemma ac_new_max A m s : ac_new A m = Ok s -> (0 <= m)%Z /\ ac_max s = Z.to_nat m.
Proof. unfold ac_new. destruct (Z.ltb_spec m 0); [discriminate|]. intros E. injection E as <-. split; [assumption|reflexivity]. Qed.
Lemma ac_axes_eq {A} (mul : A -> A -> Qc) m s l show : ac_new A m = Ok s ->
  let s' := fold_left (ac_add mul) l s in
  ac_getMPLAxes s' show = do p <- times_loop (ac_get s') show (seq 0 (Nat.min (Z.to_nat m + 1) (length l))); Ok (drawn p).
Proof.
  intros N. cbv zeta. destruct (ac_new_max _ _ _ N) as [P M]. unfold ac_getMPLAxes.
  change (fold_left (ac_add mul) l s) with (feed mul s l) at 2. rewrite feed_max, M.
  rewrite (ac_times_eq mul m s l show (Z.to_nat m + 1) 0 N) by lia. rewrite Nat.sub_0_r. reflexivity.
Qed.
Lemma ac_get_data {A} (mul : A -> A -> Qc) m s l t : ac_new A m = Ok s -> (t <= Z.to_nat m)%nat -> (t < length l)%nat ->
  ac_get (fold_left (ac_add mul) l s) (Z.of_nat t) = Ok (accumulated (lagged mul t l)).
Proof.
  intros N T L. destruct (ac_new_max _ _ _ N) as [P M].
  destruct (proj2 (@ac_correct A mul m s l N (Z.of_nat t)) ltac:(lia)) as [_ G]. rewrite Nat2Z.id in G.
  destruct (Nat.ltb_spec t (length l)); [exact G|lia].
Qed.
Lemma ac_axes_ok {A} (mul : A -> A -> Qc) m s l show : ac_new A m = Ok s ->
  (show = true -> l = [] \/ (Z.to_nat m + 2 <= length l)%nat) ->
  exists c, ac_getMPLAxes (fold_left (ac_add mul) l s) show = Ok c /\
    draws c show (map (fun N => (Z.of_nat N, lagged mul N l)) (seq 0 (Nat.min (Z.to_nat m + 1) (length l)))).
Proof.
  intros N H. rewrite (ac_axes_eq mul m s l show N).
  destruct (times_ok (ac_get (fold_left (ac_add mul) l s)) (fun N => lagged mul N l) show (seq 0 (Nat.min (Z.to_nat m + 1) (length l)))) as (es & E & B).
  { intros t I0. apply in_seq in I0. split; [apply (ac_get_data mul m); [exact N|lia|lia]|]. rewrite lagged_length.
    destruct show; cbn [needed]; [|lia]. destruct (H eq_refl) as [-> |G]; cbn [length] in *; lia. }
  rewrite E. cbn [bind]. eexists. split; [reflexivity|]. apply draws_ok, B.
Qed.
Lemma ac_axes_short {A} (mul : A -> A -> Qc) m s l : ac_new A m = Ok s -> l <> [] -> (length l < Z.to_nat m + 2)%nat ->
  ac_getMPLAxes (fold_left (ac_add mul) l s) true = Err RuntimeError.
Proof.
  intros N NE L. rewrite (ac_axes_eq mul m s l true N).
  destruct (times_short (ac_get (fold_left (ac_add mul) l s)) (fun N => lagged mul N l) true (seq 0 (Nat.min (Z.to_nat m + 1) (length l)))) as (e & E & _ & R0).
  - intros t I0. apply in_seq in I0. apply (ac_get_data mul m); [exact N|lia|lia].
  - exists (length l - 1)%nat. destruct l; [contradiction|]. split; [apply in_seq; cbn [length] in *; lia|]. rewrite lagged_length. cbn [needed length] in *. lia.
  - rewrite E, R0; [reflexivity|]. intros t I0 E0. apply in_seq in I0. apply (f_equal (@length Qc)) in E0. rewrite lagged_length in E0. cbn [length] in E0. lia.
Qed.

(** Mean square displacements. *)
Lemma py_get_data Ds t : (1 <= t <= length Ds)%nat -> py_get (length Ds) (map accumulated Ds) (Z.of_nat t) = Ok (accumulated (nth (t - 1) Ds [])).
Proof.
  intros H. unfold py_get. destruct (Z.leb_spec (Z.of_nat t) 0); [lia|]. destruct (Z.ltb_spec (Z.of_nat (length Ds)) (Z.of_nat t)); [lia|].
  replace (Z.to_nat (Z.of_nat t - 1)) with (t - 1)%nat by lia.
  rewrite (nth_error_nth' (map accumulated Ds) (accumulated [])) by (rewrite map_length; lia). rewrite map_nth. reflexivity.
Qed.
Lemma line_ok l : line_curve l = [fst l; snd l].
Proof. destruct l as [[a b] [c d]]. reflexivity. Qed.
Lemma msd_axes_ok Ds show lines : (forall D, In D Ds -> (needed show <= length D)%nat) ->
  exists c, msd_getMPLAxes (length Ds) (map accumulated Ds) show lines = Ok (c, map (fun l => [fst l; snd l]) lines) /\
    draws c show (map (fun t => (Z.of_nat t, nth (t - 1) Ds [])) (seq 1 (length Ds))).
Proof.
  intros H. unfold msd_getMPLAxes.
  destruct (times_ok (py_get (length Ds) (map accumulated Ds)) (fun t => nth (t - 1) Ds []) show (seq 1 (length Ds))) as (es & E & B).
  { intros t I0. apply in_seq in I0. split; [apply py_get_data; lia|]. apply H, nth_In. lia. }
  rewrite E. cbn [bind]. eexists. split; [f_equal; f_equal; apply map_ext, line_ok|]. apply draws_ok, B.
Qed.
Lemma msd_axes_short Ds show lines D : In D Ds -> (length D < needed show)%nat ->
  exists e, msd_getMPLAxes (length Ds) (map accumulated Ds) show lines = Err e /\ (e = PyException \/ e = RuntimeError) /\ (~ In [] Ds -> e = RuntimeError).
Proof.
  intros I0 L. unfold msd_getMPLAxes.
  destruct (times_short (py_get (length Ds) (map accumulated Ds)) (fun t => nth (t - 1) Ds []) show (seq 1 (length Ds))) as (e & E & B & C).
  - intros t I1. apply in_seq in I1. apply py_get_data. lia.
  - apply (In_nth _ _ []) in I0. destruct I0 as (n & Hn & E). exists (S n). split; [apply in_seq; lia|]. cbn [Nat.sub]. rewrite Nat.sub_0_r, E. exact L.
  - rewrite E. exists e. split; [reflexivity|]. split; [exact B|]. intros NI. apply C. intros t I1 E0. apply in_seq in I1. apply NI. rewrite <- E0. apply nth_In. lia.
Qed.

(** Normal modes. *)
Lemma column_fold T l d : fold_left (fun stat measurement => match nth_error measurement T with Some x => ddda_add stat x | None => stat end) l d
  = fold_left ddda_add (column T l) d.
Proof.
  revert d. induction l as [|m l IH]; intros d; [reflexivity|]. cbn [fold_left column flat_map]. rewrite fold_left_app, IH.
  destruct (nth_error m T); reflexivity.
Qed.
Lemma nma_get_data count s n mode l t : normalModeCount s = Some n -> (Z.of_nat mode < Z.of_nat n)%Z -> nth_error (measurements s) mode = Some l -> (t < count)%nat ->
  nma_get count s (Z.of_nat mode) (Z.of_nat t) = Ok (accumulated (column t l)).
Proof.
  intros N M L T. unfold nma_get. rewrite N. destruct (Z.ltb_spec (Z.of_nat mode) 0); [lia|]. destruct (Z.leb_spec (Z.of_nat n) (Z.of_nat mode)); [lia|]. cbn [orb].
  destruct (Z.ltb_spec (Z.of_nat t) 0); [lia|]. destruct (Z.ltb_spec (Z.of_nat count - 1) (Z.of_nat t)); [lia|].
  rewrite !Nat2Z.id, L, column_fold. reflexivity.
Qed.
Lemma nma_axes_eq count s n mode show : normalModeCount s = Some n -> (mode < n)%nat ->
  nma_getMPLAxes count s (Z.of_nat mode) show = do p <- times_loop (nma_get count s (Z.of_nat mode)) show (seq 0 count); Ok (drawn p).
Proof.
  intros N M. unfold nma_getMPLAxes. rewrite N. destruct (Z.ltb_spec (Z.of_nat mode) 0); [lia|].
  destruct (Z.leb_spec (Z.of_nat n) (Z.of_nat mode)); [lia|]. reflexivity.
Qed.
Lemma nma_axes_ok count s n mode l show : normalModeCount s = Some n -> (mode < n)%nat -> nth_error (measurements s) mode = Some l ->
  (forall t, (t < count)%nat -> (needed show <= length (column t l))%nat) ->
  exists c, nma_getMPLAxes count s (Z.of_nat mode) show = Ok c /\ draws c show (map (fun t => (Z.of_nat t, column t l)) (seq 0 count)).
Proof.
  intros N M L H. rewrite (nma_axes_eq count s n mode show N M).
  destruct (times_ok (nma_get count s (Z.of_nat mode)) (fun t => column t l) show (seq 0 count)) as (es & E & B).
  { intros t I0. apply in_seq in I0. split; [apply (nma_get_data count s n mode l); try assumption; lia|]. apply H. lia. }
  rewrite E. cbn [bind]. eexists. split; [reflexivity|]. apply draws_ok, B.
Qed.
Lemma nma_axes_short count s n mode l show t : normalModeCount s = Some n -> (mode < n)%nat -> nth_error (measurements s) mode = Some l ->
  (t < count)%nat -> (length (column t l) < needed show)%nat ->
  exists e, nma_getMPLAxes count s (Z.of_nat mode) show = Err e /\ (e = PyException \/ e = RuntimeError).
Proof.
  intros N M L T H. rewrite (nma_axes_eq count s n mode show N M).
  destruct (times_short (nma_get count s (Z.of_nat mode)) (fun t => column t l) show (seq 0 count)) as (e & E & B & _).
  - intros t' I0. apply in_seq in I0. apply (nma_get_data count s n mode l); try assumption; lia.
  - exists t. split; [apply in_seq; lia|exact H].
  - rewrite E. exists e. auto.
Qed.
