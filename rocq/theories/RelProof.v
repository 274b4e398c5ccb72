(** Proofs about the script for relaxation times. *)
From Coq Require Import String List ZArith QArith Qcanon Permutation Sorted Bool Lia.
From Verif Require Import PyBase StrBase QcBase VtfModel VtfPyModel RelModel RelSpec.
Import ListNotations.
Open Scope string_scope.
Open Scope list_scope.
Open Scope Qc_scope.

Lemma qeqb_refl x : qeqb x x = true.
Proof. apply qeqb_spec. reflexivity. Qed.
Lemma qeqb_false x y : qeqb x y = false <-> x <> y.
Proof. split; [intros H E; apply qeqb_spec in E; congruence|]. intros H. destruct (qeqb x y) eqn:E; [apply qeqb_spec in E; contradiction|reflexivity]. Qed.
Lemma qeqb_sym x y : qeqb x y = qeqb y x.
Proof. destruct (qeqb x y) eqn:E; symmetry; [apply qeqb_spec in E; subst; apply qeqb_refl|apply qeqb_false in E; apply qeqb_false; congruence]. Qed.

(** ** Elements in the order of appearance *)
Lemma in_appearing x l : In x (appearing l) <-> In x l.
Proof.
  induction l as [|y l IH]; cbn; [tauto|]. rewrite filter_In, IH, negb_true_iff, qeqb_false. destruct (Qc_eq_dec y x); [subst; tauto|]. intuition congruence.
Qed.
Lemma nodup_appearing l : NoDup (appearing l).
Proof. induction l as [|y l IH]; cbn; constructor; [rewrite filter_In, qeqb_refl; intuition discriminate|apply NoDup_filter, IH]. Qed.
Lemma appearing_snoc l x : appearing (l ++ [x]) = appearing l ++ (if in_dec Qc_eq_dec x l then [] else [x]).
Proof.
  induction l as [|y l IH]; [reflexivity|]. cbn [appearing app]. rewrite IH, filter_app. cbn [app]. f_equal. f_equal.
  destruct (in_dec Qc_eq_dec x l) as [A|A], (in_dec Qc_eq_dec x (y :: l)) as [B|B]; cbn; try reflexivity.
  - exfalso. apply B. right. exact A.
  - destruct B as [->|B]; [|contradiction]. rewrite qeqb_refl. reflexivity.
  - destruct (qeqb x y) eqn:E; [|reflexivity]. apply qeqb_spec in E. exfalso. apply B. left. congruence.
Qed.

(** ** The dictionaries *)
Fixpoint look {A} (d : A) (t : list (Qc * A)) (k : Qc) : A := match t with [] => d | (i, a) :: t => if qeqb i k then a else look d t k end.
Lemma look_out {A} (d : A) t k : ~ In k (map fst t) -> look d t k = d.
Proof. induction t as [|[i a] t IH]; cbn; [reflexivity|]. intros H. destruct (qeqb i k) eqn:E; [apply qeqb_spec in E; tauto|apply IH; tauto]. Qed.
Lemma look_in {A} (d : A) t k a : NoDup (map fst t) -> In (k, a) t <-> In k (map fst t) /\ look d t k = a.
Proof.
  induction t as [|[i b] t IH]; cbn; [tauto|]. intros N. inversion N as [|? ? N1 N2]; subst. destruct (qeqb i k) eqn:E.
  - apply qeqb_spec in E. subst i. split; [intros [H|H]; [injection H as ->; auto|exfalso; apply N1; apply (in_map fst) in H; exact H]|intros [_ ->]; auto].
  - apply qeqb_false in E. rewrite IH by exact N2. split; [intros [H|H]; [congruence|tauto]|intros [[H|H] K]; [congruence|tauto]].
Qed.
Lemma add_lag_look d c l k : look [] (add_lag d c l) k = look [] l k ++ (if qeqb d k then [c] else []).
Proof.
  induction l as [|[i v] l IH]; cbn; [destruct (qeqb d k); reflexivity|]. destruct (qeqb i d) eqn:E; cbn.
  - apply qeqb_spec in E. subst i. destruct (qeqb d k); [reflexivity|rewrite app_nil_r; reflexivity].
  - destruct (qeqb i k) eqn:F; [|exact IH]. apply qeqb_spec in F. subst i. rewrite qeqb_sym, E, app_nil_r. reflexivity.
Qed.
Lemma add_lag_keys d c l : map fst (add_lag d c l) = map fst l ++ (if in_dec Qc_eq_dec d (map fst l) then [] else [d]).
Proof.
  induction l as [|[i v] l IH]; [reflexivity|]. cbn [add_lag map fst]. destruct (qeqb i d) eqn:E.
  - apply qeqb_spec in E. subst i. destruct (in_dec Qc_eq_dec d (d :: map fst l)) as [_|H]; [rewrite app_nil_r; reflexivity|exfalso; apply H; left; reflexivity].
  - apply qeqb_false in E. cbn [map fst app]. rewrite IH. f_equal. f_equal.
    destruct (in_dec Qc_eq_dec d (map fst l)) as [A|A], (in_dec Qc_eq_dec d (i :: map fst l)) as [B|B]; try reflexivity; [exfalso; apply B; right; exact A|destruct B; contradiction].
Qed.
Lemma add_value_look i d c t k : look [] (add_value i d c t) k = if qeqb i k then add_lag d c (look [] t k) else look [] t k.
Proof.
  induction t as [|[j l] t IH]; cbn [add_value look]; [destruct (qeqb i k); reflexivity|]. destruct (qeqb j i) eqn:E; cbn [look].
  - apply qeqb_spec in E. subst j. destruct (qeqb i k); reflexivity.
  - destruct (qeqb j k) eqn:F; [|exact IH]. apply qeqb_spec in F. subst j. rewrite qeqb_sym, E. reflexivity.
Qed.
Lemma add_value_keys i d c t : map fst (add_value i d c t) = map fst t ++ (if in_dec Qc_eq_dec i (map fst t) then [] else [i]).
Proof.
  induction t as [|[j l] t IH]; [reflexivity|]. cbn [add_value map fst]. destruct (qeqb j i) eqn:E.
  - apply qeqb_spec in E. subst j. destruct (in_dec Qc_eq_dec i (i :: map fst t)) as [_|H]; [rewrite app_nil_r; reflexivity|exfalso; apply H; left; reflexivity].
  - apply qeqb_false in E. cbn [map fst app]. rewrite IH. f_equal. f_equal.
    destruct (in_dec Qc_eq_dec i (map fst t)) as [A|A], (in_dec Qc_eq_dec i (j :: map fst t)) as [B|B]; try reflexivity; [exfalso; apply B; right; exact A|destruct B; contradiction].
Qed.

Section Rel.
Variable float : string -> option Qc.
Variable round8 : Qc -> Qc.
Notation lag := (lag round8).
Definition grouped (es : list entry) : lags := fold_left (fun l e => add_lag (lag e) (e_value e) l) es [].
Definition tabled (es : list entry) : table := fold_left (fun t e => add_value (e_mode e) (lag e) (e_value e) t) es [].
Lemma grouped_snoc es e : grouped (es ++ [e]) = add_lag (lag e) (e_value e) (grouped es).
Proof. unfold grouped. rewrite fold_left_app. reflexivity. Qed.
Lemma tabled_snoc es e : tabled (es ++ [e]) = add_value (e_mode e) (lag e) (e_value e) (tabled es).
Proof. unfold tabled. rewrite fold_left_app. reflexivity. Qed.
Lemma grouped_keys es : map fst (grouped es) = appearing (map lag es).
Proof.
  induction es as [|e es IH] using rev_ind; [reflexivity|]. rewrite grouped_snoc, add_lag_keys, map_app, IH. cbn [map]. rewrite appearing_snoc. f_equal.
  destruct (in_dec Qc_eq_dec (lag e) (appearing (map lag es))) as [A|A], (in_dec Qc_eq_dec (lag e) (map lag es)) as [B|B]; try reflexivity; rewrite in_appearing in A; contradiction.
Qed.
Lemma grouped_look es d : look [] (grouped es) d = map e_value (filter (fun e => qeqb (lag e) d) es).
Proof.
  induction es as [|e es IH] using rev_ind; [reflexivity|]. rewrite grouped_snoc, add_lag_look, IH, filter_app, map_app. f_equal. cbn. destruct (qeqb (lag e) d); reflexivity.
Qed.
Lemma tabled_keys es : map fst (tabled es) = appearing (map e_mode es).
Proof.
  induction es as [|e es IH] using rev_ind; [reflexivity|]. rewrite tabled_snoc, add_value_keys, map_app, IH. cbn [map]. rewrite appearing_snoc. f_equal.
  destruct (in_dec Qc_eq_dec (e_mode e) (appearing (map e_mode es))) as [A|A], (in_dec Qc_eq_dec (e_mode e) (map e_mode es)) as [B|B]; try reflexivity; rewrite in_appearing in A; contradiction.
Qed.
Lemma tabled_look es i : look [] (tabled es) i = grouped (filter (fun e => qeqb (e_mode e) i) es).
Proof.
  induction es as [|e es IH] using rev_ind; [reflexivity|]. rewrite tabled_snoc, add_value_look, IH, filter_app. cbn. destruct (qeqb (e_mode e) i); [symmetry; apply grouped_snoc|rewrite app_nil_r; reflexivity].
Qed.
Lemma filter_filter {A} (f g : A -> bool) l : filter f (filter g l) = filter (fun a => g a && f a) l.
Proof. induction l as [|a l IH]; cbn; [reflexivity|]. destruct (g a); cbn; [rewrite IH; reflexivity|exact IH]. Qed.
Lemma samples_look es i d : look [] (look [] (tabled es) i) d = samples round8 es i d.
Proof. rewrite tabled_look, grouped_look, filter_filter. reflexivity. Qed.

(** ** Reading *)
Lemma line_ok line e t : line_of float line e -> process_line float round8 line t = Ok (add_value (e_mode e) (lag e) (e_value e) t).
Proof. intros [a [b [c [d [W [A [B [C D]]]]]]]]. unfold process_line. rewrite W. cbn [floats]. rewrite A, B, C, D. reflexivity. Qed.
Lemma line_bad line t : (forall e, ~ line_of float line e) -> process_line float round8 line t = Err ValueError.
Proof.
  intros H. unfold process_line. destruct (words is_ws line) as [|a [|b [|c [|d [|x r]]]]] eqn:W; cbn [floats].
  - reflexivity.
  - destruct (float a); reflexivity.
  - destruct (float a), (float b); reflexivity.
  - destruct (float a), (float b), (float c); reflexivity.
  - destruct (float a) as [t0|] eqn:A; [|reflexivity]. destruct (float b) as [t1|] eqn:B; [|reflexivity]. destruct (float c) as [i|] eqn:C; [|reflexivity]. destruct (float d) as [v|] eqn:D; [|reflexivity].
    exfalso. apply (H (Entry t0 t1 i v)). exists a, b, c, d. auto.
  - destruct (float a), (float b), (float c), (float d), (float x), (floats float r); reflexivity.
Qed.
Lemma line_or line t : (exists t', process_line float round8 line t = Ok t') \/ process_line float round8 line t = Err ValueError.
Proof. unfold process_line. destruct (floats float (words is_ws line)) as [[|a [|b [|c [|d [|x r]]]]]|]; eauto. Qed.
Lemma lines_ok lines es t : Forall2 (line_of float) lines es -> process_lines float round8 lines t = Ok (fold_left (fun t e => add_value (e_mode e) (lag e) (e_value e) t) es t).
Proof. intros H. revert t. induction H as [|l e ls es A _ IH]; intros t; [reflexivity|]. cbn [process_lines fold_left]. rewrite (line_ok l e t A). apply IH. Qed.
Lemma lines_bad lines t line : In line lines -> (forall e, ~ line_of float line e) -> process_lines float round8 lines t = Err ValueError.
Proof.
  intros J H. revert t. induction lines as [|l ls IH]; intros t; [destruct J|]. cbn [process_lines]. destruct J as [->|J]; [rewrite line_bad by exact H; reflexivity|].
  destruct (line_or l t) as [[t' ->]| ->]; [apply IH, J|reflexivity].
Qed.
Lemma lines_or lines t : (exists t', process_lines float round8 lines t = Ok t') \/ process_lines float round8 lines t = Err ValueError.
Proof. revert t. induction lines as [|l ls IH]; intros t; cbn [process_lines]; [eauto|]. destruct (line_or l t) as [[t' ->]| ->]; cbn [bind]; [apply IH|auto]. Qed.
Lemma rundirs_ok rundirs es : files_of float rundirs es -> processRundirs float round8 rundirs [] = Ok (tabled es).
Proof.
  intros [ess [H ->]]. unfold tabled. generalize (@nil (Qc * lags)) as t. induction H as [|r es' rs ess A _ IH]; intros t; [reflexivity|].
  cbn [processRundirs concat]. unfold processRundir. rewrite (lines_ok _ _ t A). cbn [bind]. rewrite fold_left_app. apply IH.
Qed.
Lemma rundirs_bad rundirs t r line : In r rundirs -> In line (keep_lines (snd r)) -> (forall e, ~ line_of float line e) -> processRundirs float round8 rundirs t = Err ValueError.
Proof.
  intros J K H. revert t. induction rundirs as [|s rs IH]; intros t; [destruct J|]. cbn [processRundirs]. unfold processRundir. destruct J as [->|J]; [rewrite (lines_bad _ t line K H); reflexivity|].
  destruct (lines_or (keep_lines (snd s)) t) as [[t' ->]| ->]; [apply IH, J|reflexivity].
Qed.

(** ** Modes *)
Lemma ints_ok l : (forall w, In w l -> Z_of_str w <> None) -> exists zs, ints l = Ok zs /\ forall z, In z zs <-> exists w, In w l /\ Z_of_str w = Some z.
Proof.
  induction l as [|w l IH]; intros H; cbn [ints].
  - exists []. split; [reflexivity|]. intros z. split; [intros []|intros [w [[] _]]].
  - destruct (Z_of_str w) as [z|] eqn:E; [|exfalso; apply (H w (or_introl eq_refl)), E]. destruct IH as [zs [-> K]]; [intros v Hv; apply H; right; exact Hv|]. cbn [bind]. exists (z :: zs). split; [reflexivity|].
    intros z'. cbn. rewrite K. split; [intros [<-|[v [A B]]]; eauto|]. intros [v [[<-|A] B]]; [left; congruence|right; eauto].
Qed.
Lemma ints_bad l w : In w l -> Z_of_str w = None -> ints l = Err ValueError.
Proof.
  induction l as [|v l IH]; [intros []|]. intros [->|J] H; cbn [ints]; [rewrite H; reflexivity|]. destruct (Z_of_str v); [|reflexivity]. rewrite (IH J H). reflexivity.
Qed.
Lemma modes_ok modes : valid_modes modes -> exists m, modesToInclude modes = Ok m /\ forall i, included m i = true <-> selected modes i.
Proof.
  unfold modesToInclude. destruct modes as [s|]; cbn [valid_modes selected]; [|intros _; exists None; split; [reflexivity|cbn; tauto]].
  destruct (String.eqb_spec s "") as [->|N]; [intros _; exists None; split; [reflexivity|cbn; tauto]|]. intros [E|H]; [contradiction|].
  destruct (ints_ok _ H) as [zs [-> K]]. exists (Some zs). split; [reflexivity|]. intros i. cbn. rewrite existsb_exists. split.
  - intros [z [A B]]. apply qeqb_spec in B. apply K in A. destruct A as [w [A A']]. right. exists w, z. auto.
  - intros [E|[w [z [A [B ->]]]]]; [contradiction|]. exists z. split; [apply K; eauto|apply qeqb_refl].
Qed.

(** ** Means and their quotients *)
Lemma fold_plus l a : fold_left Qcplus l a = a + qsum l.
Proof. revert a. induction l as [|x l IH]; intros a; cbn; [ring|]. rewrite IH. ring. Qed.
Lemma mean_average l : mean l = average l.
Proof. unfold mean, average. rewrite fold_plus. f_equal. ring. Qed.
Lemma normalise_some f l : f <> 0 -> normalise (Some f) l = Ok (map (fun p => (fst p, average (snd p) / f)) l).
Proof. intros F. induction l as [|[d v] l IH]; cbn [normalise map]; [reflexivity|]. apply qeqb_false in F. rewrite F, IH. cbn [bind]. rewrite mean_average. reflexivity. Qed.
Lemma normalise_none d0 v0 l : normalise None ((d0, v0) :: l) = if qeqb (average v0) 0 then Err ZeroDivisionError else Ok (map (fun p => (fst p, average (snd p) / average v0)) ((d0, v0) :: l)).
Proof.
  cbn [normalise]. rewrite mean_average. destruct (qeqb (average v0) 0) eqn:E; [reflexivity|]. apply qeqb_false in E. rewrite (normalise_some _ l E). reflexivity.
Qed.
Lemma insert_perm p l : Permutation (insert_pair p l) (p :: l).
Proof. induction l as [|q l IH]; cbn; [apply Permutation_refl|]. destruct (qltb (fst p) (fst q)); [apply Permutation_refl|]. apply Permutation_trans with (q :: p :: l); [apply perm_skip, IH|apply perm_swap]. Qed.
Lemma sort_perm l : Permutation (sort_pairs l) l.
Proof. induction l as [|p l IH]; cbn; [constructor|]. apply Permutation_trans with (p :: sort_pairs l); [apply insert_perm|apply perm_skip, IH]. Qed.
Lemma insert_sorted p l : StronglySorted (fun a b : Qc * Qc => fst a < fst b) l -> ~ In (fst p) (map fst l) -> StronglySorted (fun a b : Qc * Qc => fst a < fst b) (insert_pair p l).
Proof.
  induction l as [|q l IH]; cbn; intros H N; [constructor; constructor|]. inversion H as [|? ? A B]; subst. destruct (qltb (fst p) (fst q)) eqn:L.
  - apply qltb_spec in L. constructor; [exact H|]. constructor; [exact L|]. eapply Forall_impl; [|exact B]. cbn. intros r Hr. eapply Qclt_trans; eassumption.
  - apply qltb_false in L. constructor; [apply IH; tauto|]. apply Forall_forall. intros r J. apply (Permutation_in _ (insert_perm p l)) in J. destruct J as [<-|J].
    + apply Qcle_lt_or_eq in L. destruct L as [L|L]; [exact L|exfalso; apply N; left; exact L].
    + rewrite Forall_forall in B. apply B, J.
Qed.
Lemma sort_sorted l : NoDup (map fst l) -> StronglySorted (fun a b : Qc * Qc => fst a < fst b) (sort_pairs l).
Proof.
  induction l as [|p l IH]; cbn; intros N; [constructor|]. inversion N as [|? ? A B]; subst. apply insert_sorted; [apply IH, B|].
  intros J. apply A. apply (Permutation_in _ (Permutation_map fst (sort_perm l))), J.
Qed.

(** ** The series of a mode *)
Variable items : list (Qc * list Qc) -> list (Qc * list Qc).
Hypothesis items_perm : forall l, Permutation (items l) l.
(** The time difference by which the values for a mode are normalised. *)
Definition reference (es : list entry) (i : Qc) : Qc := match items (look [] (tabled es) i) with (d, _) :: _ => d | [] => 0 end.
Definition normalised (es : list entry) (i : Qc) : list (Qc * Qc) :=
  map (fun p => (fst p, average (snd p) / average (samples round8 es i (reference es i)))) (items (look [] (tabled es) i)).
Lemma mode_nodup es i : NoDup (map fst (look [] (tabled es) i)).
Proof. rewrite tabled_look, grouped_keys. apply nodup_appearing. Qed.
Lemma items_nodup es i : NoDup (map fst (items (look [] (tabled es) i))).
Proof. eapply Permutation_NoDup; [apply Permutation_sym, Permutation_map, items_perm|apply mode_nodup]. Qed.
Lemma mode_in es i d xs : In (d, xs) (look [] (tabled es) i) <-> samples round8 es i d <> [] /\ xs = samples round8 es i d.
Proof.
  rewrite (look_in [] _ _ _ (mode_nodup es i)), samples_look. rewrite tabled_look, grouped_keys, in_appearing.
  assert (K : In d (map lag (filter (fun e => qeqb (e_mode e) i) es)) <-> samples round8 es i d <> []).
  { unfold samples. rewrite in_map_iff. split.
    - intros [e [A B]]. apply filter_In in B. destruct B as [B C]. intros E. apply map_eq_nil in E.
      assert (J : In e (filter (fun e => qeqb (e_mode e) i && qeqb (lag e) d) es)) by (apply filter_In; split; [exact B|]; rewrite C; apply qeqb_spec, A). rewrite E in J. destruct J.
    - intros N. destruct (filter (fun e => qeqb (e_mode e) i && qeqb (lag e) d) es) as [|e r] eqn:E; [exfalso; apply N; reflexivity|].
      assert (J : In e (filter (fun e => qeqb (e_mode e) i && qeqb (lag e) d) es)) by (rewrite E; left; reflexivity). apply filter_In in J. destruct J as [A B]. apply andb_prop in B. destruct B as [B C].
      exists e. split; [apply qeqb_spec, C|]. apply filter_In. split; assumption. }
  rewrite K. intuition auto.
Qed.
Lemma mode_nonempty es i : In i (map e_mode es) -> items (look [] (tabled es) i) <> [].
Proof.
  intros J E. apply in_map_iff in J. destruct J as [e [<- J]].
  pose proof (items_perm (look [] (tabled es) (e_mode e))) as P. rewrite E in P. apply Permutation_nil in P.
  assert (K : In (lag e, samples round8 es (e_mode e) (lag e)) (look [] (tabled es) (e_mode e))).
  { apply mode_in. split; [|reflexivity]. unfold samples. intros N. apply map_eq_nil in N.
    assert (L : In e (filter (fun e' => qeqb (e_mode e') (e_mode e) && qeqb (lag e') (lag e)) es)) by (apply filter_In; split; [exact J|]; rewrite !qeqb_refl; reflexivity). rewrite N in L. destruct L. }
  rewrite P in K. destruct K.
Qed.
Lemma reference_in es i : In i (map e_mode es) -> samples round8 es i (reference es i) <> [] /\
  exists v r, items (look [] (tabled es) i) = (reference es i, v) :: r /\ v = samples round8 es i (reference es i).
Proof.
  intros J. unfold reference. pose proof (mode_nonempty es i J) as N. destruct (items (look [] (tabled es) i)) as [|[d v] r] eqn:E; [congruence|].
  assert (K : In (d, v) (look [] (tabled es) i)) by (apply (Permutation_in _ (items_perm _)); rewrite E; left; reflexivity). apply mode_in in K. destruct K as [A B]. split; [exact A|]. exists v, r. split; [reflexivity|exact B].
Qed.
Lemma mode_result es i : In i (map e_mode es) ->
  normalise None (items (look [] (tabled es) i)) = if qeqb (average (samples round8 es i (reference es i))) 0 then Err ZeroDivisionError else Ok (normalised es i).
Proof.
  intros J. destruct (reference_in es i J) as [_ [v [r [E ->]]]]. unfold normalised. rewrite E at 1. rewrite normalise_none. destruct (qeqb _ 0); [reflexivity|]. rewrite <- E. reflexivity.
Qed.
Lemma series_correct es i : series_of round8 es i (reference es i) (sort_pairs (normalised es i)).
Proof.
  split.
  - apply sort_sorted. unfold normalised. rewrite map_map. cbn [fst]. apply items_nodup.
  - intros d v. assert (K : In (d, v) (sort_pairs (normalised es i)) <-> In (d, v) (normalised es i)) by (split; intros J; [apply (Permutation_in _ (sort_perm _)), J|apply (Permutation_in _ (Permutation_sym (sort_perm _))), J]).
    rewrite K. unfold normalised. rewrite in_map_iff. split.
    + intros [[d' xs] [A B]]. cbn [fst snd] in A. injection A as -> <-. apply (Permutation_in _ (items_perm _)) in B. apply mode_in in B. destruct B as [B ->]. split; [exact B|reflexivity].
    + intros [A ->]. exists (d, samples round8 es i d). split; [reflexivity|]. apply (Permutation_in _ (Permutation_sym (items_perm _))). apply mode_in. auto.
Qed.
Lemma results_ok m es : (forall i, In i (map e_mode es) -> included m i = true -> average (samples round8 es i (reference es i)) <> 0) ->
  results items m (tabled es) = Ok (map (fun i => (i, normalised es i)) (filter (included m) (appearing (map e_mode es)))).
Proof.
  intros H. rewrite <- tabled_keys.
  assert (G : forall t, (forall i l, In (i, l) t -> In i (map e_mode es) /\ l = look [] (tabled es) i) -> results items m t = Ok (map (fun i => (i, normalised es i)) (filter (included m) (map fst t)))).
  { induction t as [|[i l] t IH]; intros K; [reflexivity|]. cbn [results map fst filter]. destruct (K i l (or_introl eq_refl)) as [A ->].
    specialize (IH (fun i l J => K i l (or_intror J))). destruct (included m i) eqn:E; [|exact IH].
    rewrite mode_result by exact A. assert (Q : qeqb (average (samples round8 es i (reference es i))) 0 = false) by (apply qeqb_false, H; assumption). rewrite Q, IH. reflexivity. }
  apply G. intros i l J. assert (N : NoDup (map fst (tabled es))) by (rewrite tabled_keys; apply nodup_appearing). apply (look_in [] _ _ _ N) in J. destruct J as [A B]. split; [|symmetry; exact B].
  rewrite tabled_keys, in_appearing in A. exact A.
Qed.
Lemma results_zero m es i : In i (map e_mode es) -> included m i = true -> average (samples round8 es i (reference es i)) = 0 ->
  results items m (tabled es) = Err ZeroDivisionError.
Proof.
  intros A B C.
  assert (G : forall t, (forall i l, In (i, l) t -> In i (map e_mode es) /\ l = look [] (tabled es) i) -> In i (map fst t) -> results items m t = Err ZeroDivisionError).
  { induction t as [|[j l] t IH]; intros K J; [destruct J|]. cbn [results]. destruct (K j l (or_introl eq_refl)) as [D ->]. cbn [map fst In] in J.
    destruct (included m j) eqn:E.
    - rewrite mode_result by exact D. destruct (qeqb (average (samples round8 es j (reference es j))) 0) eqn:Q; [reflexivity|]. cbn [bind]. destruct J as [->|J]; [rewrite C, qeqb_refl in Q; discriminate|]. rewrite IH; [reflexivity| |exact J]. intros i' l' J'. apply K. right. exact J'.
    - destruct J as [->|J]; [congruence|]. apply IH; [|exact J]. intros i' l' J'. apply K. right. exact J'. }
  apply G; [|rewrite tabled_keys; apply in_appearing, A].
  intros i' l J. assert (N : NoDup (map fst (tabled es))) by (rewrite tabled_keys; apply nodup_appearing). apply (look_in [] _ _ _ N) in J. destruct J as [D E]. split; [|symmetry; exact E].
  rewrite tabled_keys, in_appearing in D. exact D.
Qed.
End Rel.
(** In the order of insertion, the first time difference is that of the first entry. *)
Lemma reference_first round8 es i d : first_lag round8 es i = Some d -> reference round8 (fun l => l) es i = d.
Proof.
  unfold first_lag, reference. rewrite tabled_look. intros H.
  assert (K : exists e r, filter (fun e => qeqb (e_mode e) i) es = e :: r /\ lag round8 e = d).
  { induction es as [|e es IH]; [discriminate|]. cbn [find filter] in *. destruct (qeqb (e_mode e) i); [|apply IH, H]. exists e, (filter (fun e => qeqb (e_mode e) i) es). split; [reflexivity|]. injection H as H. exact H. }
  destruct K as [e [r [-> <-]]]. pose proof (grouped_keys round8 (e :: r)) as G. destruct (grouped round8 (e :: r)) as [|[d v] l]; [discriminate G|]. injection G as G _. exact G.
Qed.
Lemma first_lag_some round8 es i : In i (map e_mode es) -> exists d, first_lag round8 es i = Some d.
Proof.
  unfold first_lag. induction es as [|e es IH]; cbn; [intros []|]. destruct (qeqb (e_mode e) i) eqn:E; [cbn; eauto|]. intros [H|H]; [apply qeqb_false in E; contradiction|apply IH, H].
Qed.
(** ** Texts *)
Lemma names_eq l : names true l = String.concat ", " (map (fun r => "'" ++ r ++ "'")%string l).
Proof.
  destruct l as [|r l]; [reflexivity|]. cbn [names]. change ("" ++ "'" ++ r ++ "'" ++ names false l)%string with ("'" ++ r ++ "'" ++ names false l)%string.
  revert r. induction l as [|s l IH]; intros r; [cbn; reflexivity|]. cbn [names map]. change (String.concat ", " (("'" ++ r ++ "'") :: ("'" ++ s ++ "'") :: map (fun r => "'" ++ r ++ "'") l))%string with (("'" ++ r ++ "'") ++ ", " ++ String.concat ", " (map (fun r => "'" ++ r ++ "'") (s :: l)))%string.
  rewrite <- (IH s). rewrite !str_app_assoc. reflexivity.
Qed.
Lemma text_eq str names' l : file_text str names' l = series_text str names' (sort_pairs l).
Proof. unfold file_text, series_text. rewrite names_eq. reflexivity. Qed.
Lemma truncate_int z : truncate (qz z) = z.
Proof.
  unfold truncate, qz. assert (E : this (Q2Qc (inject_Z z)) = inject_Z z).
  { cbn. unfold Qred, inject_Z. destruct (Z.ggcd z 1) as [g [a b]] eqn:G. pose proof (Z.ggcd_gcd z 1) as D. pose proof (Z.ggcd_correct_divisors z 1) as C. rewrite G in D, C. cbn in D. rewrite Z.gcd_1_r in D. subst g. destruct C as [C1 C2]. rewrite Z.mul_1_l in C1, C2. subst a b. reflexivity. }
  rewrite E. cbn. apply Z.quot_1_r.
Qed.
