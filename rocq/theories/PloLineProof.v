(** Lemmas about the lines on the canvas. *)
From Coq Require Import String Ascii Permutation Lia.
From Verif Require Import QcBase QcLra PyBase StrBase VtfModel VtfPyModel EmpModel Data2DModel Data2DSpec Data2DProof EmpSpec PtsSpec PloModel PloSpec PloProof.
Open Scope string_scope.
Open Scope list_scope.
Open Scope Qc_scope.

Lemma firstn_plus {A} n m (l : list A) : firstn (n + m) l = firstn n l ++ firstn m (skipn n l).
Proof. revert l. induction n as [|n IH]; intros [|a l]; cbn; [reflexivity|reflexivity|destruct m; reflexivity|]. rewrite IH. reflexivity. Qed.
Lemma skipn_plus {A} n m (l : list A) : skipn m (skipn n l) = skipn (n + m) l.
Proof. revert l. induction n as [|n IH]; intros l; [reflexivity|]. destruct l as [|a l]; [cbn; destruct m; reflexivity|]. cbn. apply IH. Qed.
Lemma slice_rest {A} a b (l : list A) : (a <= b)%nat -> slice a b l ++ skipn b l = skipn a l.
Proof. intros H. unfold slice. replace (skipn b l) with (skipn (b - a) (skipn a l)) by (rewrite skipn_plus; f_equal; lia). apply firstn_skipn. Qed.
Lemma slice_first {A} a b n (l : list A) : (a <= b <= n)%nat -> slice a b l ++ firstn (n - b) (skipn b l) = firstn (n - a) (skipn a l).
Proof.
  intros H. unfold slice. replace (skipn b l) with (skipn (b - a) (skipn a l)) by (rewrite skipn_plus; f_equal; lia).
  rewrite <- firstn_plus. f_equal. lia.
Qed.
Lemma slice_in {A} a b (l : list A) v : In v (slice a b l) -> exists i, (a <= i < b)%nat /\ nth_error l i = Some v.
Proof.
  intros H. unfold slice in H. apply In_nth_error in H. destruct H as [j H]. exists (a + j)%nat.
  assert (J : (j < b - a)%nat). { assert (X : nth_error (firstn (b - a) (skipn a l)) j <> None) by congruence. apply nth_error_Some in X. pose proof (firstn_le_length (b - a) (skipn a l)). lia. }
  split; [lia|]. rewrite <- H. clear H. assert (G : forall n (l : list A), (j < n)%nat -> nth_error (firstn n l) j = nth_error l j).
  { clear. induction j as [|j IH]; intros [|n] [|x l] H; cbn; try reflexivity; try lia. apply IH. lia. }
  rewrite G by exact J. clear G J. revert l. induction a as [|a IH]; intros [|x l]; cbn; try reflexivity; [destruct j; reflexivity|apply IH].
Qed.
Lemma slice_len {A} a b (l : list A) : (a <= b <= length l)%nat -> length (slice a b l) = (b - a)%nat.
Proof. intros H. unfold slice. rewrite firstn_length, skipn_length. lia. Qed.
Lemma qc_not_le (v : Qc) : ~ 0 <= v -> v < 0.
Proof. intros H. apply Qcnot_le_lt, H. Qed.
Lemma absolute_pos v : 0 <= v -> absolute v = v.
Proof. intros H. unfold absolute. destruct (Qclt_le_dec v 0) as [L|L]; [exfalso; exact (Qcle_not_lt _ _ H L)|reflexivity]. Qed.
Lemma absolute_neg v : v < 0 -> absolute v = - v.
Proof. intros H. unfold absolute. destruct (Qclt_le_dec v 0) as [L|L]; [reflexivity|exfalso; exact (Qcle_not_lt _ _ L H)]. Qed.

(** What a call of [draw] adds. *)
Definition adds (ax ax' : axes) (ids : list nat) (ls : list line2d) : Prop :=
  lines ax' = lines ax ++ combine ids ls /\ ids = seq (created ax) (length ls) /\ created ax' = (created ax + length ls)%nat.
Lemma plot_adds ax x y dash col lab ax' ids : axes_plot ax x y dash col lab = (ax', Ok ids) ->
  length x = length y /\ adds ax ax' ids [Line2D x y dash (match col with Some c => c | None => next_color ax end) lab].
Proof.
  unfold axes_plot. destruct (Nat.eqb_spec (length x) (length y)) as [E|E]; cbn [negb]; [|discriminate]. intros H. injection H as <- <-. split; [exact E|].
  unfold adds. cbn [lines created length seq combine]. split; [reflexivity|]. split; [reflexivity|lia].
Qed.
Lemma adds_nil ax : adds ax ax [] [].
Proof. unfold adds. cbn. rewrite app_nil_r. split; [reflexivity|]. split; [reflexivity|lia]. Qed.
Lemma combine_two {A B} (a b : list A) (c d : list B) : length a = length c -> combine (a ++ b) (c ++ d) = combine a c ++ combine b d.
Proof. revert c. induction a as [|x a IH]; intros [|y c] H; cbn in *; try lia; [reflexivity|]. rewrite IH by lia. reflexivity. Qed.
Lemma adds_app a b c i j k l : adds a b i k -> adds b c j l -> adds a c (i ++ j) (k ++ l).
Proof.
  intros (A & B & C) (A' & B' & C'). unfold adds. rewrite A', A, combine_two by (rewrite B, seq_length; reflexivity). split; [rewrite app_assoc; reflexivity|].
  rewrite app_length. split; [rewrite seq_app, B, B', C; reflexivity|rewrite C', C; lia].
Qed.
Lemma ranges_adds x y : forall ranges a prev ax col lab ids ax' ids', sign_partition y a prev ranges -> (col = None -> prev = None) -> ranges_plot ax x y ranges col lab ids = (ax', Ok ids') ->
  exists ls ps new, ids' = ids ++ new /\ adds ax ax' new ls /\ pieces (option_map negb prev) ps /\ concat (map (fun q => fst (fst q)) ps) = firstn (length y - a) (skipn a x)
  /\ concat (map (fun q => snd (fst q)) ps) = skipn a y /\ map (fun l => (xdata l, ydata l, dashed l)) ls = map (fun q => (fst (fst q), map absolute (snd (fst q)), snd q)) ps
  /\ Forall (fun l => color l = match col with Some c => c | None => next_color ax end) ls /\ map label ls = match ls with [] => [] | _ :: r => lab :: map (fun _ => None) r end.
Proof.
  induction ranges as [|[[i j] s] ranges IH]; intros a prev ax col lab ids ax' ids' P N H.
  - inversion P; subst. cbn [ranges_plot] in H. injection H as <- <-. exists [], [], []. rewrite app_nil_r. split; [reflexivity|]. split; [apply adds_nil|]. split; [constructor|].
    rewrite Nat.sub_diag, skipn_all. cbn. repeat split. constructor.
  - inversion P as [|a' b s' prev' r AB NP SG PR]; subst. cbn [ranges_plot] in H.
    destruct (axes_plot ax (slice i j x) (if s then slice i j y else map Qcopp (slice i j y)) (negb s) col lab) as [ax1 [new|e]] eqn:E; [|discriminate].
    apply plot_adds in E. destruct E as (LE & AD).
    eapply IH in H; [|exact PR|discriminate]. destruct H as (ls & ps & more & -> & AM & PI & CX & CY & ML & CO & LA).
    exists (Line2D (slice i j x) (if s then slice i j y else map Qcopp (slice i j y)) (negb s) (match col with Some c => c | None => next_color ax end) lab :: ls).
    exists ((slice i j x, slice i j y, negb s) :: ps), (new ++ more).
    assert (LY : length (if s then slice i j y else map Qcopp (slice i j y)) = length (slice i j y)) by (destruct s; [reflexivity|apply map_length]).
    assert (SY : Forall (fun v => if negb s then v < 0 else 0 <= v) (slice i j y)).
    { apply Forall_forall. intros v I. apply slice_in in I. destruct I as (k & K & V). specialize (SG k v K V). destruct s; cbn [negb]; [apply SG; reflexivity|].
      apply qc_not_le. intros X. apply SG in X. discriminate X. }
    split; [rewrite app_assoc; reflexivity|].
    split; [change (adds ax ax' (new ++ more) ([Line2D (slice i j x) (if s then slice i j y else map Qcopp (slice i j y)) (negb s) (match col with Some c => c | None => next_color ax end) lab] ++ ls)); eapply adds_app; eassumption|].
    split. { constructor; [| |destruct prev as [z|]; cbn; [intros X; injection X as X; apply NP; f_equal; destruct z, s; cbn in X; congruence|discriminate]|exact SY|exact PI].
      - intros X. pose proof (slice_len i j y ltac:(lia)) as Z. rewrite X in Z. cbn in Z. lia.
      - rewrite LE. exact LY. }
    split; [cbn [map concat fst snd]; rewrite CX; apply slice_first; lia|].
    split; [cbn [map concat fst snd]; rewrite CY; apply slice_rest; lia|].
    split. { cbn [map xdata ydata dashed fst snd]. rewrite ML. f_equal. f_equal. f_equal. destruct s; cbn [negb] in SY.
      - rewrite <- (map_id (slice i j y)) at 1. apply map_ext_in. intros v I. rewrite Forall_forall in SY. symmetry. apply absolute_pos, SY, I.
      - apply map_ext_in. intros v I. rewrite Forall_forall in SY. symmetry. apply absolute_neg, SY, I. }
    split; [constructor; [reflexivity|exact CO]|]. cbn [map label]. rewrite LA. destruct ls; reflexivity.
Qed.
Lemma dash_adds ax x y lab ax' ids : plotDashedIfNegative ax x y lab = (ax', Ok ids) -> exists ls, depicts true x y lab ls /\ adds ax ax' ids ls.
Proof.
  unfold plotDashedIfNegative. pose proof (ranges_ok y) as P. destruct (findRangesOfEqualSign y) as [|r ranges] eqn:R.
  - assert (Y : y = []) by (inversion P as [? H|]; symmetry in H; apply length_zero_iff_nil; congruence). subst y. clear P R. intros H. apply plot_adds in H. destruct H as (L & A).
    apply length_zero_iff_nil in L. subst x. eexists. split; [|exact A]. split.
    + eexists. split; [repeat constructor|reflexivity].
    + left. repeat split. eexists. repeat split.
  - intros H. eapply ranges_adds in H; [|exact P|reflexivity]. destruct H as (ls & ps & new & -> & A & PI & CX & CY & ML & CO & LA). exists ls. split; [|exact A]. split.
    + eexists. split; [exact CO|exact LA].
    + right. exists ps. rewrite Nat.sub_0_r in CX. cbn [skipn] in *.
      split; [|auto]. intros ->. cbn in CY. subst y. discriminate R.
Qed.
Lemma draw_adds dash ax x y lab ax' ids : draw dash ax x y lab = (ax', Ok ids) -> exists ls, depicts dash x y lab ls /\ adds ax ax' ids ls.
Proof.
  unfold draw. destruct dash; [apply dash_adds|]. intros H. apply plot_adds in H. destruct H as (L & A). eexists. split; [|exact A]. split.
  - eexists. split; [repeat constructor|reflexivity].
  - eexists. repeat split. exact L.
Qed.
(** Drawing succeeds for lists of the same length. *)
Lemma plot_some ax x y dash col lab : length x = length y -> exists ax' ids, axes_plot ax x y dash col lab = (ax', Ok ids).
Proof. intros H. unfold axes_plot. rewrite H, Nat.eqb_refl. cbn. eauto. Qed.
Lemma ranges_some x y : length x = length y -> forall ranges a prev ax col lab ids, sign_partition y a prev ranges -> exists ax' ids', ranges_plot ax x y ranges col lab ids = (ax', Ok ids').
Proof.
  intros E. induction ranges as [|[[i j] s] ranges IH]; intros a prev ax col lab ids P; [cbn; eauto|]. inversion P as [|a' b s' prev' r AB NP SG PR]; subst. cbn [ranges_plot].
  destruct (plot_some ax (slice i j x) (if s then slice i j y else map Qcopp (slice i j y)) (negb s) col lab) as (ax' & new & ->).
  - assert (LY : length (if s then slice i j y else map Qcopp (slice i j y)) = length (slice i j y)) by (destruct s; [reflexivity|apply map_length]). rewrite LY, !slice_len by lia. reflexivity.
  - eapply IH, PR.
Qed.
Lemma draw_some dash ax x y lab : length x = length y -> exists ax' ids, draw dash ax x y lab = (ax', Ok ids).
Proof.
  intros H. unfold draw. destruct dash; [|apply plot_some, H]. unfold plotDashedIfNegative. pose proof (ranges_ok y) as P.
  destruct (findRangesOfEqualSign y); [apply plot_some, H|eapply ranges_some; [exact H|exact P]].
Qed.

(** * The canvas *)
Definition fresh (ax : axes) : Prop := Forall (fun i => i < created ax)%nat (map fst (lines ax)).
Definition right_plot (dash : bool) (ax : axes) (q : plot) : Prop :=
  if pshow q then exists ids ls, plines q = Some ids /\ depicts dash (px q) (py q) (plabel q) ls /\ Forall2 (fun i l => In (i, l) (lines ax)) ids ls
  else plines q = None.
Definition right_lines (dash : bool) (ax : axes) (l : list plot) : Prop :=
  NoDup (map fst (lines ax)) /\ Permutation (map fst (lines ax)) (flat_map owned l) /\ (forall q, In q l -> right_plot dash ax q) /\ fresh ax.
Lemma map_combine {A B} (a : list A) (b : list B) : length a = length b -> map fst (combine a b) = a.
Proof. revert b. induction a as [|x a IH]; intros [|y b] H; cbn in *; try lia; [reflexivity|]. rewrite IH by lia. reflexivity. Qed.
Lemma forall2_impl {A B} (P Q : A -> B -> Prop) a b : (forall x y, P x y -> Q x y) -> Forall2 P a b -> Forall2 Q a b.
Proof. intros H. induction 1; constructor; auto. Qed.
Lemma in_combined {A B} (a : list A) (b : list B) l : length a = length b -> Forall2 (fun i x => In (i, x) (l ++ combine a b)) a b.
Proof.
  revert b l. induction a as [|x a IH]; intros [|y b] l H; cbn in *; try lia; constructor; [apply in_or_app; right; left; reflexivity|].
  eapply forall2_impl; [|apply (IH b (l ++ [(x, y)])); lia]. cbn beta. intros i z I. rewrite <- app_assoc in I. exact I.
Qed.
Lemma adds_right dash ax ax' ids ls l q' : right_lines dash ax l -> adds ax ax' ids ls -> depicts dash (px q') (py q') (plabel q') ls -> pshow q' = true -> plines q' = Some ids ->
  forall l', (forall z, In z l' -> In z l \/ z = q') -> Permutation (flat_map owned l') (flat_map owned l ++ ids) -> right_lines dash ax' l'.
Proof.
  intros (ND & PE & RI & FR) (A & B & C) D PS PL l' IL PF.
  assert (LE : length ids = length ls) by (rewrite B, seq_length; reflexivity).
  assert (K : map fst (lines ax') = map fst (lines ax) ++ ids) by (rewrite A, map_app, map_combine by exact LE; reflexivity).
  split; [|split; [|split]].
  - rewrite K. apply nodup_two; [exact ND|rewrite B; apply seq_NoDup|]. intros i I J. unfold fresh in FR. rewrite Forall_forall in FR. specialize (FR _ I). rewrite B in J. apply in_seq in J. lia.
  - rewrite K, PF. apply Permutation_app_tail, PE.
  - intros z I. destruct (IL z I) as [Z| ->].
    + specialize (RI z Z). unfold right_plot in *. destruct (pshow z); [|exact RI]. destruct RI as (i & k & X & Y & W). exists i, k. split; [exact X|]. split; [exact Y|].
      eapply forall2_impl; [|exact W]. cbn beta. intros ? ? Q. rewrite A. apply in_or_app. left. exact Q.
    + unfold right_plot. rewrite PS. exists ids, ls. split; [exact PL|]. split; [exact D|]. rewrite A. apply in_combined, LE.
  - unfold fresh. rewrite K, C, Forall_app. split; [eapply Forall_impl; [|exact FR]; cbn beta; intros; lia|].
    rewrite B. apply Forall_forall. intros i I. apply in_seq in I. lia.
Qed.

Lemma remove_one i l l' : remove_line i l = Some l' -> exists u ln v, l = u ++ (i, ln) :: v /\ l' = u ++ v.
Proof.
  revert l'. induction l as [|[k ln] l IH]; intros l'; cbn [remove_line]; [discriminate|]. destruct (Nat.eqb_spec k i) as [->|N].
  - intros H. injection H as <-. exists [], ln, l. auto.
  - destruct (remove_line i l) as [r|]; [|discriminate]. intros H. injection H as <-. destruct (IH r eq_refl) as (u & z & v & -> & ->). exists ((k, ln) :: u), z, v. auto.
Qed.
Lemma remove_right ids : forall ax ax', remove_lines ids ax = (ax', Ok tt) -> Permutation (map fst (lines ax)) (ids ++ map fst (lines ax')) /\ created ax' = created ax
  /\ (forall e, In e (lines ax) -> ~ In (fst e) ids -> In e (lines ax')).
Proof.
  induction ids as [|i ids IH]; intros ax ax'; cbn [remove_lines].
  - intros H. injection H as <-. repeat split; auto.
  - destruct (remove_line i (lines ax)) as [l|] eqn:E; [|discriminate]. intros H. apply IH in H. cbn [lines created] in H. destruct H as (P & C & K).
    apply remove_one in E. destruct E as (u & ln & v & E & ->). rewrite E. split; [|split; [exact C|]].
    + rewrite map_app in *. cbn [map fst app]. rewrite <- P. symmetry. apply Permutation_middle.
    + intros e I N. apply K; [|intros X; apply N; right; exact X]. apply in_app_or in I. apply in_or_app. destruct I as [I|[<-|I]]; [left; exact I|exfalso; apply N; left; reflexivity|right; exact I].
Qed.
Lemma remove_some ids : forall ax rest, NoDup (map fst (lines ax)) -> Permutation (map fst (lines ax)) (ids ++ rest) -> exists ax', remove_lines ids ax = (ax', Ok tt).
Proof.
  induction ids as [|i ids IH]; intros ax rest N P; cbn [remove_lines]; [eauto|].
  assert (I : In i (map fst (lines ax))) by (eapply Permutation_in; [symmetry; exact P|left; reflexivity]).
  assert (R : exists l, remove_line i (lines ax) = Some l).
  { clear -I. induction (lines ax) as [|[k ln] l IH]; cbn in *; [destruct I|]. destruct (Nat.eqb_spec k i) as [E|E]; [eauto|]. destruct I as [I|I]; [congruence|]. destruct (IH I) as [r ->]. cbn. eauto. }
  destruct R as [l R]. rewrite R. apply remove_one in R. destruct R as (u & ln & v & E & ->). rewrite E in N, P. rewrite map_app in N, P. cbn [map fst app] in N, P.
  apply (IH _ rest); cbn [lines]; rewrite map_app.
  - eapply NoDup_remove_1, N.
  - apply (Permutation_cons_inv (a := i)). rewrite <- P. apply Permutation_middle.
Qed.
Lemma replace_split {A} i (q q' : A) l : nth_error l i = Some q -> exists u v, l = u ++ q :: v /\ replace i q' l = u ++ q' :: v.
Proof.
  revert i. induction l as [|a l IH]; intros [|i] H; cbn in *; [discriminate|discriminate| |].
  - injection H as ->. exists [], l. auto.
  - destruct (IH i H) as (u & v & -> & ->). exists (a :: u), v. auto.
Qed.
Lemma flat_middle {A B} (f : A -> list B) u q v : Permutation (flat_map f (u ++ q :: v)) (f q ++ flat_map f (u ++ v)).
Proof. rewrite !flat_map_app. cbn [flat_map]. rewrite !app_assoc. apply Permutation_app_tail, Permutation_app_comm. Qed.

Definition inv (p : plotter) : Prop := right_lines (plot_dashed p) (canvas p) (plots p).
Lemma inv_update p : inv p -> inv (fst (updatePlotSelector p)).
Proof. destruct (update_keeps p) as (_ & B & C & D & _). unfold inv. rewrite B, C, D. auto. Qed.
Lemma inv_snoc_hidden dash ax l q : right_lines dash ax l -> pshow q = false -> plines q = None -> right_lines dash ax (l ++ [q]).
Proof.
  intros (A & B & C & D) PS PL. split; [exact A|]. split; [rewrite flat_map_app; cbn [flat_map]; unfold owned at 2; rewrite PL, !app_nil_r; exact B|].
  split; [|exact D]. intros z I. apply in_app_or in I. destruct I as [I|[<-|[]]]; [apply C, I|]. unfold right_plot. rewrite PS. exact PL.
Qed.
Lemma inv_data p x y show lab c p' : inv p -> provideData p x y show lab c = (p', Ok tt) -> inv p'.
Proof.
  intros H E. unfold provideData in E. destruct show.
  - destruct (draw (plot_dashed p) (canvas p) x y lab) as [ax [ids|e]] eqn:D; cbn [bind] in E; [|discriminate].
    apply draw_adds in D. destruct D as (ls & D & A).
    assert (G : forall p1, plots p1 = plots p -> plot_dashed p1 = plot_dashed p -> canvas p1 = ax -> forall d, inv (with_plots p1 (plots p1 ++ [PlotOf (Some ids) x y true lab d]))).
    { intros p1 X Y Z d. unfold inv. cbn [with_plots plots plot_dashed canvas]. rewrite X, Y, Z. eapply adds_right with (q' := PlotOf (Some ids) x y true lab d); [exact H|exact A|exact D|reflexivity|reflexivity| |].
      - intros z I. apply in_app_or in I. destruct I as [I|[<-|[]]]; auto.
      - rewrite flat_map_app. cbn. rewrite app_nil_r. reflexivity. }
    destruct c as [d|]; [specialize (G (with_canvas p ax) eq_refl eq_refl eq_refl d)|specialize (G (fst (new_dict (with_canvas p ax) [])) eq_refl eq_refl eq_refl (length (heap p)))];
      apply inv_update in G; cbn [fst new_dict] in *; [rewrite E in G; exact G|]. cbn [with_canvas heap] in *. rewrite E in G. exact G.
  - assert (G : forall p1, plots p1 = plots p -> plot_dashed p1 = plot_dashed p -> canvas p1 = canvas p -> forall d, inv (with_plots p1 (plots p1 ++ [PlotOf None x y false lab d]))).
    { intros p1 X Y Z d. unfold inv. cbn [with_plots plots plot_dashed canvas]. rewrite X, Y, Z. apply inv_snoc_hidden; [exact H|reflexivity|reflexivity]. }
    destruct c as [d|]; [specialize (G p eq_refl eq_refl eq_refl d)|specialize (G (fst (new_dict p [])) eq_refl eq_refl eq_refl (length (heap p)))];
      apply inv_update in G; cbn [fst new_dict] in *; rewrite E in G; exact G.
Qed.
Lemma inv_toggle p i p' : inv p -> toggleVisibility p i = (p', Ok tt) -> inv p'.
Proof.
  intros H E. unfold toggleVisibility in E. destruct (nth_error (plots p) i) as [q|] eqn:Q; [|discriminate]. destruct (pshow q) eqn:PS; cbn [negb] in E.
  - destruct (plines q) as [ids|] eqn:PL; [|discriminate]. destruct (remove_lines ids (canvas p)) as [ax [[]|e]] eqn:R; [|discriminate].
    destruct (replace_split i q (PlotOf None (px q) (py q) false (plabel q) (pdict q)) (plots p) Q) as (u & v & U & V).
    assert (G : inv (with_plots (with_canvas p ax) (replace i (PlotOf None (px q) (py q) false (plabel q) (pdict q)) (plots (with_canvas p ax))))).
    { apply remove_right in R. destruct R as (RP & RC & RK). destruct H as (A & B & C & D). unfold inv. cbn [with_plots with_canvas plots plot_dashed canvas]. rewrite V.
      assert (B' : Permutation (ids ++ map fst (lines ax)) (ids ++ flat_map owned (u ++ v))).
      { rewrite <- RP, B, U, flat_middle. unfold owned at 1. rewrite PL. reflexivity. }
      apply Permutation_app_inv_l in B'. rewrite RP in A. assert (A2 : NoDup (map fst (lines ax))) by (clear -A; induction ids as [|b ids IH]; [exact A|]; inversion A; subst; apply IH; assumption).
      split; [exact A2|]. split; [rewrite B', flat_middle; reflexivity|]. split.
      - intros z I. assert (I' : In z (u ++ v) \/ z = PlotOf None (px q) (py q) false (plabel q) (pdict q)).
        { apply in_app_or in I. destruct I as [I|[<-|I]]; [left; apply in_or_app; auto|right; reflexivity|left; apply in_or_app; auto]. }
        destruct I' as [I'| ->]; [|reflexivity]. assert (J : In z (plots p)) by (rewrite U; apply in_app_or in I'; apply in_or_app; destruct I'; [left; assumption|right; right; assumption]).
        specialize (C z J). unfold right_plot in *. destruct (pshow z); [|exact C]. destruct C as (k & ls & X & Y & Z). exists k, ls. split; [exact X|]. split; [exact Y|].
        assert (S : forall a, In a k -> In a (flat_map owned (u ++ v))) by (intros a Ia; apply in_flat_map; exists z; split; [exact I'|unfold owned; rewrite X; exact Ia]).
        assert (T : forall a, In a k -> ~ In a ids).
        { intros a Ia Ja. apply S in Ia. eapply Permutation_in in Ia; [|symmetry; exact B']. clear -A Ia Ja. induction ids as [|b ids IH]; [destruct Ja|]. cbn in A. inversion A as [|? ? N M]; subst.
          destruct Ja as [->|Ja]; [apply N, in_or_app; right; exact Ia|exact (IH M Ja)]. }
        clear -Z T RK. induction Z as [|a b k ls I Z IH]; constructor; [apply RK; [exact I|apply T; left; reflexivity]|apply IH; intros c Ic; apply T; right; exact Ic].
      - unfold fresh in *. rewrite RC. rewrite Forall_forall in *. intros a Ia. apply D. eapply Permutation_in; [symmetry; exact RP|]. apply in_or_app. right. exact Ia. }
    apply inv_update in G. rewrite E in G. exact G.
  - destruct (draw (plot_dashed p) (canvas p) (px q) (py q) (plabel q)) as [ax [ids|e]] eqn:D; [|discriminate]. apply draw_adds in D. destruct D as (ls & D & A).
    destruct (replace_split i q (PlotOf (Some ids) (px q) (py q) true (plabel q) (pdict q)) (plots p) Q) as (u & v & U & V).
    assert (PL : plines q = None). { destruct H as (_ & _ & C & _). assert (I : In q (plots p)) by (eapply nth_error_In, Q). specialize (C q I). unfold right_plot in C. rewrite PS in C. exact C. }
    assert (G : inv (with_plots (with_canvas p ax) (replace i (PlotOf (Some ids) (px q) (py q) true (plabel q) (pdict q)) (plots (with_canvas p ax))))).
    { unfold inv. cbn [with_plots with_canvas plots plot_dashed canvas]. rewrite V.
      eapply adds_right with (q' := PlotOf (Some ids) (px q) (py q) true (plabel q) (pdict q)); [exact H|exact A|exact D|reflexivity|reflexivity| |].
      - rewrite U. intros z I. apply in_app_or in I. destruct I as [I|[<-|I]]; [left; apply in_or_app; auto|right; reflexivity|left; apply in_or_app; right; right; exact I].
      - rewrite U, !flat_middle. unfold owned at 1 3. cbn [plines]. rewrite PL. cbn [app]. apply Permutation_app_comm. }
    apply inv_update in G. rewrite E in G. exact G.
Qed.
Lemma inv_loop dash : forall l ax done ax' l' , right_lines dash ax done -> replot_loop dash ax l = (ax', l', Ok tt) -> right_lines dash ax' (done ++ l')
  /\ map (fun q => (px q, py q, pshow q, plabel q, pdict q)) l' = map (fun q => (px q, py q, pshow q, plabel q, pdict q)) l.
Proof.
  induction l as [|q l IH]; intros ax done ax' l' H; cbn [replot_loop].
  - intros E. injection E as <- <-. rewrite app_nil_r. split; [exact H|reflexivity].
  - destruct (pshow q) eqn:PS.
    + destruct (draw dash ax (px q) (py q) (plabel q)) as [ax1 [ids|e]] eqn:D; cbn [bind]; [|discriminate]. destruct (replot_loop dash ax1 l) as [[ax2 l2] r] eqn:R. intros E. injection E as <- <- ->.
      apply draw_adds in D. destruct D as (ls & D & A).
      eapply (IH ax1 (done ++ [PlotOf (Some ids) (px q) (py q) true (plabel q) (pdict q)])) in R.
      * rewrite <- app_assoc in R. cbn [app] in R. destruct R as [R1 R2]. split; [exact R1|]. cbn [map px py pshow plabel pdict]. rewrite R2, PS. reflexivity.
      * eapply adds_right with (q' := PlotOf (Some ids) (px q) (py q) true (plabel q) (pdict q)); [exact H|exact A|exact D|reflexivity|reflexivity| |].
        -- intros z I. apply in_app_or in I. destruct I as [I|[<-|[]]]; auto.
        -- rewrite flat_map_app. cbn. rewrite app_nil_r. reflexivity.
    + destruct (replot_loop dash ax l) as [[ax2 l2] r] eqn:R. intros E. injection E as <- <- ->.
      eapply (IH ax (done ++ [PlotOf None (px q) (py q) false (plabel q) (pdict q)])) in R.
      * rewrite <- app_assoc in R. cbn [app] in R. destruct R as [R1 R2]. split; [exact R1|]. cbn [map px py pshow plabel pdict]. rewrite R2, PS. reflexivity.
      * apply inv_snoc_hidden; [exact H|reflexivity|reflexivity].
Qed.
Lemma inv_dash p b p' : setPlotDashedIfNegative p b = (p', Ok tt) -> inv p'.
Proof.
  unfold setPlotDashedIfNegative, replot. cbn [plot_dashed canvas plots]. destruct (replot_loop b (Axes [] (created (canvas p)) 0) (plots p)) as [[ax l] r] eqn:R. intros E. injection E as <- ->.
  apply (inv_loop b (plots p) _ [] ax l) in R; [exact (proj1 R)|]. repeat split; cbn; try constructor. intros q [].
Qed.
Lemma canvas_inv p : inv p -> canvas_right p.
Proof. intros (A & B & C & _). split; [exact A|]. split; [exact B|exact C]. Qed.

Section Calls.
Variables (float : string -> option Qc) (fs : filesystem) (listdir : string -> option (list string)).
Lemma inv_file p path d p' : inv p -> provideDataFile float fs p path d = (p', Ok tt) -> inv p'.
Proof.
  intros H. unfold provideDataFile. destruct (openPossiblyCompressedFile fs path) as [t|[|f]]; [|discriminate|discriminate].
  destruct (read_lines float (keep_lines t) (dict_at p d) [] []) as [e [[x y]|r]]; [|discriminate]. apply inv_data. exact H.
Qed.
Lemma inv_names directory path c recursive : (forall p sub p', inv p -> directory p sub = Some (p', Ok tt) -> inv p') ->
  forall names p p', inv p -> names_loop float fs directory path c recursive p names = Some (p', Ok tt) -> inv p'.
Proof.
  intros D. induction names as [|n names IH]; intros p p' H; cbn [names_loop]; [intros E; injection E as <-; exact H|].
  destruct (isfile fs (path ++ "/" ++ n)%string).
  - change (let (p0, d) := new_dict p c in Some (provideDataFile float fs p0 (path ++ "/" ++ n)%string d))
      with (Some (provideDataFile float fs (fst (new_dict p c)) (path ++ "/" ++ n)%string (length (heap p)))).
    destruct (provideDataFile float fs (fst (new_dict p c)) (path ++ "/" ++ n)%string (length (heap p))) as [q [[]|e]] eqn:E; [|discriminate].
    apply IH. eapply inv_file; [|exact E]. exact H.
  - destruct recursive; [|apply IH, H]. destruct (directory p (path ++ "/" ++ n)%string) as [[q [[]|e]]|] eqn:E; [|discriminate|discriminate]. apply IH. eapply D; [exact H|exact E].
Qed.
Lemma inv_directory c recursive fuel : forall p path p', inv p -> provideDataDirectory float fs listdir fuel c recursive p path = Some (p', Ok tt) -> inv p'.
Proof.
  induction fuel as [|fuel IH]; intros p path p' H; cbn [provideDataDirectory]; [discriminate|]. destruct (listdir path); [|discriminate]. apply inv_names; [exact IH|exact H].
Qed.
Lemma reachable_inv p : reachable float fs listdir p -> inv p.
Proof.
  induction 1 as [|p d _ IH|p x y show lab c p' _ IH E|p path d p' _ IH E|p fuel c recursive path p' _ IH E|p s _ IH|p b p' _ _ E|p l p' _ IH E|p l _ IH|p c a p' _ IH E|p i p' _ IH E].
  - repeat split; cbn; try constructor. intros q [].
  - exact IH.
  - eapply inv_data; eassumption.
  - eapply inv_file; eassumption.
  - eapply inv_directory; eassumption.
  - exact IH.
  - eapply inv_dash, E.
  - unfold hideCharacteristics in E. assert (G : inv (Plotter (heap p) (plots p) (canvas p) (plot_dashed p) (y_log p) (hidden p ++ l) (order p) (selection p))) by exact IH.
    apply inv_update in G. rewrite E in G. exact G.
  - exact IH.
  - unfold setSortingCharacteristic in E. destruct (column_of c (columns (selection p))); [|discriminate]. unfold sortListItems in E. injection E as <- _. exact IH.
  - eapply inv_toggle; eassumption.
Qed.
End Calls.
