From Coq Require Import String Ascii Sorting Lia.
From Verif Require Import QcBase QcLra PyBase StrBase VtfModel VtfPyModel VtfTextProof VtfPyProof MeasModel MeasSpec MeasProof MsdSpec EmpModel EmpSpec.
Open Scope string_scope.
Open Scope list_scope.
Open Scope Qc_scope.

Lemma append_nil_r s : (s ++ "")%string = s.
Proof. induction s as [|a s IH]; cbn; congruence. Qed.
Lemma nodup_snoc A (l : list A) x : NoDup l -> ~ In x l -> NoDup (l ++ [x]).
Proof.
  intros H N. apply NoDup_rev in H. rewrite <- (rev_involutive (l ++ [x])). apply NoDup_rev. rewrite rev_app_distr. cbn. constructor; [|exact H].
  rewrite <- in_rev. exact N.
Qed.
Lemma blank_ws a : blank a <-> is_ws a = true.
Proof.
  split.
  - intros [->|[->|[->|[->|[->| ->]]]]]; reflexivity.
  - unfold is_ws, blank. destruct a as [[] [] [] [] [] [] [] []]; cbn; intros H; try discriminate H; auto 10.
Qed.
Lemma blank_dec_false a : ~ blank a <-> is_ws a = false.
Proof. rewrite blank_ws. destruct (is_ws a); split; intros; try congruence; exfalso; auto. Qed.
Lemma every_app P s t : every_char P (s ++ t)%string <-> every_char P s /\ every_char P t.
Proof. induction s as [|a s IH]; cbn; tauto. Qed.
Lemma wordy_every w : every_char (fun a => ~ blank a) w <-> wordy is_ws w = true.
Proof.
  unfold wordy. induction w as [|a w IH]; cbn [every_char all_chars]; [tauto|].
  rewrite blank_dec_false, IH. destruct (is_ws a); cbn; split; intros H; try discriminate H; try (destruct H; discriminate); tauto.
Qed.
Lemma words_blank_app s t : every_char blank s -> words is_ws (s ++ t)%string = words is_ws t.
Proof.
  induction s as [|a s IH]; intros H; [reflexivity|]. destruct H as [H1 H2]. apply blank_ws in H1.
  cbn [append words]. rewrite H1. apply IH, H2.
Qed.
Lemma words_blank s : every_char blank s -> words is_ws s = [].
Proof. intros H. rewrite <- (append_nil_r s). apply (words_blank_app s "" H). Qed.
Lemma words_word w s : word w -> every_char blank s -> s <> "" -> forall t, words is_ws (w ++ s ++ t)%string = w :: words is_ws t.
Proof.
  intros [N H] Hs Ns t. destruct s as [|c s]; [congruence|]. destruct Hs as [Hc Hs]. apply blank_ws in Hc.
  cbn [append]. rewrite words_cons; auto; [|apply wordy_every, H]. f_equal. apply words_blank_app, Hs.
Qed.
Lemma words_last w s : word w -> every_char blank s -> words is_ws (w ++ s)%string = [w].
Proof.
  intros W Hs. destruct s as [|c s]; [rewrite append_nil_r; destruct W; apply words_one; [assumption|apply wordy_every; assumption]|].
  rewrite <- (append_nil_r (String c s)). rewrite (words_word w (String c s) W Hs); [reflexivity|discriminate].
Qed.
(** The first word. *)
Lemma words_first s : forall w r, words is_ws s = w :: r ->
  exists s0 t, s = (s0 ++ w ++ t)%string /\ every_char blank s0 /\ word w /\ words is_ws t = r
  /\ (t = "" \/ exists c t', t = String c t' /\ blank c).
Proof.
  induction s as [|a s IH]; intros w r H; [discriminate|]. cbn [words] in H.
  destruct (is_ws a) eqn:Ea.
  - destruct (IH _ _ H) as (s0 & t & -> & B & W & E & T). exists (String a s0), t.
    split; [reflexivity|]. split; [split; [apply blank_ws, Ea|exact B]|]. auto.
  - assert (Na : ~ blank a) by (apply blank_dec_false, Ea). destruct s as [|b s].
    + injection H as <- <-. exists "", "". split; [reflexivity|]. split; [exact Logic.I|].
      split; [split; [discriminate|split; [exact Na|exact Logic.I]]|]. auto.
    + destruct (is_ws b) eqn:Eb.
      * injection H as <- <-. exists "", (String b s). split; [reflexivity|]. split; [exact Logic.I|].
        split; [split; [discriminate|split; [exact Na|exact Logic.I]]|]. split; [reflexivity|].
        right. exists b, s. split; [reflexivity|apply blank_ws, Eb].
      * destruct (words is_ws (String b s)) as [|h q] eqn:E.
        { cbn [words] in E. rewrite Eb in E. exfalso. destruct s as [|c s]; [discriminate|].
          destruct (is_ws c); [discriminate|]. destruct (words is_ws (String c s)); discriminate. }
        injection H as <- <-. destruct (IH h q eq_refl) as (s0 & t & X & B & W & F & G).
        destruct s0 as [|c s0].
        { exists "", t. cbn [append] in *. rewrite X. split; [reflexivity|]. split; [exact Logic.I|].
          split; [|auto]. destruct W as [W1 W2]. split; [discriminate|split; assumption]. }
        { exfalso. cbn [append] in X. injection X as <- _. destruct B as [B _]. apply blank_ws in B. congruence. }
Qed.
Lemma words_none s : words is_ws s = [] -> every_char blank s.
Proof.
  induction s as [|a s IH]; intros H; [exact Logic.I|]. cbn [words] in H. destruct (is_ws a) eqn:Ea.
  - split; [apply blank_ws, Ea|apply IH, H].
  - exfalso. destruct s as [|b s]; [discriminate|]. destruct (is_ws b); [discriminate|]. destruct (words is_ws (String b s)); discriminate.
Qed.
Lemma columns_words line a b : two_columns line a b <-> words is_ws line = [a; b].
Proof.
  split.
  - intros (s0 & s1 & s2 & -> & B0 & B1 & B2 & N & Wa & Wb). rewrite words_blank_app by exact B0.
    rewrite words_word by assumption. rewrite words_last by assumption. reflexivity.
  - intros H. destruct (words_first _ _ _ H) as (s0 & t & -> & B0 & Wa & E & T).
    destruct T as [->|(c & t' & -> & Bc)]; [discriminate|].
    destruct (words_first _ _ _ E) as (s1 & t2 & X & B1 & Wb & E2 & _). apply words_none in E2.
    exists s0, s1, t2. rewrite X. repeat (split; [try reflexivity; assumption|]).
    split; [|split; assumption]. intros ->. cbn [append] in X.
    destruct Wb as [Nb Wb]. destruct b as [|d b]; [congruence|]. cbn [append] in X. injection X as -> _. destruct Wb as [Wb _]. auto.
Qed.

Section Read.
Variable float : string -> option Qc.
Lemma line_has_words l p : line_has float l p <-> exists a b, words is_ws l = [a; b] /\ float a = Some (fst p) /\ float b = Some (snd p).
Proof. unfold line_has. split; intros (a & b & H & K); exists a, b; (split; [apply columns_words, H|exact K]). Qed.
Lemma lists_total ls : exists ps, lists float ls ps.
Proof.
  induction ls as [|l ls [ps IH]]; [exists []; constructor|].
  assert (D : (exists p, line_has float l p) \/ forall p, ~ line_has float l p).
  { destruct (words is_ws l) as [|a [|b [|c r]]] eqn:E; try (right; intros p H; apply line_has_words in H; destruct H as (? & ? & X & _); rewrite E in X; discriminate X).
    destruct (float a) as [x|] eqn:Fa; [|right; intros p H; apply line_has_words in H; destruct H as (? & ? & X & Y & _); rewrite E in X; injection X as <- <-; congruence].
    destruct (float b) as [y|] eqn:Fb; [|right; intros p H; apply line_has_words in H; destruct H as (? & ? & X & _ & Y); rewrite E in X; injection X as <- <-; congruence].
    left. exists (x, y). apply line_has_words. exists a, b. auto. }
  destruct D as [[p H]|H]; [exists (p :: ps)|exists ps]; constructor; assumption.
Qed.
Lemma has_key_in data x : has_key data x = true <-> In x (map fst data).
Proof.
  unfold has_key. rewrite existsb_exists, in_map_iff. split.
  - intros (p & I & E). apply qeqb_spec in E. exists p. auto.
  - intros (p & E & I). exists p. split; [exact I|]. apply qeqb_spec, E.
Qed.
Lemma at_least_skip m p : at_least m p = negb (match m with Some m => qltb (fst p) m | None => false end).
Proof.
  destruct m as [m|]; [|reflexivity]. cbn. destruct (Qclt_le_dec (fst p) m) as [H|H].
  - apply qltb_spec in H. rewrite H. reflexivity.
  - apply qltb_false in H. rewrite H. reflexivity.
Qed.
Lemma pairs_loop_ok m ls ps : lists float ls ps -> forall data, NoDup (map fst data) -> (forall p, In p data -> at_least m p = true) ->
  (NoDup (map fst (data ++ filter (at_least m) ps)) -> pairs_loop float m ls data = Ok (data ++ filter (at_least m) ps)) /\
  (~ NoDup (map fst (data ++ filter (at_least m) ps)) -> pairs_loop float m ls data = Err ValueError).
Proof.
  induction 1 as [|l ls p ps H L IH|l ls ps H L IH]; intros data ND G.
  - cbn [filter pairs_loop]. rewrite app_nil_r. split; [reflexivity|contradiction].
  - apply line_has_words in H. destruct H as (a & b & E & Fa & Fb). cbn [pairs_loop filter]. rewrite E, Fa, Fb.
    destruct p as [x y]. cbn [fst snd] in *. pose proof (at_least_skip m (x, y)) as SK. cbn [fst] in SK. rewrite SK.
    destruct (has_key data x) eqn:K.
    + apply has_key_in in K. apply in_map_iff in K. destruct K as ((x', y') & <- & K). cbn [fst] in *.
      pose proof (G _ K) as A. rewrite at_least_skip in A. cbn [fst] in A. rewrite A.
      split; [|reflexivity]. intros D. exfalso. rewrite map_app in D. cbn [map fst] in D. apply NoDup_remove_2 in D. apply D.
      apply in_or_app. left. apply in_map_iff. exists (x', y'). auto.
    + destruct (match m with Some m => qltb x m | None => false end) eqn:M; cbn [negb]; [apply IH; assumption|].
      replace (data ++ (x, y) :: filter (at_least m) ps) with ((data ++ [(x, y)]) ++ filter (at_least m) ps) by (rewrite <- app_assoc; reflexivity).
      apply IH.
      * rewrite map_app. cbn [map fst]. apply nodup_snoc; [exact ND|]. intros I. apply has_key_in in I. congruence.
      * intros p I. apply in_app_or in I. destruct I as [I|[<-|[]]]; [apply G, I|exact SK].
  - assert (E : pairs_loop float m (l :: ls) data = pairs_loop float m ls data).
    { cbn [pairs_loop]. destruct (words is_ws l) as [|a [|b [|c r]]] eqn:W; try reflexivity.
      destruct (float a) as [x|] eqn:Fa; [|reflexivity]. destruct (float b) as [y|] eqn:Fb; [|reflexivity].
      exfalso. apply (H (x, y)). apply line_has_words. exists a, b. auto. }
    rewrite E. apply IH; assumption.
Qed.

Lemma insert_perm p l : Permutation (insert_pair p l) (p :: l).
Proof.
  induction l as [|q l IH]; [reflexivity|]. cbn. destruct (qltb (fst p) (fst q)); [reflexivity|].
  rewrite IH. apply perm_swap.
Qed.
Lemma sort_perm l : Permutation (sort_pairs l) l.
Proof. induction l as [|p l IH]; [reflexivity|]. cbn. rewrite insert_perm, IH. reflexivity. Qed.
Lemma insert_sorted p l : increasing l -> ~ In (fst p) (map fst l) -> increasing (insert_pair p l).
Proof.
  unfold increasing. induction l as [|q l IH]; intros H N; cbn; [repeat constructor|].
  inversion H as [|? ? H1 H2]; subst. destruct (qltb (fst p) (fst q)) eqn:E.
  - apply qltb_spec in E. constructor; [exact H|]. constructor; [exact E|].
    rewrite Forall_forall in *. intros r I. eapply Qclt_trans; [exact E|apply H2, I].
  - apply qltb_false in E. constructor; [apply IH; [exact H1|intros I; apply N; right; exact I]|].
    rewrite Forall_forall in *. intros r I. apply (Permutation_in _ (insert_perm p l)) in I. destruct I as [<-|I]; [|apply H2, I].
    destruct (Qcle_lt_or_eq _ _ E) as [X|X]; [exact X|]. exfalso. apply N. left. exact X.
Qed.
Lemma sort_sorted l : NoDup (map fst l) -> increasing (sort_pairs l).
Proof.
  induction l as [|p l IH]; intros H; [constructor|]. cbn in H |- *. inversion H as [|? ? N D]; subst.
  apply insert_sorted; [apply IH, D|]. intros I. apply N.
  apply (Permutation_in _ (Permutation_map fst (sort_perm l))), I.
Qed.

Lemma one_line_char l : one_line l -> has_char newline l = false.
Proof.
  induction l as [|a l IH]; intros H; [reflexivity|]. destruct H as [H1 H2]. cbn [has_char].
  rewrite (IH H2). destruct (Ascii.eqb_spec a newline) as [->|N]; [exfalso; apply H1; reflexivity|reflexivity].
Qed.
Lemma keep_rest rest : one_line rest -> keep_lines rest = if String.eqb rest "" then [] else [rest].
Proof.
  induction rest as [|a r IH]; intros H; [reflexivity|]. destruct H as [H1 H2]. cbn [keep_lines].
  destruct (Ascii.eqb_spec a newline) as [->|N]; [exfalso; apply H1; reflexivity|]. rewrite (IH H2).
  destruct r; reflexivity.
Qed.
Lemma keep_all ls rest : Forall one_line ls -> one_line rest ->
  keep_lines (text_of_lines ls rest) = map (fun l => (l ++ eol)%string) ls ++ if String.eqb rest "" then [] else [rest].
Proof.
  intros H R. induction H as [|l ls H1 H IH]; [apply keep_rest, R|].
  cbn [text_of_lines fold_right]. fold (text_of_lines ls rest). rewrite keep_cons by (apply one_line_char, H1). rewrite IH. reflexivity.
Qed.
Lemma words_eol l : words is_ws (l ++ eol)%string = words is_ws l.
Proof.
  induction l as [|a l IH]; [reflexivity|]. cbn [append words]. destruct (is_ws a); [exact IH|].
  destruct l as [|b l]; [reflexivity|]. cbn [append] in *. rewrite IH. reflexivity.
Qed.
Lemma has_eol l p : line_has float (l ++ eol)%string p <-> line_has float l p.
Proof. rewrite !line_has_words. rewrite words_eol. reflexivity. Qed.
Lemma lists_app a pa b pb : lists float a pa -> lists float b pb -> lists float (a ++ b) (pa ++ pb).
Proof. induction 1; intros Hb; cbn; [exact Hb| |]; constructor; auto. Qed.
Lemma lists_app_inv a b ps : lists float (a ++ b) ps -> exists pa pb, ps = pa ++ pb /\ lists float a pa /\ lists float b pb.
Proof.
  revert ps. induction a as [|l a IH]; intros ps H; [exists [], ps; repeat split; [constructor|exact H]|].
  cbn in H. inversion H as [|? ? p ps' Hp L|? ? ? Hp L]; subst; destruct (IH _ L) as (pa & pb & -> & A & B).
  - exists (p :: pa), pb. repeat split; [constructor; assumption|exact B].
  - exists pa, pb. repeat split; [constructor; assumption|exact B].
Qed.
Lemma lists_eol ls ps : lists float ls ps -> lists float (map (fun l => (l ++ eol)%string) ls) ps.
Proof.
  induction 1 as [|l ls p ps H L IH|l ls ps H L IH]; cbn; [constructor| |].
  - constructor; [apply has_eol, H|exact IH].
  - apply lists_skip; [|exact IH]. intros p. rewrite has_eol. apply H.
Qed.
Lemma lists_kept ls rest ps : Forall one_line ls -> one_line rest -> lists float (all_lines ls rest) ps ->
  lists float (keep_lines (text_of_lines ls rest)) ps.
Proof.
  intros H R L. rewrite keep_all by assumption. unfold all_lines in L. destruct (String.eqb rest "").
  - rewrite app_nil_r. apply lists_eol, L.
  - apply lists_app_inv in L. destruct L as (pa & pb & -> & A & B). apply lists_app; [apply lists_eol, A|exact B].
Qed.
Lemma read_ok m ls rest ps : Forall one_line ls -> one_line rest -> lists float (all_lines ls rest) ps ->
  (NoDup (map fst (filter (at_least m) ps)) ->
     exists d, read_pairs float m (text_of_lines ls rest) = Ok d /\ Permutation d (filter (at_least m) ps) /\ increasing d) /\
  (~ NoDup (map fst (filter (at_least m) ps)) -> read_pairs float m (text_of_lines ls rest) = Err ValueError).
Proof.
  intros H R L. apply lists_kept in L; [|assumption..].
  destruct (pairs_loop_ok m _ _ L [] (NoDup_nil _)) as [A B]; [intros p []|]. cbn [app] in A, B.
  unfold read_pairs. split; intros N.
  - rewrite A by exact N. cbn [bind]. exists (sort_pairs (filter (at_least m) ps)). split; [reflexivity|].
    split; [apply sort_perm|apply sort_sorted, N].
  - rewrite B by exact N. reflexivity.
Qed.
End Read.

(** Means. *)
Lemma fold_snd l : forall a, fold_left (fun c (p : Qc * Qc) => c + snd p) l a = a + qsum (map snd l).
Proof. induction l as [|p l IH]; intros a; cbn; [ring|]. rewrite IH. ring. Qed.
Lemma fold_prod l : forall a, fold_left (fun c (p : Qc * Qc) => c + fst p * snd p) l a = a + qsum (map (fun p => fst p * snd p) l).
Proof. induction l as [|p l IH]; intros a; cbn; [ring|]. rewrite IH. ring. Qed.
Lemma qsum_perm l l' : Permutation l l' -> qsum l = qsum l'.
Proof. induction 1; cbn; try congruence. ring. Qed.
Lemma sample_mean_ok d : sample_mean d = if qeqb (qsum (map snd d)) 0 then Err ZeroDivisionError else Ok (weighted_mean d).
Proof.
  unfold sample_mean, weighted_mean. rewrite fold_snd, fold_prod. rewrite !Qcplus_0_l. reflexivity.
Qed.
Lemma sample_mean_perm d d' : Permutation d d' -> sample_mean d = sample_mean d'.
Proof.
  intros P. rewrite !sample_mean_ok. unfold weighted_mean.
  rewrite (qsum_perm _ _ (Permutation_map snd P)), (qsum_perm _ _ (Permutation_map (fun p => fst p * snd p) P)). reflexivity.
Qed.

(** Histograms. *)
Lemma in_range_spec low high v : in_range low high v = true <-> low <= v /\ v < high.
Proof.
  unfold in_range. destruct (Qclt_le_dec v low) as [A|A]; [|destruct (Qclt_le_dec v high) as [B|B]]; split; intros H; try discriminate; auto.
  - destruct H as [H _]. exfalso. apply (Qclt_not_le _ _ A H).
  - destruct H as [_ H]. exfalso. apply (Qclt_not_le _ _ H B).
Qed.
Section Bins.
Variables (low high : Qc) (n : nat).
Hypothesis (N : n <> 0%nat) (L : low < high).
Lemma bin_has_spec i v : bin_has low high n i v = true <-> bin_low low high n i <= v /\ v < bin_low low high n (S i).
Proof. unfold bin_has. rewrite andb_true_iff, qleb_spec, qltb_spec. reflexivity. Qed.
Lemma bin_has_trunc i v : low <= v -> (bin_has low high n i v = true <-> trunc ((v - low) / ((high - low) / qn n)) = i).
Proof.
  intros H. pose proof (size_pos N L) as P. set (s := (high - low) / qn n) in *.
  assert (Z : s <> 0) by (intros E; rewrite E in P; apply (Qclt_not_le _ _ P), Qcle_refl).
  assert (X : 0 <= (v - low) / s) by (apply Qclt_div_iff; [exact P|]; clear - H; qlra).
  rewrite (trunc_bin i X), bin_has_spec, !bin_low_step by exact N. fold s.
  rewrite Qclt_div_iff by exact P.
  assert (Y : (v - low) / s < qn (S i) <-> v - low < qn (S i) * s).
  { split; intros G; apply Qcnot_le_lt; intros K.
    - apply (Qclt_not_le _ _ G). apply Qclt_div_iff; assumption.
    - apply (Qclt_not_le _ _ G). apply Qclt_div_iff in K; assumption. }
  rewrite Y. generalize (qn i * s), (qn (S i) * s). intros a b. split; intros [A B]; (split; [clear - A|clear - B]; qlra).
Qed.
Lemma bin_of v : in_range low high v = true -> exists i0, (i0 < n)%nat /\ forall i, bin_has low high n i v = Nat.eqb i i0.
Proof.
  intros H. apply in_range_spec in H. destruct H as [H1 H2].
  exists (trunc ((v - low) / ((high - low) / qn n))). split.
  - destruct (Nat.lt_ge_cases (trunc ((v - low) / ((high - low) / qn n))) n) as [A|A]; [exact A|]. exfalso.
    assert (B : bin_has low high n (trunc ((v - low) / ((high - low) / qn n))) v = true) by (apply bin_has_trunc; [exact H1|reflexivity]).
    apply bin_has_spec in B. destruct B as [B _]. pose proof (bin_low_mono N L A) as M. rewrite (bin_low_n _ _ N) in M.
    apply (Qclt_not_le _ _ H2). eapply Qcle_trans; eassumption.
  - intros i. destruct (bin_has low high n i v) eqn:E.
    + apply bin_has_trunc in E; [|exact H1]. rewrite E. symmetry. apply Nat.eqb_refl.
    + symmetry. apply Nat.eqb_neq. intros ->. assert (F : bin_has low high n (trunc ((v - low) / ((high - low) / qn n))) v = true) by (apply bin_has_trunc; [exact H1|reflexivity]). congruence.
Qed.
Lemma bin_in_range i v : (i < n)%nat -> bin_has low high n i v = true -> in_range low high v = true.
Proof.
  intros Hi H. apply bin_has_spec in H. destruct H as [A B]. apply in_range_spec. split.
  - eapply Qcle_trans; [|exact A]. rewrite <- (bin_low_0 low high N) at 1. apply bin_low_mono; [exact N|exact L|lia].
  - eapply Qclt_le_trans; [exact B|]. rewrite <- (bin_low_n low high N) at 2. apply bin_low_mono; [exact N|exact L|lia].
Qed.
Lemma count_filter i l : (i < n)%nat -> count (bin_has low high n i) (filter (in_range low high) l) = count (bin_has low high n i) l.
Proof.
  intros Hi. unfold count. induction l as [|v l IH]; [reflexivity|]. cbn [filter].
  destruct (bin_has low high n i v) eqn:E.
  - rewrite (bin_in_range i v Hi E). cbn [filter]. rewrite E. cbn [length]. rewrite IH. reflexivity.
  - destruct (in_range low high v); cbn [filter]; rewrite ?E; exact IH.
Qed.
Definition spread_sum (f : nat -> Qc) (l : list Qc) : Qc := qsum (map (fun i => f i * qn (count (bin_has low high n i) l)) (seq 0 n)).
Lemma single f i0 : forall k m, (k <= i0 < k + m)%nat -> qsum (map (fun i => f i * qn (if Nat.eqb i i0 then 1 else 0)) (seq k m)) = f i0.
Proof.
  intros k m. revert k. induction m as [|m IH]; intros k H; [lia|]. cbn [seq map qsum].
  destruct (Nat.eqb_spec k i0) as [->|E].
  - assert (Z : forall j, (i0 < j)%nat -> qsum (map (fun i => f i * qn (if Nat.eqb i i0 then 1 else 0)) (seq j m)) = 0).
    { clear. induction m as [|m IH]; intros j Hj; [reflexivity|]. cbn [seq map qsum].
      destruct (Nat.eqb_spec j i0); [lia|]. rewrite IH by lia. rewrite qn_0. ring. }
    rewrite Z by lia. change (qn 1) with 1. ring.
  - rewrite IH by lia. rewrite qn_0. ring.
Qed.
Lemma spread_cons f v l i0 : (i0 < n)%nat -> (forall i, bin_has low high n i v = Nat.eqb i i0) ->
  spread_sum f (v :: l) = f i0 + spread_sum f l.
Proof.
  intros H B. rewrite <- (single f i0 0 n) by lia. unfold spread_sum.
  assert (E : forall i, count (bin_has low high n i) (v :: l) = ((if Nat.eqb i i0 then 1 else 0) + count (bin_has low high n i) l)%nat).
  { intros i. unfold count. cbn [filter]. rewrite B. destruct (Nat.eqb i i0); reflexivity. }
  induction (seq 0 n) as [|i r IH]; cbn [map qsum]; [ring|]. rewrite IH, E, qn_add. ring.
Qed.
Lemma spread_total l : Forall (fun v => in_range low high v = true) l -> spread_sum (fun _ => 1) l = qn (length l).
Proof.
  induction 1 as [|v l H F IH].
  - unfold spread_sum. cbn. induction (seq 0 n); cbn; [reflexivity|]. rewrite IHl. rewrite qn_0. ring.
  - destruct (bin_of v H) as (i0 & Hi & B). rewrite (spread_cons _ v l i0 Hi B), IH.
    change (length (v :: l)) with (1 + length l)%nat. rewrite qn_add. reflexivity.
Qed.
Lemma spread_close f b l : Forall (fun v => in_range low high v = true) l ->
  (forall i v, (i < n)%nat -> bin_has low high n i v = true -> within b (f i) v) ->
  within (qn (length l) * b) (spread_sum f l) (qsum l).
Proof.
  intros F C. induction F as [|v l H F IH].
  - unfold spread_sum, within. cbn [length qsum]. rewrite qn_0.
    assert (Z : qsum (map (fun i => f i * qn (count (bin_has low high n i) [])) (seq 0 n)) = 0).
    { clear. unfold count. cbn. induction (seq 0 n); cbn; [reflexivity|]. rewrite IHl, qn_0. ring. }
    rewrite Z. split; qlra.
  - destruct (bin_of v H) as (i0 & Hi & B). rewrite (spread_cons _ v l i0 Hi B).
    assert (X : within b (f i0) v) by (apply C; [exact Hi|rewrite B; apply Nat.eqb_refl]).
    change (length (v :: l)) with (1 + length l)%nat. rewrite qn_add. change (qn 1) with 1. cbn [qsum].
    unfold within in *. replace ((1 + qn (length l)) * b) with (b + qn (length l) * b) by ring.
    revert X IH. generalize (qn (length l) * b), (spread_sum f l), (f i0), (qsum l). intros x1 x2 x3 x4 X IH. clear - X IH. destruct X, IH. split; qlra.
Qed.
End Bins.

Section Saved.
Variables (show : Qc -> string) (float : string -> option Qc) (rd : Qc -> Qc).
Hypothesis P : prints_as show float rd.
Hypothesis H0 : float "#overflows" = None.
Lemma space_word w : w <> "" -> VtfSpec.no_space w = true -> word w.
Proof. intros W H. split; [exact W|]. apply wordy_every, H. Qed.
Lemma space_line w : VtfSpec.no_space w = true -> one_line w.
Proof.
  intros H. assert (X : every_char (fun a => ~ blank a) w) by (apply wordy_every; exact H). clear H.
  induction w as [|a w IH]; [exact Logic.I|]. destruct X as [X1 X2]. split; [|apply IH, X2].
  intros ->. apply X1. unfold blank. auto.
Qed.
Lemma one_line_app a b : one_line (a ++ b)%string <-> one_line a /\ one_line b.
Proof. apply every_app. Qed.
Lemma id_space m : VtfSpec.no_space (str_of_Z (Z.of_nat m)) = true.
Proof. apply (plain_ws (str_of_Z (Z.of_nat m))), id_plain. lia. Qed.
Lemma text_lines h bp : hist_text show h bp = text_of_lines (hist_lines show h bp) "".
Proof. reflexivity. Qed.
Lemma hist_one_line h bp : Forall one_line (hist_lines show h bp).
Proof.
  unfold hist_lines, hist_save. constructor; [|constructor].
  - apply one_line_app. split; [cbn; repeat split; discriminate|]. apply space_line, id_space.
  - apply one_line_app. split; [cbn; repeat split; discriminate|]. apply space_line, id_space.
  - apply Forall_map, Forall_forall. intros p _. unfold hist_line. apply one_line_app. destruct (P (fst p)) as (_ & _ & A). destruct (P (snd p)) as (_ & _ & B).
    split; [apply space_line, A|]. split; [discriminate|apply space_line, B].
Qed.
Lemma line_pair p : line_has float (hist_line show p) (rd (fst p), rd (snd p)).
Proof.
  destruct (P (fst p)) as (A1 & A2 & A3). destruct (P (snd p)) as (B1 & B2 & B3).
  exists (show (fst p)), (show (snd p)). split; [|auto].
  exists "", (String "009" ""), "". unfold hist_line. cbn [append]. rewrite append_nil_r. split; [reflexivity|].
  cbn [every_char]. split; [exact Logic.I|]. split; [split; [unfold blank; auto|exact Logic.I]|]. split; [exact Logic.I|]. split; [discriminate|].
  split; apply space_word; assumption.
Qed.
Lemma hist_lists h bp g : hist_save h bp = Ok g -> lists float (hist_lines show h bp) (map (fun p => (rd (fst p), rd (snd p))) g).
Proof.
  intros E. unfold hist_lines. rewrite E. apply lists_skip; [|apply lists_skip].
  - intros p H. apply line_has_words in H. destruct H as (a & b & W & _).
    assert (X : words is_ws ("#underflows = " ++ str_of_Z (Z.of_nat (h_under h)))%string = ["#underflows"; "="; str_of_Z (Z.of_nat (h_under h))]).
    { change ("#underflows = " ++ str_of_Z (Z.of_nat (h_under h)))%string with ("#underflows" ++ String " " ("=" ++ String " " (str_of_Z (Z.of_nat (h_under h)))))%string.
      rewrite words_cons by (discriminate || reflexivity). rewrite words_cons by (discriminate || reflexivity).
      rewrite words_one; [reflexivity|apply str_of_Z_nonempty|apply id_space]. }
    rewrite X in W. discriminate W.
  - intros p H. apply line_has_words in H. destruct H as (a & b & W & Fa & _).
    assert (X : words is_ws ("#overflows =" ++ str_of_Z (Z.of_nat (h_over h)))%string = ["#overflows"; "=" ++ str_of_Z (Z.of_nat (h_over h))]%string).
    { change ("#overflows =" ++ str_of_Z (Z.of_nat (h_over h)))%string with ("#overflows" ++ String " " ("=" ++ str_of_Z (Z.of_nat (h_over h))))%string.
      rewrite words_cons by (discriminate || reflexivity).
      rewrite words_one; [reflexivity|discriminate|]. cbn. apply id_space. }
    rewrite X in W. injection W as <- _. congruence.
  - clear E. induction g as [|p g IH]; cbn [map]; [constructor|]. apply lists_take; [apply line_pair|exact IH].
Qed.

Variables (low high e : Qc) (n : nat) (l : list Qc) (h : hist).
Hypothesis (N : n <> 0%nat) (L : low < high) (F : hist_fill_all (hist_new low high n) l = Ok h).
Hypothesis (K : forall k, rd (qn k) = qn k).
Hypothesis (D : forall i j, (i < n)%nat -> (j < n)%nat -> rd (bin_middle low high n i) = rd (bin_middle low high n j) -> i = j).
Definition half : Qc := 1 / (1 + 1).
Definition hist_content : list (Qc * Qc) := map (fun i => (rd (bin_middle low high n i), qn (count (bin_has low high n i) l))) (seq 0 n).
Lemma saved_points : exists g, hist_save h half = Ok g /\ map (fun p => (rd (fst p), rd (snd p))) g = hist_content.
Proof.
  destruct (@hist_run low high n l N L) as (h' & E & I1 & I2 & I3 & I4 & I5 & I6 & I7). rewrite F in E. injection E as <-.
  eexists. split; [reflexivity|]. unfold hist_content.
  remember (fun i => (rd (bin_middle low high n i), qn (count (bin_has low high n i) l))) as f eqn:Ef.
  apply nth_ext with (d := (rd 0, rd 0)) (d' := f 0%nat).
  { rewrite !map_length, graph_points_length, seq_length. exact I4. }
  intros i Hi. rewrite map_length, graph_points_length in Hi.
  change (rd 0, rd 0) with ((fun p => (rd (fst p), rd (snd p))) (0, 0)). rewrite map_nth, graph_points_nth by exact Hi.
  rewrite map_nth, seq_nth by lia. rewrite Ef. cbn [fst snd Nat.add]. rewrite I1, I3, I7 by lia. f_equal.
  - f_equal. unfold bin_middle, half. field. split; [discriminate|apply qn_neq0, N].
  - unfold Qcdiv. rewrite <- (K (count _ l)) at 2. f_equal. change (/ 1) with 1. ring.
Qed.
Lemma content_nodup : NoDup (map fst hist_content).
Proof.
  unfold hist_content. rewrite map_map. cbn [fst].
  assert (G : forall m k, (k + m <= n)%nat -> NoDup (map (fun i => rd (bin_middle low high n i)) (seq k m))).
  { induction m as [|m IH]; intros k H; cbn; [constructor|]. constructor; [|apply IH; lia].
    intros I. apply in_map_iff in I. destruct I as (j & E & I). apply in_seq in I. apply D in E; lia. }
  apply G. lia.
Qed.
Lemma at_least_all (ps : list (Qc * Qc)) : filter (at_least None) ps = ps.
Proof. induction ps as [|p ps IH]; [reflexivity|]. cbn. rewrite IH. reflexivity. Qed.
Lemma saved_read : exists d, read_pairs float None (hist_text show h half) = Ok d /\ Permutation d hist_content /\ increasing d.
Proof.
  destruct saved_points as (g & E & G). rewrite text_lines.
  pose proof (hist_lists h half g E) as LI. rewrite G in LI.
  destruct (read_ok float None (hist_lines show h half) "" hist_content (hist_one_line h half) Logic.I LI) as [A _].
  rewrite at_least_all in A. destruct (A content_nodup) as (d & R & PE & IN). exists d. auto.
Qed.
Hypothesis C : forall i, (i < n)%nat -> within e (rd (bin_middle low high n i)) (bin_middle low high n i).
Lemma middle_close i v : (i < n)%nat -> bin_has low high n i v = true -> within ((high - low) / qn n * half + e) (rd (bin_middle low high n i)) v.
Proof.
  intros Hi H. apply bin_has_spec in H. rewrite !bin_low_step in H by exact N. pose proof (C i Hi) as X.
  assert (M : bin_middle low high n i = low + qn i * ((high - low) / qn n) + half * ((high - low) / qn n)).
  { unfold bin_middle, half. field. split; [apply qn_neq0, N|discriminate]. }
  assert (SS : qn (S i) * ((high - low) / qn n) = qn i * ((high - low) / qn n) + (high - low) / qn n).
  { change (S i) with (1 + i)%nat. rewrite qn_add. change (qn 1) with 1. ring. }
  rewrite SS in H. rewrite M in *. clear - H X. assert (HH : half + half = 1) by (unfold half; field; discriminate).
  set (s := (high - low) / qn n) in *. assert (A : half * s + half * s = s) by (rewrite <- Qcmult_plus_distr_l, HH; ring).
  unfold within in *. rewrite (Qcmult_comm s half). revert A X H. generalize (half * s), (qn i * s). intros a b. generalize (rd (low + b + a)). intros r A X H.
  destruct X, H. split; qlra.
Qed.
Lemma saved_mean : filter (in_range low high) l <> [] ->
  exists d m, read_pairs float None (hist_text show h half) = Ok d /\ sample_mean d = Ok m
  /\ within ((high - low) / qn n * half + e) m (mean_of (filter (in_range low high) l)).
Proof.
  intros NE. destruct saved_read as (d & R & PE & _). exists d. exists (weighted_mean hist_content).
  split; [exact R|]. rewrite (sample_mean_perm _ _ PE), sample_mean_ok.
  set (l' := filter (in_range low high) l) in *.
  assert (FA : Forall (fun v => in_range low high v = true) l') by (apply Forall_forall; intros v I; apply filter_In in I; apply I).
  assert (CT : forall i, (i < n)%nat -> count (bin_has low high n i) l = count (bin_has low high n i) l').
  { intros i Hi. symmetry. apply count_filter; assumption. }
  assert (S1 : qsum (map snd hist_content) = qn (length l')).
  { rewrite <- (spread_total low high n N L l' FA). unfold hist_content, spread_sum. rewrite map_map. f_equal.
    apply map_ext_in. intros i I. apply in_seq in I. cbn [snd]. rewrite CT by lia. ring. }
  assert (S2 : qsum (map (fun p => fst p * snd p) hist_content) = spread_sum low high n (fun i => rd (bin_middle low high n i)) l').
  { unfold hist_content, spread_sum. rewrite map_map. f_equal. apply map_ext_in. intros i I. apply in_seq in I. cbn [fst snd]. rewrite CT by lia. reflexivity. }
  assert (LP : 0 < qn (length l')) by (apply qn_pos; destruct l'; [congruence|cbn; lia]).
  assert (LN : qn (length l') <> 0) by (intros E; rewrite E in LP; apply (Qclt_not_le _ _ LP), Qcle_refl).
  rewrite S1. destruct (qeqb (qn (length l')) 0) eqn:Q; [apply qeqb_spec in Q; contradiction|]. split; [reflexivity|].
  unfold weighted_mean, mean_of. rewrite S1, S2.
  pose proof (spread_close low high n N L _ _ l' FA middle_close) as W.
  set (b := (high - low) / qn n * half + e) in *. set (x := spread_sum _ _ _ _ _) in *. set (y := qsum l') in *. set (k := qn (length l')) in *.
  clearbody b x y k. unfold within in *.
  replace (x / k - y / k) with ((x - y) / k) by (field; exact LN).
  destruct W as [W1 W2]. split.
  - apply Qclt_div_iff; [exact LP|]. replace (- b * k) with (- (k * b)) by ring. exact W1.
  - apply Qcnot_lt_le. intros G. apply (Qclt_not_le _ _ G).
    replace b with (k * b / k) by (field; exact LN). unfold Qcdiv. apply Qcmult_le_compat_r; [exact W2|].
    apply Qclt_le_weak. apply Qcnot_le_lt. intros Z.
    assert (Y : / k * k <= 0 * k) by (apply Qcmult_le_compat_r; [exact Z|apply Qclt_le_weak, LP]).
    rewrite Qcmult_comm, Qcmult_inv_r in Y by exact LN. rewrite Qcmult_0_l in Y. apply Y. reflexivity.
Qed.
Lemma saved_empty : filter (in_range low high) l = [] ->
  exists d, read_pairs float None (hist_text show h half) = Ok d /\ sample_mean d = Err ZeroDivisionError.
Proof.
  intros NE. destruct saved_read as (d & R & PE & _). exists d. split; [exact R|].
  rewrite (sample_mean_perm _ _ PE), sample_mean_ok.
  assert (S1 : qsum (map snd hist_content) = 0).
  { change 0 with (qn (length (@nil Qc))). rewrite <- (spread_total low high n N L [] (Forall_nil _)), <- NE. unfold hist_content, spread_sum. rewrite map_map. f_equal.
    apply map_ext_in. intros i I. apply in_seq in I. cbn [snd]. rewrite count_filter by (assumption || lia). ring. }
  rewrite S1. reflexivity.
Qed.
End Saved.

(** Alignment. *)
Lemma last4_data r s : (4 <= String.length s)%nat -> last4 (r ++ s)%string = last4 s.
Proof.
  intros H. unfold last4. induction r as [|a r IH]; [reflexivity|]. cbn [append String.length].
  assert (E : String.length (r ++ s)%string = (String.length r + String.length s)%nat) by (clear; induction r as [|a r IH]; cbn; congruence).
  replace (S (String.length (r ++ s)%string) - 4)%nat with (S (String.length (r ++ s)%string - 4)) by lia. cbn [substring]. exact IH.
Qed.
Lemma text_split t : exists ls rest, t = text_of_lines ls rest /\ Forall one_line ls /\ one_line rest.
Proof.
  induction t as [|a t (ls & rest & E & F & O)].
  - exists [], "". repeat split; constructor.
  - destruct (Ascii.ascii_dec a "010") as [->|N].
    + exists ("" :: ls), rest. split; [rewrite E; reflexivity|]. split; [constructor; [exact Logic.I|exact F]|exact O].
    + destruct ls as [|x ls].
      * exists [], (String a rest). split; [rewrite E; reflexivity|]. split; [exact F|split; assumption].
      * exists (String a x :: ls), rest. split; [rewrite E; reflexivity|]. inversion F; subst. split; [constructor; [split; assumption|assumption]|exact O].
Qed.
