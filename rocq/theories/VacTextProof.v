(** Proofs about the files of velocity autocorrelations and the script that analyses them. *)
From Coq Require Import Permutation Lia Sorted.
From Verif Require Import QcBase QcLra StrBase PyBase DictBase SortBase CuModel VtfModel VtfPyModel VtfSpec VtfTextProof VtfPyProof OtfsModel OtfsSpec DddaModel DddaSpec DddaProof MeasModel MeasSpec MeasProof MsdSpec MsdProof VacModel VacSpec.
Open Scope string_scope.
Open Scope list_scope.
Open Scope Qc_scope.

Section Text.
Variable show : Qc -> string.
Variable float : string -> option Qc.
Hypothesis Hprints : prints_as show float (fun x => x).

Definition numbers (e : Qc * Qc * Qc) : list Qc := let '(t1, t2, v) := e in [t1; t2; v].
Lemma ac_words e : words is_ws (autocorrelation_row show e) = map show (numbers e).
Proof.
  destruct e as ((t1, t2), v). unfold autocorrelation_row, numbers. cbn [map].
  destruct (Hprints t1) as (_ & N1 & P1). destruct (Hprints t2) as (_ & N2 & P2). destruct (Hprints v) as (_ & N3 & P3).
  change (String "009" (show t2) ++ String "009" (show v) ++ eol)%string with (String "009" (show t2 ++ String "009" (show v ++ eol)))%string.
  rewrite words_cons by (auto || reflexivity). f_equal.
  rewrite words_cons by (auto || reflexivity). f_equal.
  unfold eol. now rewrite words_cons by (auto || reflexivity).
Qed.
Lemma ac_keep e s : keep_lines (autocorrelation_row show e ++ s)%string = autocorrelation_row show e :: keep_lines s.
Proof.
  destruct e as ((t1, t2), v).
  destruct (Hprints t1) as (_ & N1 & P1). destruct (Hprints t2) as (_ & N2 & P2). destruct (Hprints v) as (_ & N3 & P3).
  assert (E : autocorrelation_row show (t1, t2, v) = ((show t1 ++ String "009" (show t2) ++ String "009" (show v)) ++ eol)%string).
  { unfold autocorrelation_row. repeat (progress (rewrite ?append_assoc'; cbn [append])). reflexivity. }
  rewrite E. set (w := (show t1 ++ _)%string).
  assert (H : has_char newline w = false).
  { unfold w. repeat (progress (rewrite ?has_char_app; cbn [has_char append])).
    rewrite !no_space_newline by assumption. reflexivity. }
  rewrite append_assoc'. exact (keep_cons w s H).
Qed.
Lemma ac_lines l : keep_lines (String.concat "" (map (autocorrelation_row show) l)) = map (autocorrelation_row show) l.
Proof. induction l as [|e l IH]; [reflexivity|]. cbn [map]. rewrite DddaProof.concat_cons, ac_keep, IH. reflexivity. Qed.
Lemma floats_shown l : floats float (map show l) = Ok l.
Proof. induction l as [|x l IH]; [reflexivity|]. cbn [map floats]. destruct (Hprints x) as (-> & _). rewrite IH. reflexivity. Qed.
Lemma parsed_rows l : parsed float (map (autocorrelation_row show) l) = Ok (map numbers l).
Proof. induction l as [|e l IH]; [reflexivity|]. cbn [map parsed]. rewrite ac_words, floats_shown. cbn [bind]. rewrite IH. reflexivity. Qed.
Definition text_of (l : list (Qc * Qc * Qc)) : string := String.concat "" (map (autocorrelation_row show) l).
Lemma parsed_texts ls : parsed_files float (map text_of ls) = Ok (map (map numbers) ls).
Proof.
  induction ls as [|l ls IH]; [reflexivity|]. cbn [map parsed_files]. unfold text_of at 1. rewrite ac_lines, parsed_rows. cbn [bind]. rewrite IH. reflexivity.
Qed.
End Text.

Section Analysis.
Variables (round : Qc -> Z).
Lemma lag_values dt m n l : vac_values round dt (fun _ t2 => qleb m t2) n (map numbers l) = lag_data round dt m l n.
Proof.
  unfold vac_values, lag_data. induction l as [|((t1, t2), v) l IH]; [reflexivity|]. cbn [map flat_map numbers]. rewrite IH. reflexivity.
Qed.
Definition key_ok (dt : Qc) (s : vac) : Prop := v_dt s = dt /\ NoDup (dkeys (v_stats s)) /\ forall k, In k (dkeys (v_stats s)) -> exists n, k = qz n * dt.
Lemma line_keys dt s l s' : key_ok dt s -> vac_line round s l = Ok s' -> key_ok dt s'.
Proof.
  intros (A & B & C) H. unfold vac_line in H. destruct l as [|t1 [|t2 [|v [|x l]]]]; try discriminate.
  destruct (MeasModel.qltb t2 (v_min s)); [injection H as <-; repeat split; assumption|].
  unfold getDeltaT in H. destruct (MeasModel.qltb t1 0 || MeasModel.qltb t2 t1); [discriminate|]. cbn [bind] in H. injection H as <-.
  split; [exact A|]. cbn [v_stats]. rewrite A.
  set (k := qz (round ((t2 - t1) / dt)) * dt). set (st := match dget qeqb (v_stats s) k with Some _ => v_stats s | None => dset qeqb (v_stats s) k ddda_new end).
  assert (B' : NoDup (dkeys st)) by (unfold st; destruct (dget qeqb (v_stats s) k); [exact B|apply dset_nodup; [apply qeqb_spec|exact B]]).
  assert (C' : forall k, In k (dkeys st) -> exists n, k = qz n * dt).
  { unfold st. intros q Q. destruct (dget qeqb (v_stats s) k); [auto|]. apply dset_keys_in in Q; [|apply qeqb_spec]. destruct Q as [->|Q]; [eexists; reflexivity|auto]. }
  split; [apply dset_nodup; [apply qeqb_spec|exact B']|]. intros q Q. apply dset_keys_in in Q; [|apply qeqb_spec]. destruct Q as [->|Q]; [eexists; reflexivity|auto].
Qed.
Lemma parse_keys dt ls : forall s s', key_ok dt s -> vac_parse round s ls = Ok s' -> key_ok dt s'.
Proof.
  induction ls as [|l ls IH]; intros s s' K H; cbn [vac_parse] in H; [injection H as <-; exact K|].
  destruct (vac_line round s l) as [s1|] eqn:E; [|discriminate]. cbn [bind] in H. exact (IH _ _ (line_keys dt s l s1 K E) H).
Qed.
Lemma numbers_ok (ls : list (list (Qc * Qc * Qc))) : (forall l e, In l ls -> In e l -> in_order e) ->
  forall f l, In f (map (map numbers) ls) -> In l f -> vac_wellformed l.
Proof.
  intros H f l F L. apply in_map_iff in F. destruct F as (x & <- & X). apply in_map_iff in L. destruct L as (e & <- & I).
  specialize (H x e X I). destruct e as ((t1, t2), v). exists t1, t2, v. cbn in *. tauto.
Qed.
Lemma concat_numbers (ls : list (list (Qc * Qc * Qc))) : concat (map (map numbers) ls) = map numbers (concat ls).
Proof. induction ls as [|l ls IH]; [reflexivity|]. cbn [map concat]. now rewrite map_app, IH. Qed.

(** The dictionary that is made of the lines. *)
Lemma vac_made dt m ls : dt <> 0 -> ls <> [] -> (forall l e, In l ls -> In e l -> in_order e) ->
  exists s, vac_new round m dt (map (map numbers) ls) = Ok s /\ key_ok dt s /\
    forall n, let D := lag_data round dt m (concat ls) n in
      vac_get s (qz n * dt) = (if Nat.eqb (length D) 0 then Err ValueError else Ok (fold_left ddda_add D ddda_new)).
Proof.
  intros Hd Hn W. destruct (@vac_content round m dt (map (map numbers) ls) Hd) as (s & E & H).
  - destruct ls; [congruence|discriminate].
  - apply numbers_ok. exact W.
  - exists s. split; [exact E|]. split.
    + assert (E' := E). unfold vac_new in E'. destruct (map (map numbers) ls) as [|x y] eqn:Q; [destruct ls; [congruence|discriminate]|].
      apply (parse_keys dt (concat (x :: y)) (mk_vac m dt []) s); [|exact E']. split; [reflexivity|]. split; [constructor|intros k []].
    + intros n D. specialize (H n). rewrite concat_numbers, lag_values in H. fold D in H. destruct D; exact H.
Qed.
Lemma fed_good l : good (fold_left ddda_add l ddda_new) l.
Proof.
  assert (G : forall d D, good d D -> good (fold_left ddda_add l d) (D ++ l)).
  { induction l as [|x l IH]; intros d D G; [now rewrite app_nil_r|]. cbn [fold_left]. change (x :: l) with ([x] ++ l). rewrite app_assoc. apply IH, good_add, G. }
  apply (G ddda_new []). apply good_new.
Qed.
End Analysis.

Section Script.
Variables (float : string -> option Qc) (round : Qc -> Z) (str str_root show : Qc -> string).
Hypothesis Hprints : prints_as show float (fun x => x).
Variables (dt m : Qc).
Hypothesis Hd : dt <> 0.
Definition error_of (D : list Qc) (e : Qc) : Prop := optimalStandardError_squared (fold_left ddda_add D ddda_new) = Ok e.

Section Made.
Variables (s : vac) (data : Z -> list Qc).
Hypothesis Hk : key_ok dt s.
Hypothesis Hg : forall n, vac_get s (qz n * dt) = (if Nat.eqb (length (data n)) 0 then Err ValueError else Ok (fold_left ddda_add (data n) ddda_new)).

Lemma times_in t : In t (getCorrelationTimes s) <-> exists n, t = qz n * dt /\ data n <> [].
Proof.
  unfold getCorrelationTimes. assert (P : Permutation (map fst (v_stats s)) (isort qleb (map fst (v_stats s)))) by apply isort_perm.
  assert (Q : In t (isort qleb (map fst (v_stats s))) <-> In t (dkeys (v_stats s))) by (split; apply Permutation_in; [apply Permutation_sym|]; exact P).
  rewrite Q. destruct Hk as (_ & ND & K).
  assert (G : forall n, In (qz n * dt) (dkeys (v_stats s)) <-> data n <> []).
  { intros n. specialize (Hg n). unfold vac_get in Hg. pose proof (@dget_none Qc ddda qeqb qeqb_spec (v_stats s) (qz n * dt)) as X.
    destruct (dget qeqb (v_stats s) (qz n * dt)) as [d|] eqn:E.
    - split; intros _; [destruct (data n); [discriminate|congruence]|]. apply dget_in in E; [|apply qeqb_spec]. apply (in_map fst) in E. exact E.
    - destruct (data n) as [|x l]; [|discriminate]. split; intros H; [|congruence]. exfalso. exact (proj1 X eq_refl H). }
  split; [intros I; destruct (K t I) as (n & ->); exists n; split; [reflexivity|]; apply G; exact I|].
  intros (n & -> & H). apply G. exact H.
Qed.
Lemma times_sorted : StronglySorted (fun a b => a < b) (getCorrelationTimes s).
Proof.
  unfold getCorrelationTimes. assert (P : Permutation (map fst (v_stats s)) (isort qleb (map fst (v_stats s)))) by apply isort_perm.
  assert (ND : NoDup (isort qleb (map fst (v_stats s)))) by (apply (Permutation_NoDup P); apply Hk).
  assert (SS : StronglySorted (fun a b => qleb a b = true) (isort qleb (map fst (v_stats s)))).
  { apply isort_sorted.
    - intros a b. unfold qleb. destruct (Qle_bool (this a) (this b)) eqn:A; [left; reflexivity|right]. apply Qle_bool_iff. apply MeasProof.qleb_false in A. apply Qclt_le_weak, A.
    - intros a b c A B. apply MeasProof.qleb_spec in A. apply MeasProof.qleb_spec in B. apply MeasProof.qleb_spec. exact (Qcle_trans _ _ _ A B). }
  clear P. induction SS as [|a l SS IH F]; [constructor|]. apply NoDup_cons_iff in ND. destruct ND as (N1 & N2). constructor; [apply IH, N2|].
  apply Forall_forall. rewrite Forall_forall in F. intros b B. specialize (F b B). apply MeasProof.qleb_spec in F. apply Qcle_lt_or_eq in F. destruct F as [F| ->]; [exact F|contradiction].
Qed.
Lemma rows_exact times : (forall t, In t times -> exists n, t = qz n * dt /\ data n <> []) ->
  (forall n, length (data n) <> 1%nat) ->
  exists lines, Forall2 (table_line str str_root error_of data dt) times lines /\ table_rows str str_root s times = Ok (String.concat "" lines).
Proof.
  intros H H1. induction times as [|t times IH]; [exists []; split; [constructor|reflexivity]|].
  destruct IH as (lines & F & E); [intros; apply H; right; assumption|].
  destruct (H t (or_introl eq_refl)) as (n & -> & Dn). set (D := data n) in *.
  assert (L : (2 <= length D)%nat) by (specialize (H1 n); fold D in H1; destruct D as [|x [|y l]]; [congruence|cbn in H1; lia|cbn; lia]).
  pose proof (fed_good D) as G. destruct (good_optimal G L) as (b & _ & _ & _ & O).
  set (e := se2 _) in O.
  exists ((str (qz n * dt) ++ String "009" (str (OtfsSpec.mean D) ++ String "009" (str_root e ++ String "009" (str_of_Z (Z.of_nat (length D)) ++ String "009" eol))))%string :: lines).
  split; [constructor; [|exact F]|].
  - exists n, e. split; [reflexivity|]. split; [exact O|reflexivity].
  - cbn [table_rows]. rewrite Hg. fold D. destruct (Nat.eqb_spec (length D) 0); [lia|]. cbn [bind].
    assert (M : ddda_mean (fold_left ddda_add D ddda_new) = Ok (OtfsSpec.mean D)).
    { unfold ddda_mean. rewrite (good_size0 G). destruct (Nat.eqb_spec (length D) 0); [lia|]. destruct (good_structure G) as (_ & _ & _ & _ & (_ & A & _)). rewrite A. destruct D; [congruence|reflexivity]. }
    rewrite M, O. cbn [bind]. rewrite E. cbn [bind]. rewrite (good_size0 G). rewrite DddaProof.concat_cons.
    f_equal. repeat (progress (rewrite ?append_assoc'; cbn [append])). reflexivity.
Qed.
Lemma rows_fail times n : (forall t, In t times -> exists n, t = qz n * dt /\ data n <> []) ->
  In (qz n * dt) times -> length (data n) = 1%nat -> table_rows str str_root s times = Err RuntimeError.
Proof.
  intros H I L. induction times as [|t times IH]; [destruct I|]. cbn [table_rows].
  destruct (H t (or_introl eq_refl)) as (k & E & Dk). rewrite E, Hg. destruct (Nat.eqb_spec (length (data k)) 0) as [Z0|Z0]; [destruct (data k); [congruence|discriminate]|].
  cbn [bind]. pose proof (fed_good (data k)) as G.
  assert (M : exists x, ddda_mean (fold_left ddda_add (data k) ddda_new) = Ok x).
  { unfold ddda_mean. rewrite (good_size0 G). destruct (Nat.eqb_spec (length (data k)) 0); [lia|]. destruct (good_structure G) as (_ & _ & _ & _ & (_ & A & _)). rewrite A.
    destruct (data k); [congruence|eexists; reflexivity]. }
  destruct M as (x & ->). cbn [bind].
  destruct (le_lt_dec 2 (length (data k))) as [Q|Q].
  - destruct (good_optimal G Q) as (b & _ & _ & _ & O). rewrite O. cbn [bind].
    destruct I as [I|I]; [|rewrite IH; [reflexivity|intros; apply H; right; assumption|exact I]].
    exfalso. rewrite E in I. apply (@qz_mul_inj dt k n Hd) in I. subst k. lia.
  - unfold optimalStandardError_squared. rewrite (good_optimal_small G Q). reflexivity.
Qed.
End Made.

Lemma script_runs (rundirs : list (string * list (Qc * Qc * Qc))) meta : rundirs <> [] ->
  (forall r e, In r rundirs -> In e (snd r) -> in_order e) ->
  let data := lag_data round dt m (concat (map snd rundirs)) in
  let dirs := map (fun r => (fst r, text_of show (snd r))) rundirs in
  let info := match meta with None => [] | Some name => [(name, metadata (map fst rundirs))] end in
  script float round str str_root dirs dt m None meta = Ok (0%Z, info) /\
  forall save,
  ((forall n, length (data n) <> 1%nat) ->
   exists times lines, StronglySorted (fun a b => a < b) times /\ (forall t, In t times <-> exists n, t = qz n * dt /\ data n <> []) /\
     Forall2 (table_line str str_root error_of data dt) times lines /\
     script float round str str_root dirs dt m (Some save) meta = Ok (0%Z, (save, (table_header ++ String.concat "" lines)%string) :: info)) /\
  ((exists n, length (data n) = 1%nat) -> script float round str str_root dirs dt m (Some save) meta = Err RuntimeError).
Proof.
  intros Hn W data dirs info.
  destruct (vac_made round dt m (map snd rundirs) Hd) as (s & E & K & G).
  { destruct rundirs; [congruence|discriminate]. }
  { intros l e L I. apply in_map_iff in L. destruct L as (r & <- & R). exact (W r e R I). }
  fold data in G. cbv zeta in G.
  assert (ER : vac_read float round m dt (map snd dirs) = Ok s).
  { unfold vac_read, dirs. rewrite map_map. cbn [snd]. rewrite <- (map_map snd (text_of show)), (parsed_texts show float Hprints). exact E. }
  assert (EL : Nat.eqb (length dirs) 0 = false) by (unfold dirs; rewrite map_length; destruct rundirs; [congruence|reflexivity]).
  assert (EI : match meta with None => [] | Some name => [(name, metadata (map fst dirs))] end = info) by (unfold info, dirs; rewrite map_map; reflexivity).
  pose proof (times_in s data K G) as TI.
  split; [|intros save; split].
  - unfold script. rewrite EL, ER. cbn [bind]. rewrite EI. reflexivity.
  - intros H1. destruct (rows_exact s data G (getCorrelationTimes s) (fun t I => proj1 (TI t) I) H1) as (lines & F & R).
    exists (getCorrelationTimes s), lines. split; [apply times_sorted; exact K|]. split; [exact TI|]. split; [exact F|].
    unfold script. rewrite EL, ER. cbn [bind]. rewrite R. cbn [bind]. rewrite EI. reflexivity.
  - intros (n & L). unfold script. rewrite EL, ER. cbn [bind].
    rewrite (rows_fail s data G (getCorrelationTimes s) n (fun t I => proj1 (TI t) I)); [reflexivity| |exact L].
    apply TI. exists n. split; [reflexivity|]. intros X. rewrite X in L. discriminate.
Qed.
End Script.
