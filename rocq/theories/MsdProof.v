(** Proofs about the measurement of mean square displacements. *)
From Coq Require Import String Ascii.
From Verif Require Import QcBase PyBase StrBase VtfModel VtfSpec VtfTextProof VtfPyModel VtfPyProof OtfsModel DddaModel AutocorrSpec AutocorrProof MsdModel MsdSpec LagProof.
Open Scope list_scope.
Open Scope Qc_scope.

Section Measure.
Variables entities every count : nat.
Hypothesis Hevery : every <> 0%nat.
Notation copy_to := (copy_to entities).
Notation K := (count + 1)%nat.
Notation ms := (mean_square entities).
Notation spec := (mean_square_displacement entities).

Lemma fold_sum (f : nat -> Qc) l a : fold_left (fun r e => r + f e) l a = a + qsum (map f l).
Proof. revert a. induction l as [|e l IH]; intros a; cbn [fold_left map qsum fold_right]; [ring|]. rewrite IH. unfold qsum. cbn [fold_right]. ring. Qed.
Lemma ms_spec a b : ms a b = spec a b.
Proof.
  unfold mean_square, mean_square_displacement. rewrite fold_sum. f_equal. rewrite Qcplus_0_l. f_equal. apply map_ext. intros e.
  unfold distance2, qsum, sqr. cbn [map fold_right]. rewrite Nat.add_0_r. ring.
Qed.
(** Arrays that agree where there are coordinates. *)
Definition agree (a b : array) : Prop := forall i, (i < 3 * entities)%nat -> a i = b i.
Lemma ms_agree a b a' b' : agree a a' -> agree b b' -> ms a b = ms a' b'.
Proof.
  intros Ha Hb. rewrite !ms_spec. unfold mean_square_displacement. f_equal. f_equal. apply map_ext_in. intros e He.
  apply in_seq in He. f_equal. apply map_ext_in. intros i Hi.
  assert (i <= 2)%nat by (cbn in Hi; lia). rewrite Ha, Hb by lia. reflexivity.
Qed.
Lemma copy_length l k x : length (copy_to l k x) = length l.
Proof. revert k. induction l as [|a l IH]; intros [|k]; cbn; auto. Qed.
Lemma copy_same l k x d : (k < length l)%nat -> agree (nth k (copy_to l k x) d) x.
Proof.
  revert k. induction l as [|a l IH]; intros [|k] H; cbn [length] in H; try lia; cbn [copy_to MsdModel.copy_to nth].
  - intros i Hi. now rewrite (proj2 (Nat.ltb_lt _ _) Hi).
  - apply IH. lia.
Qed.
Lemma copy_other l k x d j : j <> k -> nth j (copy_to l k x) d = nth j l d.
Proof.
  revert j k. induction l as [|a l IH]; intros j k H; [destruct k; reflexivity|].
  destruct k, j; cbn [copy_to MsdModel.copy_to nth]; try congruence. apply IH. congruence.
Qed.

(** The state after the measurements [l]. *)
Definition lag_list (l : list array) (T : nat) : list Qc :=
  map (fun d => ms (nth T l (fun _ => 0)) (nth (T - d) l (fun _ => 0))) (seq 1 (Nat.min count T)).
Definition inv (st : msd) (l : list array) : Prop :=
  length (snapshots st) = K /\
  ring K (fun k x => agree (nth k (snapshots st) (fun _ => 0)) x) l /\
  displacements st = map (lag_list l) (seq 0 (length l)).

Lemma buffers_eq now : msd_buffers count now =
  Some (now mod K) :: map (fun i => Some ((now - i) mod K)) (seq 1 (Nat.min count now)) ++ repeat None (count - now).
Proof.
  unfold msd_buffers. replace (seq 0 (count + 1)) with (0 :: seq 1 count)%nat by now rewrite Nat.add_1_r.
  cbn [map]. rewrite Nat.sub_0_r.
  replace (now <? 0)%nat with false by (symmetry; apply Nat.ltb_ge; lia). f_equal.
  replace (seq 1 count) with (seq 1 (Nat.min count now) ++ seq (1 + Nat.min count now) (count - now)).
  2:{ rewrite <- seq_app. f_equal. lia. }
  rewrite map_app. f_equal.
  - apply map_ext_in. intros i Hi. apply in_seq in Hi. replace (now <? i)%nat with false; [reflexivity|].
    symmetry. apply Nat.ltb_ge. lia.
  - transitivity (map (fun _ : nat => @None nat) (seq (1 + Nat.min count now) (count - now))).
    + apply map_ext_in. intros i Hi. apply in_seq in Hi. replace (now <? i)%nat with true; [reflexivity|].
      symmetry. apply Nat.ltb_lt. lia.
    + rewrite <- (seq_length (count - now) (1 + Nat.min count now)) at 2.
      induction (seq (1 + Nat.min count now) (count - now)) as [|? ? E]; [reflexivity|]. cbn. now rewrite E.
Qed.
Lemma lags_eq snaps cur ks n : msd_lags entities snaps cur (map Some ks ++ repeat None n) =
  map (fun k => ms cur (nth k snaps (fun _ => 0))) ks.
Proof. induction ks as [|k ks IH]; cbn; [now destruct n|]. now rewrite IH. Qed.
Lemma lag_list_app l x T : (T < length l)%nat -> lag_list (l ++ [x]) T = lag_list l T.
Proof.
  intros H. unfold lag_list. apply map_ext_in. intros d Hd. apply in_seq in Hd.
  now rewrite !app_nth1 by lia.
Qed.

Lemma measure_takes st l x : inv st l -> (l = [] \/ S (sweeps st) = every) ->
  inv (msd_measure entities every count st x) (l ++ [x]) /\ sweeps (msd_measure entities every count st x) = 0%nat.
Proof.
  intros (L & R & D) C. unfold msd_measure.
  assert (LD : length (displacements st) = length l) by (rewrite D, map_length, seq_length; reflexivity).
  replace (negb (S (sweeps st) =? every)%nat && negb (length (displacements st) =? 0)%nat) with false.
  2:{ symmetry. apply andb_false_iff. destruct C as [->|C]; [right|left]; apply negb_false_iff, Nat.eqb_eq; [exact LD|exact C]. }
  rewrite LD, buffers_eq. cbn [snapshots sweeps]. split; [|reflexivity].
  assert (B : (length l mod K < K)%nat) by (apply Nat.mod_upper_bound; lia).
  split; [|split].
  - cbn [snapshots]. now rewrite copy_length.
  - cbn [snapshots]. apply ring_step with (h := fun k y => agree (nth k (snapshots st) (fun _ => 0)) y); [lia|exact R|..].
    + apply copy_same. lia.
    + intros k y Hk N H. now rewrite copy_other.
  - cbn [displacements]. rewrite app_length. cbn [length]. replace (length l + 1)%nat with (S (length l)) by lia. rewrite seq_S, map_app. cbn [map plus]. f_equal.
    + rewrite D. apply map_ext_in. intros T HT. apply in_seq in HT. symmetry. apply lag_list_app. lia.
    + f_equal. rewrite <- (map_map (fun i => ((length l - i) mod K)%nat) Some), lags_eq, map_map. unfold lag_list.
      apply map_ext_in. intros d Hd. apply in_seq in Hd. apply ms_agree.
      * rewrite app_nth2, Nat.sub_diag by lia. cbn [nth]. apply copy_same. lia.
      * rewrite copy_other by (apply mod_apart; lia). rewrite app_nth1 by lia.
        apply (R (length l - d)%nat); [|lia]. apply nth_error_nth'. lia.
Qed.
Lemma measure_passes st l x : inv st l -> l <> [] -> S (sweeps st) <> every ->
  inv (msd_measure entities every count st x) l /\ sweeps (msd_measure entities every count st x) = S (sweeps st).
Proof.
  intros (L & R & D) N C. unfold msd_measure.
  assert (LD : length (displacements st) = length l) by (rewrite D, map_length, seq_length; reflexivity).
  replace (negb (S (sweeps st) =? every)%nat && negb (length (displacements st) =? 0)%nat) with true.
  - cbn. repeat split; assumption.
  - symmetry. apply andb_true_iff. split; apply negb_true_iff, Nat.eqb_neq; [exact C|]. destruct l; [congruence|]. cbn in LD. lia.
Qed.
Lemma measure_run xs : forall st l k, inv st l -> (l = [] -> k = 0%nat) -> (l <> [] -> (sweeps st + k + 1 = every)%nat) ->
  inv (fold_left (msd_measure entities every count) xs st) (l ++ thin every k xs).
Proof.
  induction xs as [|x xs IH]; intros st l k I E N; cbn [fold_left thin].
  - now rewrite app_nil_r.
  - destruct k as [|k].
    + assert (C : l = [] \/ S (sweeps st) = every) by (destruct l; [now left|right; specialize (N ltac:(discriminate)); lia]).
      destruct (measure_takes st l x I C) as [I' S'].
      change (x :: thin every (every - 1) xs) with ([x] ++ thin every (every - 1) xs). rewrite app_assoc.
      apply IH; [exact I'| |].
      * intros F. destruct l; discriminate.
      * intros _. rewrite S'. lia.
    + assert (NL : l <> []) by (intros F; specialize (E F); discriminate).
      specialize (N NL). destruct (measure_passes st l x I NL ltac:(lia)) as [I' S'].
      apply IH; [exact I'|congruence|]. intros _. rewrite S'. lia.
Qed.
Lemma measure_all garbage xs : inv (fold_left (msd_measure entities every count) xs (msd_new count garbage)) (measured every xs).
Proof.
  unfold measured. change (thin every 0 xs) with ([] ++ thin every 0 xs). apply measure_run; [|reflexivity|congruence].
  split; [|split].
  - cbn. now rewrite map_length, seq_length.
  - apply ring_nil.
  - reflexivity.
Qed.
Lemma get_value st l t T : inv st l -> (t < T < length l)%nat -> (T - t <= count)%nat ->
  getMeanSquareDisplacement st t T = Some (ms (nth T l (fun _ => 0)) (nth t l (fun _ => 0))).
Proof.
  intros (_ & _ & D) H C. unfold getMeanSquareDisplacement. rewrite D.
  assert (nth_error (map (lag_list l) (seq 0 (length l))) T = Some (lag_list l T)) as ->.
  { rewrite nth_error_map. rewrite (nth_error_nth' _ 0%nat) by (rewrite seq_length; lia). rewrite seq_nth by lia. reflexivity. }
  unfold lag_list. rewrite nth_error_map. rewrite (nth_error_nth' _ 0%nat) by (rewrite seq_length; lia). rewrite seq_nth by lia.
  cbn [option_map]. now replace (T - (1 + (T - t - 1)))%nat with t by lia.
Qed.
Lemma get_none st l t T : inv st l -> (length l <= T \/ (t < T /\ (count < T - t \/ T <= T - t - 1)))%nat ->
  getMeanSquareDisplacement st t T = None.
Proof.
  intros (_ & _ & D) H. unfold getMeanSquareDisplacement. rewrite D.
  destruct (nth_error (map (lag_list l) (seq 0 (length l))) T) as [r|] eqn:E; [|reflexivity].
  assert (T < length l)%nat.
  { assert (T < length (map (lag_list l) (seq 0 (length l))))%nat by (apply nth_error_Some; congruence). now rewrite map_length, seq_length in *. }
  rewrite nth_error_map in E. destruct (nth_error (seq 0 (length l)) T) as [u|] eqn:F; [|discriminate].
  apply nth_error_nth with (d := 0%nat) in F. rewrite seq_nth in F by lia. cbn in F, E. subst u. injection E as <-.
  apply nth_error_None. unfold lag_list. rewrite map_length, seq_length. lia.
Qed.
End Measure.

Section File.
Variables entities every count : nat.
Hypothesis Hevery : every <> 0%nat.
Variable show : Qc -> string.
Variable float : string -> option Qc.
Variable rd : Qc -> Qc.
Hypothesis Hprints : prints_as show float rd.
Notation spec := (mean_square_displacement entities).

Lemma wordy_no_space w : no_space w = true -> wordy is_ws w = true.
Proof. intros H. exact H. Qed.
Lemma id_no_space z : (0 <= z)%Z -> no_space (str_of_Z z) = true.
Proof. intros H. apply (plain_ws (str_of_Z z)), id_plain, H. Qed.
Lemma no_space_newline w : no_space w = true -> has_char newline w = false.
Proof. intros H. apply (all_chars_has (fun a => negb (is_ws a)) newline w H). reflexivity. Qed.

Lemma row_words t d v : words is_ws (msd_row show t d v) = [str_of_Z (Z.of_nat t); str_of_Z (Z.of_nat d); show v].
Proof.
  unfold msd_row. destruct (Hprints v) as (_ & N & P).
  assert (Z0 : forall n, str_of_Z (Z.of_nat n) <> ""%string) by (intros n; apply str_of_Z_nonempty).
  assert (P0 : forall n, wordy is_ws (str_of_Z (Z.of_nat n)) = true) by (intros n; apply id_no_space; lia).
  change (String "009" (str_of_Z (Z.of_nat d)) ++ String "009" (show v) ++ eol)%string
    with (String "009" (str_of_Z (Z.of_nat d) ++ String "009" (show v ++ eol)))%string.
  rewrite words_cons by (auto || reflexivity). f_equal.
  rewrite words_cons by (auto || reflexivity). f_equal.
  unfold eol. now rewrite words_cons by (auto || reflexivity).
Qed.
Lemma row_keep t d v s : keep_lines (msd_row show t d v ++ s)%string = msd_row show t d v :: keep_lines s.
Proof.
  destruct (Hprints v) as (_ & N & P).
  assert (E : msd_row show t d v = ((str_of_Z (Z.of_nat t) ++ String "009" (str_of_Z (Z.of_nat d)) ++ String "009" (show v)) ++ eol)%string).
  { unfold msd_row. repeat (progress (rewrite ?append_assoc'; cbn [append])). reflexivity. }
  rewrite E. set (w := (str_of_Z _ ++ _)%string).
  assert (H : has_char newline w = false).
  { unfold w. repeat (progress (rewrite ?has_char_app; cbn [has_char append])).
    rewrite !no_space_newline by (exact P || (apply id_no_space; lia)). reflexivity. }
  rewrite append_assoc'. exact (keep_cons w s H).
Qed.

(** What is saved after the measurements [l]: the rows for the pairs of times, in order. *)
Definition entry := (nat * nat * Qc)%type.
Definition row_of (e : entry) : string := let '(t, d, v) := e in msd_row show t d v.
Definition entries_at (l : list array) (t : nat) : list entry :=
  map (fun d => (t, d, spec (nth (t + d) l (fun _ => 0)) (nth t l (fun _ => 0)))) (seq 1 (Nat.min count (length l - 1 - t))).
Definition entries (l : list array) : list entry := flat_map (entries_at l) (seq 0 (length l)).

Lemma save_lags_eq st l t : inv entities count st l -> forall n a, (1 <= a)%nat -> (a + n = count + 1)%nat ->
  save_lags show st t (seq a n) =
  Some (concat_text (map row_of (map (fun d => (t, d, spec (nth (t + d) l (fun _ => 0)) (nth t l (fun _ => 0))))
    (seq a (Nat.min n (length l - t - a)))))).
Proof.
  intros I. assert (LD : length (displacements st) = length l) by (destruct I as (_ & _ & ->); rewrite map_length, seq_length; reflexivity).
  induction n as [|n IH]; intros a Ha En; [reflexivity|]. cbn [seq save_lags]. rewrite LD.
  destruct (Nat.leb_spec (length l) (t + a)) as [H|H].
  - replace (Nat.min (S n) (length l - t - a)) with 0%nat by lia. reflexivity.
  - rewrite (get_value entities every count Hevery st l t (t + a) I) by lia. rewrite IH by lia.
    replace (Nat.min (S n) (length l - t - a)) with (S (Nat.min n (length l - t - S a))) by lia.
    cbn [seq map]. rewrite VtfTextProof.concat_cons. cbn [row_of]. now rewrite ms_spec.
Qed.
Lemma save_times_eq st l ts : inv entities count st l ->
  save_times count show st ts = Some (concat_text (map row_of (flat_map (entries_at l) ts))).
Proof.
  intros I. induction ts as [|t ts IH]; [reflexivity|]. cbn [save_times flat_map].
  rewrite (save_lags_eq st l t I count 1) by lia. rewrite IH, map_app, VtfTextProof.concat_app. unfold entries_at.
  now replace (length l - t - 1)%nat with (length l - 1 - t)%nat by lia.
Qed.
Lemma save_eq st l : inv entities count st l -> msd_save count show st = Some (concat_text (map row_of (entries l))).
Proof.
  intros I. unfold msd_save. rewrite (save_times_eq st l _ I).
  destruct I as (_ & _ & ->). now rewrite map_length, seq_length.
Qed.
Lemma keep_rows es : keep_lines (concat_text (map row_of es)) = map row_of es.
Proof.
  induction es as [|[[t d] v] es IH]; [reflexivity|]. cbn [map]. rewrite VtfTextProof.concat_cons. cbn [row_of]. now rewrite row_keep, IH.
Qed.

(** Reading rows. *)
Lemma add_ok s k x c : nth_error s k = Some c -> exists s', py_add s k x = Ok s' /\ length s' = length s /\
  nth_error s' k = Some (ddda_add c x) /\ forall j, j <> k -> nth_error s' j = nth_error s j.
Proof.
  revert k. induction s as [|e s IH]; intros [|k] H; try discriminate; cbn [py_add].
  - injection H as ->. exists (ddda_add c x :: s). repeat split. intros [|j] N; [congruence|reflexivity].
  - destruct (IH k H) as (s' & -> & L & A & B). exists (e :: s'). cbn. repeat split; [congruence|exact A|].
    intros [|j] N; [reflexivity|]. apply B. congruence.
Qed.
Lemma line_ok s t d v c : nth_error s d = Some c -> exists s', py_line float s (msd_row show t (S d) v) = Ok s' /\ length s' = length s /\
  nth_error s' d = Some (ddda_add c (rd v)) /\ forall j, j <> d -> nth_error s' j = nth_error s j.
Proof.
  intros H. unfold py_line. rewrite row_words, Z_of_str_of_Z, (proj1 (Hprints v)).
  rewrite (proj2 (Z.ltb_ge _ _)) by lia. replace (Z.to_nat (Z.of_nat (S d) - 1)) with d by lia.
  apply add_ok, H.
Qed.
Definition data_for (d : nat) (es : list entry) : list Qc :=
  flat_map (fun e => let '(_, d', v) := e in if Nat.eqb d' (S d) then [rd v] else []) es.
Lemma lines_ok es : (forall t d v, In (t, d, v) es -> (1 <= d <= count)%nat) -> forall s, length s = count ->
  exists s', py_lines float s (map row_of es) = Ok s' /\ length s' = count /\
  forall d c, nth_error s d = Some c -> nth_error s' d = Some (fold_left ddda_add (data_for d es) c).
Proof.
  induction es as [|[[t d] v] es IH]; intros H s L.
  - exists s. repeat split; [exact L|]. intros d c E. exact E.
  - assert (B : (1 <= d <= count)%nat) by (apply (H t d v); left; reflexivity).
    destruct d as [|d]; [lia|].
    destruct (nth_error s d) as [c|] eqn:E.
    2:{ apply nth_error_None in E. lia. }
    destruct (line_ok s t d v c E) as (s1 & E1 & L1 & A1 & B1).
    destruct (IH (fun t' d' v' K => H t' d' v' (or_intror K)) s1 ltac:(congruence)) as (s2 & E2 & L2 & A2).
    exists s2. cbn [map py_lines row_of]. rewrite E1. cbn [bind]. split; [exact E2|]. split; [exact L2|].
    intros j cj Ej. unfold data_for. cbn [flat_map]. destruct (Nat.eq_dec j d) as [->|N].
    + rewrite Nat.eqb_refl. rewrite E in Ej. injection Ej as <-. cbn [app fold_left]. apply A2, A1.
    + replace (S d =? S j)%nat with false by (symmetry; apply Nat.eqb_neq; congruence). cbn [app]. apply A2.
      now rewrite B1.
Qed.
Lemma entries_bounds l t d v : In (t, d, v) (entries l) -> (1 <= d <= count)%nat.
Proof.
  unfold entries. intros H. apply in_flat_map in H. destruct H as (u & _ & H). unfold entries_at in H.
  apply in_map_iff in H. destruct H as (e & E & H). injection E as _ -> _. apply in_seq in H. lia.
Qed.
Lemma flat_map_one {A B} (f : A -> list B) g (l : list A) : (forall a, In a l -> f a = [g a]) -> flat_map f l = map g l.
Proof. intros H. induction l as [|a l IH]; [reflexivity|]. cbn. rewrite H by (left; reflexivity). cbn. f_equal. apply IH. intros b Hb. apply H. now right. Qed.
Lemma flat_map_none {A B} (f : A -> list B) (l : list A) : (forall a, In a l -> f a = []) -> flat_map f l = [].
Proof. intros H. induction l as [|a l IH]; [reflexivity|]. cbn. rewrite H by (left; reflexivity). apply IH. intros b Hb. apply H. now right. Qed.
Lemma data_for_app d a b : data_for d (a ++ b) = data_for d a ++ data_for d b.
Proof. apply flat_map_app. Qed.
Lemma pick_one (f : nat -> Qc) d a n : flat_map (fun k => if Nat.eqb k d then [f k] else []) (seq a n) =
  if (Nat.leb a d && Nat.ltb d (a + n))%bool then [f d] else [].
Proof.
  revert a. induction n as [|n IH]; intros a; cbn [seq flat_map].
  - destruct (Nat.leb_spec a d), (Nat.ltb_spec d (a + 0)); try reflexivity; lia.
  - rewrite IH. destruct (Nat.eqb_spec a d) as [->|N].
    + destruct (Nat.leb_spec (S d) d), (Nat.leb_spec d d), (Nat.ltb_spec d (d + S n)); try lia. reflexivity.
    + destruct (Nat.leb_spec (S a) d), (Nat.leb_spec a d), (Nat.ltb_spec d (a + S n)), (Nat.ltb_spec d (S a + n)); try lia; reflexivity.
Qed.
Lemma data_at l t d : data_for d (entries_at l t) =
  if (Nat.ltb d count && Nat.ltb (t + S d) (length l))%bool then [rd (spec (nth (t + S d) l (fun _ => 0)) (nth t l (fun _ => 0)))] else [].
Proof.
  unfold data_for, entries_at. rewrite flat_map_concat_map, map_map, <- flat_map_concat_map.
  rewrite (pick_one (fun k => rd (spec (nth (t + k) l (fun _ => 0)) (nth t l (fun _ => 0)))) (S d)).
  destruct (Nat.leb_spec 1 (S d)), (Nat.ltb_spec (S d) (1 + Nat.min count (length l - 1 - t))), (Nat.ltb_spec d count), (Nat.ltb_spec (t + S d) (length l)); try reflexivity; lia.
Qed.
Lemma data_entries l d : (d < count)%nat -> data_for d (entries l) = map rd (lagged spec (S d) l).
Proof.
  intros Hd. unfold entries.
  transitivity (flat_map (fun t => data_for d (entries_at l t)) (seq 0 (length l))).
  { induction (seq 0 (length l)) as [|t ts IH]; [reflexivity|]. cbn [flat_map]. now rewrite data_for_app, IH. }
  replace (seq 0 (length l)) with (seq 0 (length l - S d) ++ seq (length l - S d) (length l - (length l - S d))).
  2:{ rewrite <- (Nat.add_0_l (length l - S d)) at 2. rewrite <- seq_app. f_equal. lia. }
  rewrite flat_map_app.
  rewrite (flat_map_none _ (seq (length l - S d) _)), app_nil_r.
  - rewrite (flat_map_one _ (fun t => rd (spec (nth (t + S d) l (fun _ => 0)) (nth t l (fun _ => 0))))).
    + rewrite <- map_map with (f := fun t => spec (nth (t + S d) l (fun _ => 0)) (nth t l (fun _ => 0))) (g := rd). f_equal.
      apply nth_ext with (d := 0) (d' := 0).
      * now rewrite map_length, seq_length, lagged_length.
      * intros t Ht. rewrite map_length, seq_length in Ht.
        rewrite (nth_indep _ 0 (spec (nth (0 + S d) l (fun _ => 0)) (nth 0 l (fun _ => 0)))) by now rewrite map_length, seq_length.
        rewrite (map_nth (fun t => spec (nth (t + S d) l (fun _ => 0)) (nth t l (fun _ => 0)))), seq_nth by lia.
        symmetry. apply lagged_nth. lia.
    + intros t Ht. apply in_seq in Ht. rewrite data_at. destruct (Nat.ltb_spec d count), (Nat.ltb_spec (t + S d) (length l)); try lia. reflexivity.
  - intros t Ht. apply in_seq in Ht. rewrite data_at. destruct (Nat.ltb_spec d count), (Nat.ltb_spec (t + S d) (length l)); try lia. reflexivity.
Qed.

(** All files. *)
Lemma files_ok (runs : list (list array)) : forall s, length s = count ->
  exists s', py_files float s (map (fun l => concat_text (map row_of (entries l))) runs) = Ok s' /\ length s' = count /\
  forall d c, (d < count)%nat -> nth_error s d = Some c ->
    nth_error s' d = Some (fold_left ddda_add (flat_map (fun l => map rd (lagged spec (S d) l)) runs) c).
Proof.
  induction runs as [|l runs IH]; intros s L.
  - exists s. repeat split; [exact L|]. intros d c _ E. exact E.
  - destruct (lines_ok (entries l) (entries_bounds l) s L) as (s1 & E1 & L1 & A1).
    destruct (IH s1 L1) as (s2 & E2 & L2 & A2). exists s2. cbn [map py_files]. unfold py_parse. rewrite keep_rows, E1. cbn [bind].
    split; [exact E2|]. split; [exact L2|]. intros d c Hd E. cbn [flat_map]. rewrite fold_left_app.
    apply A2; [exact Hd|]. rewrite <- data_entries by exact Hd. apply A1, E.
Qed.

Lemma msd_end_to_end (runs : list ((nat -> array) * list array)) :
  exists files s,
  Forall2 (fun run file => msd_save count show (fold_left (msd_measure entities every count) (snd run) (msd_new count (fst run))) = Some file)
    runs files /\
  py_files float (py_new count) files = Ok s /\
  forall d, (1 <= d <= Z.of_nat count)%Z ->
    py_get count s d = Ok (fold_left ddda_add
      (flat_map (fun run => map rd (lagged spec (Z.to_nat d) (measured every (snd run)))) runs) ddda_new).
Proof.
  destruct (files_ok (map (fun run => measured every (snd run)) runs) (py_new count)) as (s & E & L & A).
  { apply repeat_length. }
  exists (map (fun l => concat_text (map row_of (entries l))) (map (fun run => measured every (snd run)) runs)), s.
  split; [|split].
  - rewrite map_map. induction runs as [|run runs IH]; [constructor|]. cbn [map]. constructor.
    + apply save_eq, measure_all, Hevery.
    + clear E A. apply Forall2_flip || idtac. clear IH. induction runs as [|r runs IH]; constructor; [apply save_eq, measure_all, Hevery|exact IH].
  - exact E.
  - intros d Hd. unfold py_get. rewrite (proj2 (Z.leb_gt _ _)), (proj2 (Z.ltb_ge _ _)) by lia.
    rewrite (A (Z.to_nat (d - 1)) ddda_new).
    + f_equal. f_equal. replace (S (Z.to_nat (d - 1))) with (Z.to_nat d) by lia.
      induction runs as [|r runs IH]; [reflexivity|]. cbn [map flat_map]. f_equal. rewrite flat_map_concat_map, map_map, <- flat_map_concat_map. reflexivity.
    + lia.
    + unfold py_new. apply nth_error_repeat. lia.
Qed.
End File.
