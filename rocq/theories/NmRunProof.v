(** Proofs about the measurement of normal mode autocorrelations. *)
From Coq Require Import List ZArith Bool Reals Lia Lra String Ascii.
From Verif Require Import PyBase StrBase QcBase VecBase VecSpec PartSpec VtfModel VtfSpec VtfTextProof VtfPyModel VtfPyProof OtfsModel DddaModel
  AutocorrSpec AutocorrProof CuModel NmModel NmSpec NmProof MsdSpec LagProof MsdProof.
From Verif Require StarModel.
Import ListNotations.
Open Scope R_scope.
Open Scope list_scope.

Lemma correlation_sym N C S p x y : mode_correlation N C S p x y = mode_correlation N C S p y x.
Proof.
  unfold mode_correlation. f_equal. f_equal. apply map_ext. intros c. unfold dot3. ring.
Qed.

Section Run.
Variables N C P : Z.
Variables every count : nat.
Variable shift : R.
Variable snapshots : nat -> Z.
Hypothesis HN : (1 <= N)%Z.
Hypothesis HC : (1 <= C)%Z.
Notation W := (C * (3 * (N + 1)))%Z.
Hypothesis H32 : (W < 2 ^ 32)%Z.
Hypothesis Hevery : every <> 0%nat.
Hypothesis Hcount : count <> 0%nat.
(** The buffers have room for all normal coordinates, and do not overlap with the positions. *)
Hypothesis Hroom : forall i j, (i < count)%nat -> (j < count)%nat -> i <> j -> (snapshots i + W <= snapshots j \/ snapshots j + W <= snapshots i)%Z.
Hypothesis Hpos : forall i, (i < count)%nat -> apart N C P (snapshots i).
Notation holds := (holds N C shift).
Notation corr := (correlation N C shift).
Notation modes := (seq 0 (n_ N + 1)).
Notation x0 := (fun _ : Z => 0).

Definition nm_lag_list (l : list (Z -> R)) (T : nat) : list (list R) :=
  map (fun d => map (fun p => corr p (nth (T - d) l x0) (nth T l x0)) modes) (seq 0 (Nat.min count (T + 1))).
Definition nm_inv (st : nm) (l : list (Z -> R)) : Prop :=
  ring count (fun k x => holds (device st) (snapshots k) x) l /\
  autocorrelations st = map (nm_lag_list l) (seq 0 (length l)).

Lemma nm_buffers_eq now : nm_buffers count snapshots now =
  map Some (map (fun i => snapshots ((now - i) mod count)) (seq 0 (Nat.min count (now + 1)))) ++ repeat None (count - (now + 1)).
Proof.
  unfold nm_buffers.
  replace (seq 0 count) with (seq 0 (Nat.min count (now + 1)) ++ seq (0 + Nat.min count (now + 1)) (count - (now + 1))).
  2:{ rewrite <- seq_app. f_equal. lia. }
  rewrite map_app, map_map. f_equal.
  - apply map_ext_in. intros i Hi. apply in_seq in Hi. replace (now <? i)%nat with false; [reflexivity|].
    symmetry. apply Nat.ltb_ge. lia.
  - transitivity (map (fun _ : nat => @None Z) (seq (0 + Nat.min count (now + 1)) (count - (now + 1)))).
    + apply map_ext_in. intros i Hi. apply in_seq in Hi. replace (now <? i)%nat with true; [reflexivity|].
      symmetry. apply Nat.ltb_lt. lia.
    + rewrite <- (seq_length (count - (now + 1)) (0 + Nat.min count (now + 1))) at 2.
      induction (seq (0 + Nat.min count (now + 1)) (count - (now + 1))) as [|? ? E]; [reflexivity|]. cbn. now rewrite E.
Qed.
Lemma nm_lags_eq m cur (f : nat -> Z) (g : nat -> Z -> R) y ds n :
  (forall d, In d ds -> holds m (f d) (g d)) -> holds m cur y ->
  nm_lags N C m cur (map Some (map f ds) ++ repeat None n) =
  Some (map (fun d => map (fun p => corr p (g d) y) modes) ds).
Proof.
  intros H Hy. induction ds as [|d ds IH]; [now destruct n|]. cbn [map app nm_lags].
  rewrite (average_value N C shift HN HC H32 m (f d) cur (g d) y) by (auto; apply H; left; reflexivity).
  rewrite IH by (intros; apply H; now right). reflexivity.
Qed.
Lemma nm_lag_list_app l x T : (T < length l)%nat -> nm_lag_list (l ++ [x]) T = nm_lag_list l T.
Proof.
  intros H. unfold nm_lag_list. apply map_ext_in. intros d Hd. apply in_seq in Hd. apply map_ext_in. intros p _.
  now rewrite !app_nth1 by lia.
Qed.
(** Moving the particles does not change the buffers. *)
Lemma simulate_holds m x k y : (k < count)%nat -> holds m (snapshots k) y -> holds (simulate N C P m x) (snapshots k) y.
Proof.
  intros Hk H a Ha. rewrite <- (H a Ha). unfold simulate. specialize (Hpos k Hk). unfold apart in Hpos.
  destruct (Z.leb_spec P (snapshots k + a)), (Z.ltb_spec (snapshots k + a) (P + 3 * C * N)); try reflexivity. lia.
Qed.

Lemma nm_takes st l x units : nm_inv st l -> StarModel.launched C units -> (l = [] \/ S (sweeps st) = every) ->
  exists st', nm_measure N C P every count shift snapshots units (Nm (simulate N C P (device st) x) (sweeps st) (autocorrelations st)) = Some st' /\
  nm_inv st' (l ++ [x]) /\ sweeps st' = 0%nat.
Proof.
  intros (R & D) U Cn. unfold nm_measure. cbn [device sweeps autocorrelations].
  assert (LD : length (autocorrelations st) = length l) by (rewrite D, map_length, seq_length; reflexivity).
  replace (negb (S (sweeps st) =? every)%nat && negb (length (autocorrelations st) =? 0)%nat) with false.
  2:{ symmetry. apply andb_false_iff. destruct Cn as [->|Cn]; [right|left]; apply negb_false_iff, Nat.eqb_eq; [exact LD|exact Cn]. }
  rewrite LD.
  assert (B : (length l mod count < count)%nat) by (apply Nat.mod_upper_bound; lia).
  set (b0 := snapshots (length l mod count)).
  set (m := computeNormalCoordinates units N C P b0 shift (simulate N C P (device st) x)).
  assert (Hnew : holds m b0 x).
  { intros a Ha. unfold m. rewrite host_writes by (auto; apply Hpos, B).
    destruct (Z.leb_spec b0 (b0 + a)), (Z.ltb_spec (b0 + a) (b0 + W)); try lia. cbn [andb].
    replace (b0 + a - b0)%Z with a by ring. apply (value_element N C P shift); [lia|exact Ha|].
    intros k Hk. unfold simulate.
    destruct (Z.leb_spec P (P + k)), (Z.ltb_spec (P + k) (P + 3 * C * N)); try lia. cbn [andb]. f_equal. ring. }
  assert (Hold : forall k y, (k < count)%nat -> k <> (length l mod count)%nat -> holds (device st) (snapshots k) y -> holds m (snapshots k) y).
  { intros k y Hk Hne H a Ha. unfold m. rewrite host_writes by (auto; apply Hpos, B).
    pose proof (Hroom k (length l mod count) Hk B Hne) as X. fold b0 in X.
    destruct (Z.leb_spec b0 (snapshots k + a)), (Z.ltb_spec (snapshots k + a) (b0 + W)); cbn [andb]; try lia;
      apply (simulate_holds (device st) x k y Hk H a Ha). }
  assert (HR : ring count (fun k y => holds m (snapshots k) y) (l ++ [x])).
  { apply ring_step with (h := fun k y => holds (device st) (snapshots k) y); [lia|exact R|exact Hnew|exact Hold]. }
  assert (EL : nm_lags N C m b0 (nm_buffers count snapshots (length l)) = Some (nm_lag_list (l ++ [x]) (length l))).
  { rewrite nm_buffers_eq.
    rewrite (nm_lags_eq m b0 _ (fun d => nth (length l - d) (l ++ [x]) x0) x).
    - unfold nm_lag_list. f_equal. apply map_ext. intros d. apply map_ext. intros p. f_equal.
      rewrite app_nth2, Nat.sub_diag by lia. reflexivity.
    - intros d Hd. apply in_seq in Hd. apply HR; [|rewrite app_length; cbn; lia].
      apply nth_error_nth'. rewrite app_length. cbn. lia.
    - exact Hnew. }
  assert (EB : exists r, nm_buffers count snapshots (length l) = Some b0 :: r).
  { rewrite nm_buffers_eq. replace (Nat.min count (length l + 1)) with (S (Nat.min count (length l + 1) - 1)) by lia.
    cbn [seq map app]. rewrite Nat.sub_0_r. fold b0. eexists. reflexivity. }
  destruct EB as [r EB]. rewrite EB in EL |- *. fold m. rewrite EL.
  eexists. split; [reflexivity|]. split; [|reflexivity]. split; [exact HR|].
  cbn [autocorrelations]. rewrite app_length. cbn [length]. replace (length l + 1)%nat with (S (length l)) by lia.
  rewrite seq_S, map_app. cbn [map plus]. f_equal.
  rewrite D. apply map_ext_in. intros T HT. apply in_seq in HT. symmetry. apply nm_lag_list_app. lia.
Qed.
Lemma nm_passes st l x units : nm_inv st l -> l <> [] -> S (sweeps st) <> every ->
  exists st', nm_measure N C P every count shift snapshots units (Nm (simulate N C P (device st) x) (sweeps st) (autocorrelations st)) = Some st' /\
  nm_inv st' l /\ sweeps st' = S (sweeps st).
Proof.
  intros (R & D) NE Cn. unfold nm_measure. cbn [device sweeps autocorrelations].
  assert (LD : length (autocorrelations st) = length l) by (rewrite D, map_length, seq_length; reflexivity).
  replace (negb (S (sweeps st) =? every)%nat && negb (length (autocorrelations st) =? 0)%nat) with true.
  - eexists. split; [reflexivity|]. split; [|reflexivity]. split; [|exact D].
    intros j y Hj Hl. apply simulate_holds; [apply Nat.mod_upper_bound; lia|]. apply R; assumption.
  - symmetry. apply andb_true_iff. split; apply negb_true_iff, Nat.eqb_neq; [exact Cn|]. destruct l; [congruence|]. cbn in LD. lia.
Qed.
Lemma nm_runs calls : Forall (fun c => StarModel.launched C (snd c)) calls ->
  forall st l k, nm_inv st l -> (l = [] -> k = 0%nat) -> (l <> [] -> (sweeps st + k + 1 = every)%nat) ->
  exists st', nm_run N C P every count shift snapshots calls st = Some st' /\ nm_inv st' (l ++ thin every k (map fst calls)).
Proof.
  induction 1 as [|[x units] calls U F IH]; intros st l k Iv E NE; cbn [nm_run map thin fst].
  - exists st. now rewrite app_nil_r.
  - destruct k as [|k].
    + assert (Cn : l = [] \/ S (sweeps st) = every) by (destruct l; [now left|right; specialize (NE ltac:(discriminate)); lia]).
      destruct (nm_takes st l x units Iv U Cn) as (st' & -> & I' & S').
      change (x :: thin every (every - 1) (map fst calls)) with ([x] ++ thin every (every - 1) (map fst calls)). rewrite app_assoc.
      apply IH; [exact I'| |].
      * intros G. destruct l; discriminate.
      * intros _. rewrite S'. lia.
    + assert (NL : l <> []) by (intros G; specialize (E G); discriminate).
      specialize (NE NL). destruct (nm_passes st l x units Iv NL ltac:(lia)) as (st' & -> & I' & S').
      apply IH; [exact I'|congruence|]. intros _. rewrite S'. lia.
Qed.
Lemma nm_all m calls : Forall (fun c => StarModel.launched C (snd c)) calls ->
  exists st, nm_run N C P every count shift snapshots calls (nm_new m) = Some st /\ nm_inv st (measured every (map fst calls)).
Proof.
  intros F. unfold measured. change (thin every 0 (map fst calls)) with ([] ++ thin every 0 (map fst calls)).
  apply nm_runs; [exact F| |reflexivity|congruence]. split; [apply ring_nil|reflexivity].
Qed.
Lemma nm_get st l t T p : nm_inv st l -> (t <= T < length l)%nat -> (T - t < count)%nat -> (p <= n_ N)%nat ->
  getAutocorrelation st t T p = Some (corr p (nth T l x0) (nth t l x0)).
Proof.
  intros (_ & D) H Cn Hp. unfold getAutocorrelation. rewrite D.
  assert (nth_error (map (nm_lag_list l) (seq 0 (length l))) T = Some (nm_lag_list l T)) as ->.
  { rewrite nth_error_map. rewrite (nth_error_nth' _ 0%nat) by (rewrite seq_length; lia). rewrite seq_nth by lia. reflexivity. }
  unfold nm_lag_list. rewrite nth_error_map. rewrite (nth_error_nth' _ 0%nat) by (rewrite seq_length; lia). rewrite seq_nth by lia.
  cbn [option_map]. rewrite nth_error_map. rewrite (nth_error_nth' _ 0%nat) by (rewrite seq_length; lia). rewrite seq_nth by lia.
  cbn [option_map plus]. replace (T - (T - t))%nat with t by lia. f_equal. apply correlation_sym.
Qed.

Section File.
Variable show : R -> string.
Variable float : string -> option Qc.
Variable rd : R -> Qc.
Hypothesis Hprints : prints_as show float rd.

Definition vals (l : list (Z -> R)) (t d : nat) : list R := map (fun p => corr p (nth (t + d) l x0) (nth t l x0)) modes.
Definition nm_row_of (l : list (Z -> R)) (t d : nat) : string := nm_row show t d (vals l t d).
Definition nm_rows (l : list (Z -> R)) (t : nat) : list string := map (nm_row_of l t) (seq 0 (Nat.min count (length l - t))).

Lemma nm_save_lags_eq st l t : nm_inv st l -> forall n a, (a + n = count)%nat ->
  nm_save_lags N show st t (seq a n) = Some (concat_text (map (nm_row_of l t) (seq a (Nat.min n (length l - t - a))))).
Proof.
  intros Iv. assert (LD : length (autocorrelations st) = length l) by (destruct Iv as (_ & ->); rewrite map_length, seq_length; reflexivity).
  induction n as [|n IH]; intros a En; [reflexivity|]. cbn [seq nm_save_lags]. rewrite LD.
  destruct (Nat.leb_spec (length l) (t + a)) as [H|H].
  - replace (Nat.min (S n) (length l - t - a)) with 0%nat by lia. reflexivity.
  - rewrite (all_some_map _ (fun p => corr p (nth (t + a) l x0) (nth t l x0))).
    + rewrite IH by lia.
      replace (Nat.min (S n) (length l - t - a)) with (S (Nat.min n (length l - t - S a))) by lia.
      cbn [seq map]. rewrite VtfTextProof.concat_cons. reflexivity.
    + intros p Hp. apply in_seq in Hp. fold (n_ N) in Hp. apply (nm_get st l t (t + a) p Iv); lia.
Qed.
Lemma nm_save_eq st l : nm_inv st l -> nm_save N count show st = Some (concat_text (flat_map (nm_rows l) (seq 0 (length l)))).
Proof.
  intros Iv. unfold nm_save. replace (length (autocorrelations st)) with (length l).
  2:{ destruct Iv as (_ & ->). now rewrite map_length, seq_length. }
  induction (seq 0 (length l)) as [|t ts IH]; [reflexivity|]. cbn [nm_save_times flat_map].
  rewrite (nm_save_lags_eq st l t Iv count 0) by lia. rewrite IH, VtfTextProof.concat_app. rewrite Nat.sub_0_r. reflexivity.
Qed.

Lemma nm_row_words t d vs : words is_ws (nm_row show t d vs) = str_of_Z (Z.of_nat t) :: str_of_Z (Z.of_nat d) :: map show vs.
Proof.
  unfold nm_row.
  assert (Z0 : forall n, str_of_Z (Z.of_nat n) <> ""%string) by (intros n; apply str_of_Z_nonempty).
  assert (P0 : forall n, wordy is_ws (str_of_Z (Z.of_nat n)) = true) by (intros n; apply id_no_space; lia).
  assert (G : forall w vs, w <> ""%string -> wordy is_ws w = true ->
    words is_ws (w ++ concat_text (map (fun v => String "009" (show v)) vs) ++ eol)%string = w :: map show vs).
  { clear vs. intros w vs. revert w. induction vs as [|v vs IH]; intros w Hw Hw'.
    - change (concat_text (map (fun v => String "009" (show v)) []) ++ eol)%string with (String "010" ""). now rewrite words_cons.
    - cbn [map]. rewrite VtfTextProof.concat_cons. rewrite append_assoc'. cbn [append]. rewrite words_cons by (auto; reflexivity).
      f_equal. apply IH; apply Hprints. }
  cbn [append]. rewrite words_cons by (auto || reflexivity). f_equal. now apply G.
Qed.
Lemma nm_row_keep t d vs s : keep_lines (nm_row show t d vs ++ s)%string = nm_row show t d vs :: keep_lines s.
Proof.
  assert (E : nm_row show t d vs = ((str_of_Z (Z.of_nat t) ++ String "009" (str_of_Z (Z.of_nat d)) ++ concat_text (map (fun v => String "009" (show v)) vs)) ++ eol)%string).
  { unfold nm_row. repeat (progress (rewrite ?append_assoc'; cbn [append])). reflexivity. }
  assert (V : has_char newline (concat_text (map (fun v => String "009" (show v)) vs)) = false).
  { clear E. induction vs as [|v vs IH]; [reflexivity|]. cbn [map]. rewrite VtfTextProof.concat_cons. rewrite has_char_app, IH, orb_false_r.
    cbn [has_char]. rewrite no_space_newline by apply Hprints. reflexivity. }
  rewrite E. set (w := (str_of_Z _ ++ _)%string).
  assert (H : has_char newline w = false).
  { unfold w. repeat (progress (rewrite ?has_char_app; cbn [has_char append])). rewrite V.
    rewrite !no_space_newline by (apply id_no_space; lia). reflexivity. }
  rewrite append_assoc'. exact (keep_cons w s H).
Qed.
Lemma nm_keep l ts : keep_lines (concat_text (flat_map (nm_rows l) ts)) = flat_map (nm_rows l) ts.
Proof.
  assert (G : forall rs, (forall r, In r rs -> exists t d, r = nm_row_of l t d) -> keep_lines (concat_text rs) = rs).
  { induction rs as [|r rs IH]; intros H; [reflexivity|]. rewrite VtfTextProof.concat_cons.
    destruct (H r (or_introl eq_refl)) as (t & d & ->). unfold nm_row_of. rewrite nm_row_keep, IH; [reflexivity|].
    intros q Hq. apply H. now right. }
  apply G. intros r Hr. apply in_flat_map in Hr. destruct Hr as (t & _ & Hr). unfold nm_rows in Hr. apply in_map_iff in Hr.
  destruct Hr as (d & <- & _). exists t, d. reflexivity.
Qed.

(** Reading. *)
Definition read_at (l : list (Z -> R)) (p t n : nat) : list Qc := map (fun d => rd (corr p (nth (t + d) l x0) (nth t l x0))) (seq 0 n).
Definition started (A : list (list Qc)) (r : list Qc) : list (list Qc) := match r with [] => A | _ => A ++ [r] end.
Lemma append_last A r x : append_at (A ++ [r]) (length A) x = A ++ [r ++ [x]].
Proof. induction A as [|a A IH]; [reflexivity|]. cbn. now rewrite IH. Qed.
Lemma nma_mode_ok A r x : nma_mode (started A r) (Z.of_nat (length A)) (Z.of_nat (length r)) x = Ok (started A (r ++ [x])).
Proof.
  assert (E : started A (r ++ [x]) = A ++ [r ++ [x]]) by (destruct r; reflexivity). rewrite E. unfold nma_mode.
  assert (F : (if Z.leb (Z.of_nat (length (started A r))) (Z.of_nat (length A))
           then if Z.eqb (Z.of_nat (length A)) (Z.of_nat (length (started A r))) then Ok (started A r ++ [[]]) else Err AssertionError
           else Ok (started A r)) = Ok (A ++ [r])).
  { destruct r as [|y r]; cbn [started].
    - rewrite Z.leb_refl, Z.eqb_refl. reflexivity.
    - rewrite app_length. cbn [length]. rewrite (proj2 (Z.leb_gt _ _)) by lia. reflexivity. }
  rewrite F. cbn [bind].
  unfold py_index. rewrite app_length. cbn [length]. rewrite (proj2 (Z.leb_le _ _)), (proj2 (Z.ltb_lt _ _)) by lia. cbn [bind].
  rewrite Nat2Z.id, app_nth2, Nat.sub_diag by lia. cbn [nth]. rewrite Z.eqb_refl. now rewrite append_last.
Qed.
Lemma nma_modes_ok (vf : nat -> R) (A : nat -> list (list Qc)) (r : nat -> list Qc) len n ps :
  (forall p, In p ps -> length (A p) = len) -> (forall p, In p ps -> length (r p) = n) ->
  nma_modes float (map (fun p => started (A p) (r p)) ps) (Z.of_nat len) (Z.of_nat n) (map show (map vf ps)) =
  Ok (map (fun p => started (A p) (r p ++ [rd (vf p)])) ps).
Proof.
  induction ps as [|p ps IH]; intros HA Hr; [reflexivity|]. cbn [map nma_modes]. rewrite (proj1 (Hprints (vf p))).
  rewrite <- (HA p (or_introl eq_refl)) at 1. rewrite <- (Hr p (or_introl eq_refl)) at 1. rewrite nma_mode_ok. cbn [bind].
  rewrite IH; [reflexivity| |]; intros q Hq; [apply HA|apply Hr]; now right.
Qed.
Definition shape (A : nat -> list (list Qc)) : analysis := Analysis (map A modes) (Some (length modes)).
(** The rows of a starting time. *)
Lemma nma_rows_ok l t start (A : nat -> list (list Qc)) : (forall p, In p modes -> length (A p) = (start + t)%nat) ->
  forall n s, (s = shape A \/ (s = nma_new /\ forall p, In p modes -> A p = [])) -> forall m,
  nma_lines float start s (map (nm_row_of l t) (seq 0 (S n)) ++ m) =
  nma_lines float start (shape (fun p => started (A p) (read_at l p t (S n)))) m.
Proof.
  intros HA n.
  assert (NE : modes <> []) by (unfold n_; rewrite Nat.add_1_r; discriminate).
  assert (L1 : forall s k m, (s = shape (fun p => started (A p) (read_at l p t k)) \/ (k = 0%nat /\ s = nma_new /\ forall p, In p modes -> A p = [])) ->
    nma_lines float start s (nm_row_of l t k :: m) =
    nma_lines float start (shape (fun p => started (A p) (read_at l p t (S k)))) m).
  { intros s k m Hs. cbn [nma_lines]. unfold nma_line. unfold nm_row_of at 1. rewrite nm_row_words.
    assert (EV : exists v vs, map show (vals l t k) = v :: vs).
    { unfold vals. destruct modes as [|p ps]; [congruence|]. cbn. eauto. }
    destruct EV as (v & vs & EV). rewrite EV. rewrite <- EV.
    assert (LV : length (map show (vals l t k)) = length modes) by (unfold vals; now rewrite !map_length).
    assert (EB : (match normalModeCount s with
             | None => Ok (Analysis (repeat [] (length (map show (vals l t k)))) (Some (length (map show (vals l t k)))))
             | Some n => if Nat.eqb (length (map show (vals l t k))) n then Ok s else Err ValueError
             end) = Ok (shape (fun p => started (A p) (read_at l p t k)))).
    { rewrite LV. destruct Hs as [->|(-> & -> & HE)].
      - cbn [shape normalModeCount]. now rewrite Nat.eqb_refl.
      - cbn [nma_new normalModeCount bind]. f_equal. unfold shape. f_equal. cbn [read_at seq map].
        clear - HE. induction modes as [|p ps IH]; [reflexivity|]. cbn [length repeat map]. unfold started at 1. rewrite HE by (left; reflexivity).
        f_equal. apply IH. intros q Hq. apply HE. now right. }
    rewrite EB. cbn [bind]. rewrite !Z_of_str_of_Z. cbn [shape measurements normalModeCount].
    rewrite <- Nat2Z.inj_add. replace (t + start)%nat with (start + t)%nat by lia.
    unfold vals at 1.
    rewrite (nma_modes_ok (fun p => corr p (nth (t + k) l x0) (nth t l x0)) A (fun p => read_at l p t k) (start + t) k modes).
    - cbn [bind]. f_equal. unfold shape. f_equal. apply map_ext. intros p. f_equal. unfold read_at. rewrite seq_S, map_app. reflexivity.
    - exact HA.
    - intros p _. unfold read_at. now rewrite map_length, seq_length. }
  induction n as [|n IH]; intros s Hs m.
  - change (map (nm_row_of l t) (seq 0 1) ++ m) with (nm_row_of l t 0 :: m). apply L1.
    destruct Hs as [->|[-> HE]]; [left; reflexivity|right; auto].
  - rewrite seq_S, map_app, <- app_assoc. rewrite IH by exact Hs. cbn [map app plus]. apply L1. now left.
Qed.
(** A file. *)
Definition read_run (l : list (Z -> R)) (p : nat) : list (list Qc) :=
  map (fun t => read_at l p t (Nat.min count (length l - t))) (seq 0 (length l)).
Lemma nma_times_ok l start (A : nat -> list (list Qc)) n : (n <= length l)%nat -> (forall p, In p modes -> length (A p) = start) ->
  forall s, (s = shape A \/ (s = nma_new /\ forall p, In p modes -> A p = [])) -> forall m,
  nma_lines float start s (flat_map (nm_rows l) (seq 0 (S n)) ++ m) =
  nma_lines float start (shape (fun p => A p ++ map (fun t => read_at l p t (Nat.min count (length l - t))) (seq 0 (S n)))) m \/ n = length l.
Proof.
  intros Hn HA s Hs. induction n as [|n IH]; intros m.
  - destruct (Nat.eq_dec 0 (length l)) as [E|E]; [right; exact E|left]. cbn [seq flat_map]. rewrite app_nil_r.
    unfold nm_rows at 1. cbn [map]. rewrite !Nat.sub_0_r.
    destruct (Nat.min count (length l)) as [|k] eqn:Ek; [lia|].
    rewrite (nma_rows_ok l 0 start A) by (auto; intros p Hp; rewrite HA by exact Hp; lia); reflexivity.
  - destruct (Nat.eq_dec (S n) (length l)) as [E|E]; [right; exact E|left].
    rewrite seq_S, flat_map_app, <- app_assoc. destruct (IH ltac:(lia) (flat_map (nm_rows l) [(0 + S n)%nat] ++ m)) as [G|G]; [|lia].
    rewrite G. cbn [flat_map plus]. rewrite app_nil_r. unfold nm_rows.
    destruct (Nat.min count (length l - S n)) as [|k] eqn:Ek; [lia|].
    rewrite (nma_rows_ok l (S n) start (fun p => A p ++ map (fun t => read_at l p t (Nat.min count (length l - t))) (seq 0 (S n)))).
    + f_equal. unfold shape. f_equal. apply map_ext. intros p. rewrite map_app, app_assoc. cbn [map plus].
      rewrite Ek. reflexivity.
    + intros p Hp. rewrite app_length, map_length, seq_length, HA by exact Hp. reflexivity.
    + now left.
Qed.
Lemma nma_parse_ok l (A : nat -> list (list Qc)) len s : (forall p, In p modes -> length (A p) = len) ->
  (s = shape A \/ (s = nma_new /\ forall p, In p modes -> A p = [])) ->
  nma_parse false float s (concat_text (flat_map (nm_rows l) (seq 0 (length l)))) =
  Ok (match l with [] => s | _ => shape (fun p => A p ++ read_run l p) end).
Proof.
  intros HA Hs. unfold nma_parse. rewrite nm_keep.
  destruct l as [|x l]; [reflexivity|].
  assert (ES : match measurements s with [] => O | a :: _ => length a end = len).
  { assert (H0 : In 0%nat modes) by (apply in_seq; lia). destruct Hs as [->|[-> HE]].
    - cbn [shape measurements]. replace modes with (0 :: seq 1 (n_ N))%nat by now rewrite Nat.add_1_r. cbn [map]. now apply HA.
    - cbn. rewrite <- (HA _ H0), HE by exact H0. reflexivity. }
  rewrite ES.
  destruct (nma_times_ok (x :: l) len A (length l) ltac:(cbn; lia) HA s Hs []) as [G|G]; [|cbn in G; lia].
  rewrite app_nil_r in G. cbn [length]. rewrite G. reflexivity.
Qed.
Lemma nma_files_ok ls : forall (A : nat -> list (list Qc)) len s, (forall p, In p modes -> length (A p) = len) ->
  (s = shape A \/ (s = nma_new /\ forall p, In p modes -> A p = [])) ->
  exists s', nma_files false float s (map (fun l => concat_text (flat_map (nm_rows l) (seq 0 (length l)))) ls) = Ok s' /\
  (s' = shape (fun p => A p ++ flat_map (fun l => read_run l p) ls) \/ (s' = nma_new /\ s = nma_new /\ Forall (fun l => l = []) ls)).
Proof.
  induction ls as [|l ls IH]; intros A len s HA Hs.
  - exists s. split; [reflexivity|]. destruct Hs as [->|[-> HE]]; [left|right; auto].
    unfold shape. f_equal. apply map_ext. intros p. now rewrite app_nil_r.
  - cbn [map nma_files]. rewrite (nma_parse_ok l A len s HA Hs). cbn [bind].
    destruct l as [|x l].
    + destruct (IH A len s HA Hs) as (s' & E & [D|(D1 & D2 & D3)]); exists s'; (split; [exact E|]).
      * left. rewrite D. reflexivity.
      * right. auto.
    + destruct (IH (fun p => A p ++ read_run (x :: l) p) (len + length (x :: l))%nat (shape (fun p => A p ++ read_run (x :: l) p))) as (s' & E & [D|(D1 & D2 & D3)]).
      * intros p Hp. rewrite app_length, HA by exact Hp. unfold read_run. now rewrite map_length, seq_length.
      * now left.
      * exists s'. split; [exact E|]. left. rewrite D. unfold shape. f_equal. apply map_ext. intros p. cbn [flat_map]. now rewrite app_assoc.
      * discriminate.
Qed.

(** The statistics. *)
Lemma picked {A} (F : A -> list Qc) d l c :
  fold_left (fun stat r => match nth_error (F r) d with Some x => ddda_add stat x | None => stat end) l c =
  fold_left ddda_add (flat_map (fun r => match nth_error (F r) d with Some x => [x] | None => [] end) l) c.
Proof.
  revert c. induction l as [|r l IH]; intros c; [reflexivity|]. cbn [fold_left flat_map]. rewrite fold_left_app, IH.
  now destruct (nth_error (F r) d).
Qed.
Lemma picked_run l p d : (d < count)%nat -> flat_map (fun r => match nth_error r d with Some x => [x] | None => [] end) (read_run l p) =
  lagged (fun x y => rd (corr p x y)) d l.
Proof.
  intros Hd. unfold read_run. rewrite flat_map_concat_map, map_map, <- flat_map_concat_map.
  replace (seq 0 (length l)) with (seq 0 (length l - d) ++ seq (length l - d) (length l - (length l - d))).
  2:{ rewrite <- (Nat.add_0_l (length l - d)) at 2. rewrite <- seq_app. f_equal. lia. }
  assert (E : forall t, nth_error (read_at l p t (Nat.min count (length l - t))) d =
    if Nat.ltb (t + d) (length l) then Some (rd (corr p (nth (t + d) l x0) (nth t l x0))) else None).
  { intros t. unfold read_at. rewrite nth_error_map. destruct (Nat.ltb_spec (t + d) (length l)).
    - rewrite (nth_error_nth' _ 0%nat) by (rewrite seq_length; lia). rewrite seq_nth by lia. reflexivity.
    - rewrite (proj2 (nth_error_None _ _)); [reflexivity|]. rewrite seq_length. lia. }
  rewrite flat_map_app, (flat_map_none _ (seq (length l - d) _)), app_nil_r.
  - rewrite (flat_map_one _ (fun t => rd (corr p (nth (t + d) l x0) (nth t l x0)))).
    + apply nth_ext with (d := Q2Qc 0) (d' := Q2Qc 0).
      * now rewrite map_length, seq_length, lagged_length.
      * intros t Ht. rewrite map_length, seq_length in Ht.
        rewrite (nth_indep _ (Q2Qc 0) (rd (corr p (nth (0 + d) l x0) (nth 0 l x0)))) by now rewrite map_length, seq_length.
        rewrite (map_nth (fun t => rd (corr p (nth (t + d) l x0) (nth t l x0)))), seq_nth by lia. cbn [plus].
        symmetry. apply (lagged_nth (fun x y => rd (corr p x y))). lia.
    + intros t Ht. apply in_seq in Ht. rewrite E. destruct (Nat.ltb_spec (t + d) (length l)); [reflexivity|lia].
  - intros t Ht. apply in_seq in Ht. rewrite E. destruct (Nat.ltb_spec (t + d) (length l)); [lia|reflexivity].
Qed.
Lemma nma_end_to_end (runs : list (memory * list ((Z -> R) * list Z))) :
  (forall run c, In run runs -> In c (snd run) -> StarModel.launched C (snd c)) -> (exists run, In run runs /\ snd run <> []) ->
  exists files s,
  Forall2 (fun run file => exists st, nm_run N C P every count shift snapshots (snd run) (nm_new (fst run)) = Some st /\
    nm_save N count show st = Some file) runs files /\
  nma_files false float nma_new files = Ok s /\
  (forall p d, (0 <= p <= N)%Z -> (0 <= d < Z.of_nat count)%Z ->
    nma_get count s p d = Ok (fold_left ddda_add
      (flat_map (fun run => lagged (fun x y => rd (corr (Z.to_nat p) x y)) (Z.to_nat d) (measured every (map fst (snd run)))) runs) ddda_new)) /\
  (forall p d, (p < 0 \/ N < p \/ d < 0 \/ Z.of_nat count <= d)%Z -> nma_get count s p d = Err ValueError).
Proof.
  intros HU HE. set (ms := fun run : memory * list ((Z -> R) * list Z) => measured every (map fst (snd run))).
  destruct (nma_files_ok (map ms runs) (fun _ => []) 0 nma_new ltac:(reflexivity) (or_intror (conj eq_refl (fun _ _ => eq_refl)))) as (s & E & D).
  exists (map (fun l => concat_text (flat_map (nm_rows l) (seq 0 (length l)))) (map ms runs)), s.
  split; [|split].
  - rewrite map_map. clear HE E D. induction runs as [|run runs IH]; [constructor|]. cbn [map]. constructor.
    + destruct (nm_all (fst run) (snd run)) as (st & E & Iv).
      { apply Forall_forall. intros c Hc. apply (HU run c); [left; reflexivity|exact Hc]. }
      exists st. split; [exact E|]. apply nm_save_eq, Iv.
    + apply IH. intros r c Hr. apply HU. now right.
  - exact E.
  - destruct D as [->|(_ & _ & F)].
    1: split; [intros p d Hp Hd|intros p d Hpd].
    + unfold nma_get, shape. cbn [normalModeCount measurements]. rewrite seq_length.
      rewrite (proj2 (Z.ltb_ge p 0)), (proj2 (Z.leb_gt _ _)) by (unfold n_; lia). cbn [orb].
      rewrite (proj2 (Z.ltb_ge d 0)), (proj2 (Z.ltb_ge _ _)) by lia.
      rewrite nth_error_map, (nth_error_nth' _ 0%nat) by (rewrite seq_length; unfold n_; lia).
      rewrite seq_nth by (unfold n_; lia). cbn [option_map plus app]. f_equal.
      rewrite (picked (fun r => r)). f_equal.
      clear E HE HU. induction runs as [|run runs IH]; [reflexivity|]. cbn [map flat_map]. rewrite flat_map_app. f_equal.
      * apply picked_run. lia.
      * apply IH.
    + unfold nma_get, shape. cbn [normalModeCount measurements]. rewrite seq_length.
      destruct (Z.ltb_spec p 0); [reflexivity|]. destruct (Z.leb_spec (Z.of_nat (n_ N + 1)) p); [reflexivity|]. cbn [orb].
      destruct (Z.ltb_spec d 0); [reflexivity|]. destruct (Z.ltb_spec (Z.of_nat count - 1) d); [reflexivity|]. unfold n_ in *. lia.
    + exfalso. destruct HE as (run & Hr & Hne). rewrite Forall_forall in F. specialize (F (ms run) (in_map ms _ _ Hr)).
      unfold ms, measured in F. destruct (snd run) as [|c r]; [congruence|]. discriminate.
Qed.
End File.
End Run.
