From Verif Require Import QcBase PyBase OtfsModel OtfsSpec DddaModel DddaSpec DddaProof ChainModel BondSpec.
Open Scope Qc_scope.


Lemma good_fed l : good (fed l) l.
Proof.
  induction l as [|x l IH] using rev_ind; [exact good_new|].
  unfold fed. rewrite fold_left_app. cbn [fold_left]. apply good_add. exact IH.
Qed.
Lemma add_at_length l : forall p x, length (add_at l p x) = length l.
Proof. induction l as [|d l IH]; intros [|p] x; cbn; auto. Qed.
Lemma add_at_nth l d0 : forall p x q, nth q (add_at l p x) d0 =
  if Nat.eqb q p then (if Nat.ltb p (length l) then ddda_add (nth q l d0) x else d0) else nth q l d0.
Proof.
  induction l as [|d l IH]; intros p x q.
  - cbn. destruct q; destruct (Nat.eqb _ p); reflexivity.
  - destruct p as [|p], q as [|q]; cbn [add_at nth Nat.eqb length]; try reflexivity.
    rewrite IH. reflexivity.
Qed.

Section Loop.
Variable f : nat -> Qc.
Lemma loop_length n : forall l, length (fold_left (fun l p => add_at l p (f p)) (seq 0 n) l) = length l.
Proof.
  induction n as [|n IH]; intros l; [reflexivity|].
  rewrite seq_S, fold_left_app. cbn [fold_left]. rewrite add_at_length. apply IH.
Qed.
Lemma loop_nth d0 n : forall l q, (n <= length l)%nat ->
  nth q (fold_left (fun l p => add_at l p (f p)) (seq 0 n) l) d0 =
  if Nat.ltb q n then ddda_add (nth q l d0) (f q) else nth q l d0.
Proof.
  induction n as [|n IH]; intros l q H; [reflexivity|].
  rewrite seq_S, fold_left_app. cbn [fold_left Nat.add]. rewrite add_at_nth, loop_length, IH by lia.
  destruct (Nat.eqb_spec q n) as [->|E].
  - destruct (Nat.ltb_spec n (length l)); [|lia].
    destruct (Nat.ltb_spec n n); [lia|]. destruct (Nat.ltb_spec n (S n)); [|lia]. reflexivity.
  - destruct (Nat.ltb_spec q n), (Nat.ltb_spec q (S n)); try reflexivity; lia.
Qed.
End Loop.

Definition bond2 (x : nat -> position) (m p i : nat) : Qc :=
  squared_distance (x (m * i + p)%nat) (x (m * i + p + 1)%nat).

Lemma measure_one_length x m chain l : length (chain_measure x m chain l) = length l.
Proof. apply loop_length. Qed.
Lemma measure_chains x m n : forall l D, length l = (m - 1)%nat ->
  (forall p, (p < m - 1)%nat -> nth p l ddda_new = fed (D p)) ->
  let l' := fold_left (fun l chain => chain_measure x m chain l) (seq 0 n) l in
  length l' = (m - 1)%nat /\
  forall p, (p < m - 1)%nat -> nth p l' ddda_new = fed (D p ++ map (bond2 x m p) (seq 0 n)).
Proof.
  induction n as [|n IH]; intros l D L H; cbv zeta.
  - split; [exact L|]. intros p Hp. cbn [seq map fold_left]. rewrite app_nil_r. apply H, Hp.
  - destruct (IH l D L H) as [L' H'].
    rewrite seq_S, fold_left_app. cbn [fold_left Nat.add]. split; [rewrite measure_one_length; exact L'|].
    intros p Hp. unfold chain_measure at 1.
    rewrite loop_nth by (rewrite L'; lia). rewrite H' by exact Hp.
    destruct (Nat.ltb_spec p (m - 1)); [|lia].
    rewrite map_app, app_assoc. unfold fed at 2. rewrite fold_left_app. cbn [map fold_left].
    unfold bond2. rewrite (Nat.mul_comm m n). reflexivity.
Qed.

Lemma measure_all xs m n : forall l D, length l = (m - 1)%nat ->
  (forall p, (p < m - 1)%nat -> nth p l ddda_new = fed (D p)) ->
  exists l', chains_measure_all xs n m (Some l) = Some l' /\ length l' = (m - 1)%nat /\
  forall p, (p < m - 1)%nat -> nth p l' ddda_new = fed (D p ++ squared_lengths position squared_distance xs n m p).
Proof.
  induction xs as [|x xs IH]; intros l D L H.
  - exists l. split; [reflexivity|]. split; [exact L|]. intros p Hp. cbn. rewrite app_nil_r. apply H, Hp.
  - destruct (measure_chains x m n l D L H) as [L' H'].
    destruct (IH _ (fun p => D p ++ map (bond2 x m p) (seq 0 n)) L' H') as (l' & E & L2 & H2).
    exists l'. split; [exact E|]. split; [exact L2|]. intros p Hp. rewrite (H2 p Hp).
    unfold squared_lengths. cbn [flat_map]. rewrite <- app_assoc. reflexivity.
Qed.
Lemma squared_lengths_length xs n m p : length (squared_lengths position squared_distance xs n m p) = (n * length xs)%nat.
Proof.
  unfold squared_lengths. induction xs as [|x xs IH]; cbn [flat_map length]; [lia|].
  rewrite app_length, map_length, seq_length, IH. lia.
Qed.

(** The C++ search always ends with a block that has a variance. *)
Lemma cpp_loop_total d k o :
  (forall i, (i < k)%nat -> (i <= maxBlockID d)%nat /\ (2 <= getSampleSize (block d i))%nat) ->
  exists b, cpp_optimal_loop d (se2 (block d 0)) k o = Ok b /\ ((b < k)%nat \/ b = o).
Proof.
  revert o. induction k as [|k IH]; intros o H.
  - cbn. exists o. auto.
  - cbn [cpp_optimal_loop]. destruct (H k) as [Hm Hs]; [lia|].
    unfold hasBlockVariance. destruct (Nat.ltb_spec (maxBlockID d) k); [lia|]. cbn [bind].
    apply Nat.leb_le in Hs. rewrite Hs. cbn [negb]. apply Nat.leb_le in Hs.
    rewrite se2_ok by assumption. cbn [bind].
    assert (H' : forall i, (i < k)%nat -> (i <= maxBlockID d)%nat /\ (2 <= getSampleSize (block d i))%nat)
      by (intros i Hi; apply H; lia).
    destruct (cpp_threshold_exceeded _ k _ _).
    + destruct (IH k H') as (b & E & C). exists b. split; [exact E|]. lia.
    + destruct (IH o H') as (b & E & C). exists b. split; [exact E|]. lia.
Qed.
Lemma has_variance d D i : good d D -> (2 <= length D)%nat -> (i <= Nat.log2 (length D) - 1)%nat ->
  (i <= maxBlockID d)%nat /\ (2 <= getSampleSize (block d i))%nat.
Proof.
  intros G HN Hi. pose proof (good_count G) as L.
  assert (L2 : (1 <= Nat.log2 (length D))%nat) by (apply Nat.log2_le_pow2; cbn; lia).
  destruct (Nat.log2_spec (length D)) as [A B]; [lia|].
  split; [unfold maxBlockID, block_count in *; lia|].
  rewrite (good_size i G). apply Nat.div_le_lower_bound; [apply Nat.pow_nonzero; lia|].
  rewrite Nat.mul_comm. change (2 * 2 ^ i)%nat with (2 ^ S i)%nat.
  etransitivity; [|exact A]. apply Nat.pow_le_mono_r; lia.
Qed.
Lemma cpp_total d D : good d D -> (2 <= length D)%nat ->
  exists b, cpp_optimalBlockID d = Ok b /\ (b <= Nat.log2 (length D) - 1)%nat.
Proof.
  intros G HN. pose proof (has_variance d D) as V.
  pose proof (good_size0 G) as S0. pose proof (good_count G) as L.
  assert (L2 : (1 <= Nat.log2 (length D))%nat) by (apply Nat.log2_le_pow2; cbn; lia).
  unfold cpp_optimalBlockID. rewrite S0. destruct (Nat.ltb_spec (length D) 2); [lia|].
  rewrite se2_ok by (apply (V 0%nat G HN); lia). cbn [bind].
  destruct (qeqb (se2 (block d 0)) 0). { exists 0%nat. split; [reflexivity|lia]. }
  assert (M : maxBlockID d = Nat.log2 (length D)) by (unfold maxBlockID, block_count in *; lia).
  rewrite M. cbn [cpp_optimal_loop]. unfold hasBlockVariance at 1. rewrite M.
  destruct (Nat.ltb_spec (Nat.log2 (length D)) (Nat.log2 (length D))); [lia|]. cbn [bind].
  assert (Z : Nat.leb 2 (getSampleSize (block d (Nat.log2 (length D)))) = false).
  { rewrite (good_size _ G). apply Nat.leb_gt. apply Nat.div_lt_upper_bound.
    - apply Nat.pow_nonzero; lia.
    - destruct (Nat.log2_spec (length D)) as [A B]; [lia|]. cbn [Nat.pow] in B. lia. }
  rewrite Z. cbn [negb]. rewrite Nat.eqb_refl.
  destruct (cpp_loop_total d (Nat.log2 (length D)) (Nat.log2 (length D) - 1)) as (b & E & HB).
  { intros i Hi. apply V; auto. lia. }
  exists b. split; [exact E|]. lia.
Qed.

Lemma answers_block D i : (i <= Nat.log2 (length D))%nat -> answers (block (fed D) i) (block_data D i).
Proof. intros H. destruct (stream_correct D) as [L A]. apply A. unfold fed, block_count in *. lia. Qed.
Lemma variance_of s D : answers s D -> (2 <= length D)%nat -> getSampleVariance s = Ok (variance D).
Proof. intros (_ & _ & V) H. rewrite V. destruct D as [|a [|b D]]; cbn in H; try lia. reflexivity. Qed.
Lemma row_ok p D : (2 <= length D)%nat -> exists r, chain_row p (fed D) = Ok r /\ good_row p D r.
Proof.
  intros H. pose proof (good_fed D) as G.
  destruct (cpp_total (fed D) D G H) as (b & E & Hb).
  destruct (has_variance (fed D) D 0 G H) as [M0 S0]; [lia|].
  destruct (has_variance (fed D) D b G H Hb) as [Mb Sb].
  assert (A0 := answers_block D 0 ltac:(lia)). rewrite block_data_0 in A0.
  assert (Ab := answers_block D b ltac:(lia)).
  assert (Lb : (2 <= length (block_data D b))%nat) by (destruct Ab as (X & _); lia).
  unfold chain_row, blockVariance, hasBlockVariance. destruct (Nat.ltb_spec (maxBlockID (fed D)) 0); [lia|]. cbn [bind].
  apply Nat.leb_le in S0. rewrite S0. rewrite (variance_of _ _ A0 H). cbn [bind].
  unfold ddda_mean. rewrite (good_size0 G). destruct (Nat.eqb_spec (length D) 0); [lia|].
  assert (SM : spec_mean D = Ok (OtfsSpec.mean D)) by (destruct D; [cbn in H; lia|reflexivity]).
  destruct A0 as (_ & A0 & _). rewrite A0, SM, E. cbn [bind].
  unfold cpp_optimalStandardError_squared, cpp_optimalIsReliable. rewrite E. cbn [bind].
  unfold hasBlockVariance. destruct (Nat.ltb_spec (maxBlockID (fed D)) b); [lia|]. cbn [bind].
  assert (Sb' := Sb). apply Nat.leb_le in Sb'. rewrite Sb'. rewrite se2_ok by exact Sb. cbn [bind].
  eexists. split; [reflexivity|]. unfold good_row. cbn [bond_number row_size row_mean row_deviation2 row_error2 row_block row_reliable].
  rewrite (good_size0 G). repeat (split; [reflexivity|]). split.
  { unfold se2. rewrite (variance_of _ _ Ab Lb). destruct Ab as (X & _). rewrite X. reflexivity. }
  split; [exact Lb|]. split; [reflexivity|].
  intros HZ. rewrite (cpp_optimal_eq G HZ) in E. destruct (good_optimal G H) as (b' & E' & DB & _).
  rewrite E in E'. injection E' as <-. exact DB.
Qed.
Lemma row_fails p D : (length D < 2)%nat -> chain_row p (fed D) = Err RuntimeError.
Proof.
  intros H. unfold chain_row, blockVariance, hasBlockVariance.
  destruct (Nat.ltb_spec (maxBlockID (fed D)) 0); [lia|]. cbn [bind].
  rewrite (good_size 0 (good_fed D)). cbn [Nat.pow]. rewrite Nat.div_1_r.
  destruct (Nat.leb_spec 2 (length D)); [lia|]. reflexivity.
Qed.
Lemma rows_ok : forall l k (D : nat -> list Qc), (forall p, (p < length l)%nat -> nth p l ddda_new = fed (D p) /\ (2 <= length (D p))%nat) ->
  exists rs, chain_rows k l = (rs, Ok tt) /\ length rs = length l /\
  forall p, (p < length l)%nat -> good_row (k + p) (D p) (nth p rs (Row 0 0 0 0 0 0 false)).
Proof.
  induction l as [|d l IH]; intros k D H.
  - exists []. split; [reflexivity|]. split; [reflexivity|]. cbn. lia.
  - destruct (H 0%nat) as [E L]; [cbn; lia|]. cbn [nth] in E.
    destruct (row_ok k (D 0%nat) L) as (r & Er & Gr).
    destruct (IH (k + 1)%nat (fun p => D (S p))) as (rs & Ers & Lrs & Grs).
    { intros p Hp. apply (H (S p)). cbn. lia. }
    exists (r :: rs). cbn [chain_rows]. rewrite E, Er, Ers. split; [reflexivity|]. split; [cbn; lia|].
    intros [|p] Hp; cbn [nth].
    + rewrite Nat.add_0_r. exact Gr.
    + replace (k + S p)%nat with (k + 1 + p)%nat by lia. apply Grs. cbn in Hp. lia.
Qed.

Lemma chains_saved xs N m c : chains_new true m = Ok c -> (2 <= N * length xs)%nat ->
  exists rs, chains_save (chains_measure_all xs N m c) = Some (rs, Ok tt) /\ length rs = (m - 1)%nat /\
  forall p, (p < m - 1)%nat -> good_row p (squared_lengths position squared_distance xs N m p) (nth p rs (Row 0 0 0 0 0 0 false)).
Proof.
  unfold chains_new. destruct (Nat.ltb_spec m 2) as [|Hm]; [discriminate|]. intros E H. injection E as <-.
  destruct (measure_all xs m N (repeat ddda_new (m - 1)) (fun _ => [])) as (l & E & L & Hl).
  { apply repeat_length. }
  { intros p Hp. apply nth_repeat. }
  rewrite E. cbn [chains_save].
  destruct (rows_ok l 0 (squared_lengths position squared_distance xs N m)) as (rs & Ers & Lrs & Grs).
  { intros p Hp. rewrite Hl by lia. rewrite squared_lengths_length. auto. }
  exists rs. rewrite Ers. split; [reflexivity|]. split; [congruence|]. intros p Hp. apply (Grs p). lia.
Qed.
Lemma chains_save_fails xs N m c : chains_new true m = Ok c -> (N * length xs < 2)%nat ->
  chains_save (chains_measure_all xs N m c) = Some ([], Err RuntimeError).
Proof.
  unfold chains_new. destruct (Nat.ltb_spec m 2) as [|Hm]; [discriminate|]. intros E H. injection E as <-.
  destruct (measure_all xs m N (repeat ddda_new (m - 1)) (fun _ => [])) as (l & E & L & Hl).
  { apply repeat_length. }
  { intros p Hp. apply nth_repeat. }
  rewrite E. cbn [chains_save]. destruct l as [|d l]; [cbn in L; lia|].
  specialize (Hl 0%nat ltac:(lia)). cbn [nth] in Hl. cbn [chain_rows]. rewrite Hl, row_fails; [reflexivity|].
  cbn [app]. rewrite squared_lengths_length. exact H.
Qed.
Lemma chains_unconfigured xs N m : exists c, chains_new false m = Ok c /\ chains_save (chains_measure_all xs N m c) = None.
Proof. exists None. split; [reflexivity|]. induction xs as [|x xs IH]; [reflexivity|exact IH]. Qed.
