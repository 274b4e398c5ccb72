From Verif Require Import QcBase PyBase OtfsModel OtfsSpec.
From Coq Require Import Field.
Set Implicit Arguments.
Open Scope Qc_scope.

(** Sum of squares. *)
Definition sumsq (l : list Qc) : Qc := qsum (map (fun x => x * x) l).

Lemma sumsq_app a b : sumsq (a ++ b) = sumsq a + sumsq b.
Proof. unfold sumsq. rewrite map_app, qsum_app. reflexivity. Qed.

Lemma devsq_expand c l :
  qsum (map (fun x => (x - c) * (x - c)) l)
  = sumsq l - (c + c) * qsum l + qn (length l) * (c * c).
Proof.
  induction l as [|x l IH]; unfold sumsq in *; cbn [map qsum length].
  - rewrite qn_0. ring.
  - rewrite IH, qn_S. ring.
Qed.

Lemma devsq_eq l : l <> [] ->
  devsq l = sumsq l - qsum l * qsum l / qn (length l).
Proof.
  intros H. unfold devsq. rewrite devsq_expand. unfold mean.
  assert (qn (length l) <> 0) by (apply qn_neq0; destruct l; [congruence|discriminate]).
  field. assumption.
Qed.

Lemma devsq_nonneg l : 0 <= devsq l.
Proof.
  apply qsum_nonneg. intros y Hy. apply in_map_iff in Hy.
  destruct Hy as [x [<- _]]. apply Qc_sq_nonneg.
Qed.

(** The representation invariant. *)
Definition rep (s : otfs) (l : list Qc) : Prop :=
  o_n s = length l /\ o_M s = mean l /\ o_S s = devsq l.

Lemma mean_nil : mean [] = 0.
Proof. unfold mean. cbn [qsum length]. unfold Qcdiv. ring. Qed.

Lemma rep_new : rep otfs_new [].
Proof.
  unfold rep. repeat split.
Qed.

Lemma length_app1 (l : list Qc) x : length (l ++ [x]) = S (length l).
Proof. rewrite app_length. simpl. lia. Qed.

Lemma len_neq0 (l : list Qc) : l <> [] -> qn (length l) <> 0.
Proof. intros H. apply qn_neq0. destruct l; [congruence|discriminate]. Qed.

Lemma app1_neq (l : list Qc) x : l ++ [x] <> [].
Proof. destruct l; discriminate. Qed.

Lemma rep_add s l x : rep s l -> rep (addDatum s x) (l ++ [x]).
Proof.
  intros (Hn & HM & HS). unfold addDatum, rep. cbn [o_n o_M o_S].
  rewrite Hn, HM, HS, length_app1.
  pose proof (@qn_Sneq0 (length l)) as Hs.
  destruct l as [|y l'].
  - cbn [length app].
    rewrite mean_nil.
    assert (E : 0 + (x - 0) / qn 1 = x) by (rewrite qn_1; field; discriminate).
    rewrite E. repeat split.
    + unfold mean. cbn [qsum length]. rewrite qn_1. field; discriminate.
    + unfold devsq, mean. cbn [qsum length map]. rewrite qn_1.
      field; discriminate.
  - assert (Hl : y :: l' <> []) by discriminate. revert Hs Hl.
    generalize (y :: l') as l. intros l Hs Hl.
    pose proof (len_neq0 Hl) as Hq.
    repeat split.
    + unfold mean. rewrite qsum_app, length_app1, qn_S. cbn [qsum].
      field. auto.
    + rewrite (devsq_eq Hl), (devsq_eq (@app1_neq l x)).
      rewrite sumsq_app, qsum_app, length_app1, qn_S. unfold sumsq at 3. unfold mean. cbn [qsum map].
      field. auto.
Qed.

Lemma devsq_perm l1 l2 : Permutation l1 l2 -> devsq l1 = devsq l2.
Proof.
  intros H. unfold devsq, mean.
  rewrite (qsum_perm H), (Permutation_length H).
  apply qsum_perm. apply Permutation_map. assumption.
Qed.
Lemma mean_perm l1 l2 : Permutation l1 l2 -> mean l1 = mean l2.
Proof.
  intros H. unfold mean. rewrite (qsum_perm H), (Permutation_length H). reflexivity.
Qed.

Lemma rep_perm s l1 l2 : Permutation l1 l2 -> rep s l1 -> rep s l2.
Proof.
  intros P (Hn & HM & HS). repeat split.
  - rewrite Hn. apply Permutation_length, P.
  - rewrite HM. apply mean_perm, P.
  - rewrite HS. apply devsq_perm, P.
Qed.

Lemma rep_0 s l : rep s l -> o_n s = 0%nat -> l = [].
Proof. intros (H & _) E. rewrite E in H. destruct l; [reflexivity|discriminate]. Qed.

Lemma rep_1 s l : rep s l -> o_n s = 1%nat -> l = [o_M s].
Proof.
  intros (H & HM & _) E. rewrite E in H.
  destruct l as [|x [|? ?]]; try discriminate.
  rewrite HM. unfold mean. cbn [qsum length]. rewrite qn_1.
  f_equal. field. discriminate.
Qed.

Lemma rep_merge s1 l1 s2 l2 : rep s1 l1 -> rep s2 l2 ->
  exists s, mergeSample s1 s2 = Ok s /\ rep s (l1 ++ l2).
Proof.
  intros H1 H2. unfold mergeSample.
  destruct (Nat.eqb_spec (o_n s1) 0) as [E0|E0].
  { rewrite (rep_0 H1 E0). destruct s2. eexists; split; [reflexivity|]. exact H2. }
  destruct (Nat.eqb_spec (o_n s1) 1) as [E1|E1].
  { rewrite (rep_1 H1 E1).
    eexists; split; [reflexivity|].
    apply (@rep_perm _ (l2 ++ [o_M s1])).
    - apply Permutation_app_comm.
    - apply rep_add. destruct s2; exact H2. }
  destruct (Nat.eqb_spec (o_n s2) 0) as [F0|F0].
  { rewrite (rep_0 H2 F0), app_nil_r. eauto. }
  destruct (Nat.eqb_spec (o_n s2) 1) as [F1|F1].
  { rewrite (rep_1 H2 F1). unfold getSampleMean.
    rewrite F1. cbn [Nat.eqb bind]. eexists; split; [reflexivity|].
    apply rep_add, H1. }
  unfold getSampleMean, getSampleVariance, getSampleSize.
  apply Nat.eqb_neq in E0, F0. rewrite E0, F0.
  apply Nat.eqb_neq in E0, F0.
  assert (L1 : Nat.leb (o_n s1) 1 = false) by (apply Nat.leb_gt; lia).
  assert (L2 : Nat.leb (o_n s2) 1 = false) by (apply Nat.leb_gt; lia).
  rewrite L1, L2. cbn [bind]. eexists; split; [reflexivity|].
  destruct H1 as (Hn1 & HM1 & HS1). destruct H2 as (Hn2 & HM2 & HS2).
  assert (N1 : l1 <> []) by (intros ->; cbn in Hn1; congruence).
  assert (N2 : l2 <> []) by (intros ->; cbn in Hn2; congruence).
  pose proof (len_neq0 N1) as Q1. pose proof (len_neq0 N2) as Q2.
  assert (Q12 : qn (length l1) + qn (length l2) <> 0).
  { rewrite <- qn_add. apply qn_neq0. destruct l1; [congruence|discriminate]. }
  assert (M1 : qn (length l1) - 1 <> 0).
  { rewrite <- qn_1. intros E. assert (E' : qn (length l1) = qn 1).
    { rewrite <- (Qcplus_0_r (qn 1)), <- E. ring. }
    apply qn_inj in E'. congruence. }
  assert (M2 : qn (length l2) - 1 <> 0).
  { rewrite <- qn_1. intros E. assert (E' : qn (length l2) = qn 1).
    { rewrite <- (Qcplus_0_r (qn 1)), <- E. ring. }
    apply qn_inj in E'. congruence. }
  assert (N12 : l1 ++ l2 <> []) by (destruct l1; [congruence|discriminate]).
  unfold rep. cbn [o_n o_M o_S].
  rewrite Hn1, HM1, HS1, Hn2, HM2, HS2, qn_add, app_length.
  repeat split.
  - unfold mean. rewrite qsum_app, app_length, qn_add. field. auto.
  - rewrite (devsq_eq N1), (devsq_eq N2), (devsq_eq N12), sumsq_app, qsum_app, app_length, qn_add.
    unfold mean. field. auto.
Qed.

Lemma rep_answers s l : rep s l -> answers s l.
Proof.
  intros (Hn & HM & HS). unfold answers, getSampleSize, getSampleMean, getSampleVariance.
  rewrite Hn, HM, HS. repeat split.
  - destruct l; reflexivity.
  - destruct l as [|x [|y l]]; reflexivity.
Qed.

Definition rep_store (st : nat -> otfs) (d : nat -> list Qc) : Prop :=
  forall i, rep (st i) (d i).

Lemma rep_store_upd st d i s l : rep_store st d -> rep s l ->
  rep_store (upd st i s) (setl d i l).
Proof.
  intros H Hr k. unfold upd, setl. destruct (Nat.eqb k i); [exact Hr|apply H].
Qed.

Lemma rep_merge_all st d i js : rep_store st d ->
  exists st', merge_all st i js = Ok st' /\ rep_store st' (data_merge_all d i js).
Proof.
  revert st d. induction js as [|j js IH]; intros st d H; cbn.
  - eauto.
  - destruct (rep_merge (H i) (H j)) as (s & E & R). rewrite E. cbn.
    apply IH. apply rep_store_upd; assumption.
Qed.

Lemma rep_exec st d o : rep_store st d ->
  exists st', exec st o = Ok st' /\ rep_store st' (data_op d o).
Proof.
  intros H. destruct o as [i|i x|i j|i js]; cbn.
  - eexists; split; [reflexivity|]. apply rep_store_upd; [assumption|apply rep_new].
  - eexists; split; [reflexivity|]. apply rep_store_upd; [assumption|apply rep_add, H].
  - destruct (rep_merge (H i) (H j)) as (s & E & R). rewrite E. cbn.
    eexists; split; [reflexivity|]. apply rep_store_upd; assumption.
  - apply rep_merge_all, H.
Qed.

Lemma rep_run os st d : rep_store st d ->
  exists st', run st os = Ok st' /\ rep_store st' (fold_left data_op os d).
Proof.
  revert st d. induction os as [|o os IH]; intros st d H; cbn.
  - eauto.
  - destruct (rep_exec o H) as (st' & E & R). rewrite E. cbn. apply IH, R.
Qed.

Lemma rep_run0 os : exists st, run store0 os = Ok st /\ rep_store st (data_of os).
Proof. apply rep_run. intros i. apply rep_new. Qed.

(** C01 *)
Lemma history_correct os : exists st, run store0 os = Ok st /\
  forall i, answers (st i) (data_of os i).
Proof.
  destruct (rep_run0 os) as (st & E & R). exists st. split; [assumption|].
  intros i. apply rep_answers, R.
Qed.

(** C02 *)
Lemma rep_unique s t l1 l2 : rep s l1 -> rep t l2 -> Permutation l1 l2 -> s = t.
Proof.
  intros (Hn & HM & HS) H P. apply Permutation_sym in P.
  destruct (rep_perm P H) as (Hn' & HM' & HS').
  destruct s, t. cbn in *. congruence.
Qed.

Lemma order_independent os1 os2 st1 st2 i j :
  run store0 os1 = Ok st1 -> run store0 os2 = Ok st2 ->
  Permutation (data_of os1 i) (data_of os2 j) ->
  st1 i = st2 j.
Proof.
  intros E1 E2 P.
  destruct (rep_run0 os1) as (s1 & F1 & R1). destruct (rep_run0 os2) as (s2 & F2 & R2).
  rewrite E1 in F1. rewrite E2 in F2. injection F1 as <-. injection F2 as <-.
  eapply rep_unique; eauto.
Qed.

Lemma variance_nonneg os st i v :
  run store0 os = Ok st -> getSampleVariance (st i) = Ok v -> 0 <= v.
Proof.
  intros E Hv. destruct (rep_run0 os) as (s & F & R). rewrite E in F. injection F as <-.
  destruct (R i) as (Hn & _ & HS).
  unfold getSampleVariance in Hv. destruct (Nat.leb_spec (o_n (st i)) 1); [discriminate|].
  injection Hv as <-. rewrite HS. apply Qc_div_nonneg; [apply devsq_nonneg|].
  rewrite <- qn_1, !qn_qz, <- qz_sub. rewrite <- qn_0, qn_qz. apply qz_le. lia.
Qed.

(** Every split of the data into parts, each accumulated separately and then
    merged in any order, is the same as one long accumulation. *)

Lemma rep_add_all l s d : rep s d -> rep (add_all s l) (d ++ l).
Proof.
  revert s d. induction l as [|x l IH]; intros s d H; cbn.
  - rewrite app_nil_r. assumption.
  - change (d ++ x :: l) with (d ++ [x] ++ l). rewrite app_assoc. apply IH, rep_add, H.
Qed.

Lemma rep_mergeSamples ss ls s d : rep s d -> Forall2 rep ss ls ->
  exists s', mergeSamples s ss = Ok s' /\ rep s' (d ++ concat ls).
Proof.
  intros H F. revert s d H. induction F as [|t l ss ls Ht F IH]; intros s d H; cbn.
  - rewrite app_nil_r. eauto.
  - destruct (rep_merge H Ht) as (s' & E & R). rewrite E. cbn.
    rewrite app_assoc. apply IH, R.
Qed.

Lemma partition_independent (parts : list (list Qc)) (l : list Qc) :
  Permutation (concat parts) l ->
  mergeSamples otfs_new (map (add_all otfs_new) parts) = Ok (add_all otfs_new l).
Proof.
  intros P.
  assert (F : Forall2 rep (map (add_all otfs_new) parts) parts).
  { clear P. induction parts as [|p ps IH]; cbn; constructor; [|exact IH].
    apply (@rep_add_all p _ [] rep_new). }
  destruct (rep_mergeSamples rep_new F) as (s' & E & R).
  rewrite E. f_equal. eapply rep_unique; [exact R|apply (@rep_add_all l _ [] rep_new)|exact P].
Qed.

(** C++ accumulator (no merging there). *)
Lemma cpp_stream l :
  getSampleSize (add_all otfs_new l) = length l /\
  cpp_getSampleMean (add_all otfs_new l) = match l with [] => 0 | _ => mean l end /\
  cpp_getSampleVariance (add_all otfs_new l)
    = match l with [] | [_] => 0 | _ => variance l end.
Proof.
  destruct (@rep_add_all l _ [] rep_new) as (Hn & HM & HS). cbn [app] in *.
  unfold getSampleSize, cpp_getSampleMean, cpp_getSampleVariance.
  rewrite Hn, HM, HS. repeat split.
  - destruct l; [apply mean_nil|reflexivity].
  - destruct l as [|x [|y l]]; reflexivity.
Qed.

(** C04 *)
Lemma empty_init m v e : otfs_init (Some m) (Some v) (Some 0%nat) = Ok e ->
  e = mk_otfs 0 m (- v).
Proof.
  cbn. intros H. injection H as <-. f_equal. rewrite qn_0. ring.
Qed.

Lemma add_empty m x : addDatum (mk_otfs 0 m 0) x = addDatum otfs_new x.
Proof.
  unfold addDatum, otfs_new. cbn [o_n o_M o_S]. rewrite qn_1.
  f_equal; field; discriminate.
Qed.

Lemma empty_merge_neutral m e s d s' l :
  otfs_init (Some m) (Some 0) (Some 0%nat) = Ok e -> rep s d ->
  mergeSample s e = Ok s' ->
  answers (add_all s' l) (d ++ l).
Proof.
  intros He Hr Hm. apply empty_init in He.
  replace (- 0) with 0 in He by ring.
  unfold mergeSample in Hm. subst e. cbn [o_n o_M o_S Nat.eqb] in Hm.
  destruct (Nat.eqb_spec (o_n s) 0) as [E0|E0].
  { injection Hm as <-. rewrite (rep_0 Hr E0). cbn [app].
    destruct l as [|x l].
    - repeat split.
    - cbn. rewrite add_empty.
      apply rep_answers. apply (@rep_add_all l (addDatum otfs_new x) [x]).
      apply (@rep_add otfs_new [] x rep_new). }
  destruct (Nat.eqb_spec (o_n s) 1) as [E1|E1].
  { injection Hm as <-. rewrite add_empty. rewrite (rep_1 Hr E1).
    apply rep_answers, rep_add_all. apply (@rep_add otfs_new [] _ rep_new). }
  injection Hm as <-. apply rep_answers, rep_add_all, Hr.
Qed.

Lemma empty_merge_big m v e s :
  otfs_init (Some m) (Some v) (Some 0%nat) = Ok e -> (2 <= getSampleSize s)%nat ->
  mergeSample s e = Ok s.
Proof.
  intros He Hn. apply empty_init in He. subst e. unfold mergeSample, getSampleSize in *.
  cbn [o_n].
  destruct (Nat.eqb_spec (o_n s) 0); [lia|]. destruct (Nat.eqb_spec (o_n s) 1); [lia|].
  reflexivity.
Qed.

Lemma empty_merge_bad :
  exists m v e s s' x,
    otfs_init (Some m) (Some v) (Some 0%nat) = Ok e /\
    s = addDatum otfs_new x /\
    mergeSample s e = Ok s' /\
    exists w w', getSampleVariance (addDatum s x) = Ok w /\
                 getSampleVariance (addDatum s' x) = Ok w' /\
                 0 <= w /\ w' < 0.
Proof.
  exists 0, 1. eexists. exists (addDatum otfs_new 1). eexists. exists 1.
  split; [reflexivity|]. split; [reflexivity|]. split; [reflexivity|].
  eexists. eexists. split; [reflexivity|]. split; [reflexivity|].
  split; [apply qleb_spec|apply qltb_spec]; vm_compute; reflexivity.
Qed.

Lemma empty_merge_neutral_run m e os st i s' l :
  otfs_init (Some m) (Some 0) (Some 0%nat) = Ok e ->
  run store0 os = Ok st ->
  mergeSample (st i) e = Ok s' ->
  answers (add_all s' l) (data_of os i ++ l).
Proof.
  intros He Hr Hm. destruct (rep_run0 os) as (s0 & F & R). rewrite Hr in F.
  injection F as <-. eapply empty_merge_neutral; [exact He|apply R|exact Hm].
Qed.

(** C03 *)
Import StrBase.
Section Ser.
Variable fmt : Qc -> string.
Variable parse : string -> option Qc.
Hypothesis parse_fmt : forall x, parse (fmt x) = Some x.
Hypothesis fmt_semi : forall x, has_char ";" (fmt x) = false.

Lemma ser_split s :
  split ";" (serialize fmt s)
  = ["1"; str_of_Z (Z.of_nat (o_n s)); fmt (o_M s); fmt (o_S s)]%string.
Proof.
  unfold serialize.
  change (split ";" ("1" ++ String ";" (str_of_Z (Z.of_nat (o_n s)) ++ String ";" (fmt (o_M s) ++ String ";" (fmt (o_S s))))) = ["1"; str_of_Z (Z.of_nat (o_n s)); fmt (o_M s); fmt (o_S s)])%string.
  rewrite split_cons by reflexivity.
  rewrite split_cons by (apply str_of_Z_no; reflexivity).
  rewrite split_cons by apply fmt_semi.
  rewrite split_none by apply fmt_semi. reflexivity.
Qed.


Lemma rep_valid s l : rep s l -> valid s.
Proof.
  intros H. split.
  - intros E. rewrite (rep_0 H E) in H. destruct H as (_ & -> & ->). split; [apply mean_nil|reflexivity].
  - destruct H as (_ & _ & ->). apply devsq_nonneg.
Qed.

Lemma valid_checks s : valid s ->
  (Z.eqb (Z.of_nat (o_n s)) 0 && (negb (qeqb (o_M s) 0) || negb (qeqb (o_S s) 0)))%bool = false
  /\ qltb (o_S s) 0 = false.
Proof.
  intros [H1 H2]. split.
  - destruct (Z.eqb_spec (Z.of_nat (o_n s)) 0) as [E|E]; [|reflexivity].
    destruct H1 as [-> ->]; [lia|]. reflexivity.
  - apply qltb_false. assumption.
Qed.

Lemma py_roundtrip_valid s self : valid s ->
  unserialize parse self (serialize fmt s) = (s, Ok tt).
Proof.
  intros V. destruct (valid_checks V) as [C1 C2].
  unfold unserialize. rewrite ser_split. cbn [nth List.length Nat.eqb negb].
  rewrite Z_of_str_of_Z, !parse_fmt.
  change (Z_of_str "1") with (Some 1%Z). cbn [oget bind Z.eqb Pos.eqb negb].
  destruct (Z.ltb_spec (Z.of_nat (o_n s)) 0); [lia|].
  rewrite C1, C2, Nat2Z.id. destruct s; reflexivity.
Qed.

Lemma no_leading_minus n : leading_minus (str_of_Z (Z.of_nat n)) = false.
Proof.
  unfold str_of_Z. destruct n as [|n]; [reflexivity|].
  cbn [Z.of_nat Z.to_int]. cbn [DecimalString.NilZero.string_of_int].
  unfold DecimalString.NilZero.string_of_uint.
  destruct (Pos.to_uint (Pos.of_succ_nat n)) as [|d|d|d|d|d|d|d|d|d|d]; reflexivity.
Qed.

Lemma cpp_roundtrip_valid s self : valid s ->
  cpp_unserialize parse self (serialize fmt s) = (s, Ok tt).
Proof.
  intros V. destruct (valid_checks V) as [C1 C2].
  unfold cpp_unserialize. rewrite ser_split. cbn [nth List.length Nat.eqb negb].
  rewrite Z_of_str_of_Z, !parse_fmt, no_leading_minus.
  change (Z_of_str "1") with (Some 1%Z). change (leading_minus "1") with false.
  cbn [oget bind Z.eqb Pos.eqb negb].
  rewrite C1, C2, Nat2Z.id. destruct s; reflexivity.
Qed.

Lemma reach_valid os st i : run store0 os = Ok st -> valid (st i).
Proof.
  intros E. destruct (rep_run0 os) as (s & F & R). rewrite E in F. injection F as <-.
  eapply rep_valid, R.
Qed.

Lemma roundtrip_run os st i self : run store0 os = Ok st ->
  unserialize parse self (serialize fmt (st i)) = (st i, Ok tt) /\
  cpp_unserialize parse self (serialize fmt (st i)) = (st i, Ok tt).
Proof.
  intros E. pose proof (reach_valid os i E) as V.
  split; [apply py_roundtrip_valid|apply cpp_roundtrip_valid]; exact V.
Qed.

Lemma cpp_reject self str e :
  snd (cpp_unserialize parse self str) = Err e ->
  fst (cpp_unserialize parse self str) = self.
Proof.
  unfold cpp_unserialize.
  match goal with |- context [match ?r with Ok _ => _ | Err _ => _ end] => destruct r end;
  cbn; [discriminate|reflexivity].
Qed.
Lemma py_reject self str e :
  snd (unserialize parse self str) = Err e ->
  fst (unserialize parse self str) = self.
Proof.
  unfold unserialize.
  match goal with |- context [match ?r with Ok _ => _ | Err _ => _ end] => destruct r end;
  cbn; [discriminate|reflexivity].
Qed.
End Ser.

Lemma leading_minus_neg s z : leading_minus s = false -> Z_of_str s = Some z -> (0 <= z)%Z.
Proof.
  intros H E. unfold Z_of_str in E.
  unfold DecimalString.NilZero.int_of_string in E.
  destruct s as [|a r]; [discriminate|].
  cbn in H. rewrite H in E.
  destruct (DecimalString.NilZero.uint_of_string (String a r)); cbn in E; [|discriminate].
  injection E as <-. unfold Z.of_uint. lia.
Qed.

Ltac step_accept H :=
  match type of H with
  | context [if ?b then Err _ else _] =>
    let E := fresh "C" in destruct b eqn:E; [discriminate H|]
  | context [do _ <- oget ?e ?o; _] =>
    let E := fresh "P" in destruct o eqn:E; cbn [oget bind] in H; [|discriminate H]
  end.

Lemma accept_valid_aux n M S_ :
  (0 <= n)%Z ->
  (Z.eqb n 0 && (negb (qeqb M 0) || negb (qeqb S_ 0)))%bool = false ->
  qltb S_ 0 = false -> valid (mk_otfs (Z.to_nat n) M S_).
Proof.
  intros Hn C1 C2. split; cbn.
  - intros E. assert (n = 0%Z) by lia. subst n. cbn in C1.
    apply Bool.orb_false_iff in C1. destruct C1 as [A B].
    apply Bool.negb_false_iff in A, B. apply qeqb_spec in A, B. auto.
  - apply qltb_false, C2.
Qed.

Lemma cpp_accept_valid parse self str s :
  cpp_unserialize parse self str = (s, Ok tt) -> valid s.
Proof.
  unfold cpp_unserialize.
  match goal with |- context [match ?r with Ok _ => _ | Err _ => _ end] => destruct r eqn:E end;
  intros H; [|discriminate]. injection H as <-.
  repeat step_accept E. injection E as <-.
  apply accept_valid_aux; try assumption.
  eapply leading_minus_neg; eassumption.
Qed.
Lemma py_accept_valid parse self str s :
  unserialize parse self str = (s, Ok tt) -> valid s.
Proof.
  unfold unserialize.
  match goal with |- context [match ?r with Ok _ => _ | Err _ => _ end] => destruct r eqn:E end;
  intros H; [|discriminate]. injection H as <-.
  repeat step_accept E. injection E as <-.
  apply accept_valid_aux; try assumption.
  match goal with H : Z.ltb _ 0 = false |- _ => apply Z.ltb_ge in H; exact H end.
Qed.

Lemma unserialize_safe parse self str :
  (forall e, snd (unserialize parse self str) = Err e ->
     fst (unserialize parse self str) = self) /\
  (forall e, snd (cpp_unserialize parse self str) = Err e ->
     fst (cpp_unserialize parse self str) = self) /\
  (forall s, unserialize parse self str = (s, Ok tt) -> valid s) /\
  (forall s, cpp_unserialize parse self str = (s, Ok tt) -> valid s).
Proof.
  split; [|split; [|split]].
  - intros e. apply py_reject.
  - intros e. apply cpp_reject.
  - intros s. apply py_accept_valid.
  - intros s. apply cpp_accept_valid.
Qed.
