(** Proofs about configurations. *)
From Coq Require Import List ZArith String Ascii Bool Lia Qcanon Permutation.
From Verif Require Import QcBase PyBase DictBase StrBase ConfModel ConfSpec.
Import ListNotations.
Close Scope string_scope.
Close Scope Qc_scope.
Open Scope nat_scope.

Definition seqb_spec : forall a b : string, String.eqb a b = true <-> a = b := String.eqb_eq.

Section SDict.
Context {V : Type}.
Implicit Types (d : list (string * V)).
Lemma sget_sset d k v k2 : sget (sset d k v) k2 = if String.eqb k2 k then Some v else sget d k2.
Proof. apply (dget_dset _ seqb_spec). Qed.
Lemma sget_sset_same d k v : sget (sset d k v) k = Some v.
Proof. rewrite sget_sset, String.eqb_refl. reflexivity. Qed.
Lemma sget_sset_other d k v k2 : k2 <> k -> sget (sset d k v) k2 = sget d k2.
Proof. intros N. rewrite sget_sset. apply String.eqb_neq in N. rewrite N. reflexivity. Qed.
Lemma sget_in d k v : sget d k = Some v -> In (k, v) d.
Proof. apply (dget_in _ seqb_spec). Qed.
Lemma in_sget d k v : NoDup (map fst d) -> In (k, v) d -> sget d k = Some v.
Proof. apply (in_dget _ seqb_spec). Qed.
Lemma sget_none d k : sget d k = None <-> ~ In k (map fst d).
Proof. apply (dget_none _ seqb_spec). Qed.
Lemma sget_sdel d k k2 : NoDup (map fst d) ->
  sget (sdel d k) k2 = if String.eqb k2 k then None else sget d k2.
Proof. apply (dget_ddel _ seqb_spec). Qed.
Lemma sset_nodup d k v : NoDup (map fst d) -> NoDup (map fst (sset d k v)).
Proof. apply (dset_nodup _ seqb_spec). Qed.
Lemma sdel_nodup d k : NoDup (map fst d) -> NoDup (map fst (sdel d k)).
Proof. apply ddel_nodup. Qed.
Lemma sset_in d k v x : In x (map snd (sset d k v)) -> x = v \/ In x (map snd d).
Proof.
  unfold sset. induction d as [|[a b] r IH]; cbn; [intuition|].
  destruct (String.eqb k a); cbn; intuition.
Qed.
Lemma sdel_in d k x : In x (map snd (sdel d k)) -> In x (map snd d).
Proof.
  unfold sdel. induction d as [|[a b] r IH]; cbn; [intuition|].
  destruct (String.eqb k a); cbn; intuition.
Qed.
End SDict.

(** ** Heaps *)
Lemma upd_length H l n : length (upd H l n) = length H.
Proof. revert l. induction H as [|m r IH]; intros [|l]; cbn; auto. Qed.
Lemma node_upd H l n m : node_at (upd H l n) m = if (m =? l) && (l <? length H) then n else node_at H m.
Proof.
  unfold node_at. revert l m. induction H as [|a r IH]; intros l m.
  - cbn. rewrite andb_false_r. destruct l, m; reflexivity.
  - destruct l, m; cbn [upd nth length]; try reflexivity.
    rewrite IH. reflexivity.
Qed.
Lemma node_app H n m : node_at (H ++ [n]) m =
  if m =? length H then n else node_at H m.
Proof.
  unfold node_at. destruct (Nat.eqb_spec m (length H)) as [->|N].
  - rewrite app_nth2, Nat.sub_diag by lia. reflexivity.
  - destruct (Nat.lt_ge_cases m (length H)) as [L|L].
    + rewrite app_nth1 by assumption. reflexivity.
    + rewrite !nth_overflow; rewrite ?app_length; cbn; auto; lia.
Qed.
Lemma node_over H m : length H <= m -> node_at H m = NGroup false [].
Proof. intros L. unfold node_at. apply nth_overflow. assumption. Qed.

Lemma follow_app H v p q : follow H v (p ++ q) =
  match follow H v p with None => None | Some w => follow H w q end.
Proof.
  revert v. induction p as [|s p IH]; intros v; cbn; [reflexivity|].
  destruct (child H v s); [apply IH|reflexivity].
Qed.
Lemma child_ref H v s w : child H v s = Some w -> exists l, v = Ref l /\ In w (node_vals (node_at H l)).
Proof.
  destruct v as [x|l]; cbn; [discriminate|]. intros E. exists l. split; [reflexivity|].
  destruct (node_at H l), s; try discriminate; cbn.
  - apply sget_in in E. apply in_map_iff. exists (s, w). auto.
  - eapply nth_error_In, E.
  - eapply nth_error_In, E.
Qed.
Lemma follow_lt H : closed H -> forall p l m, l < length H -> follow H (Ref l) p = Some (Ref m) -> m < length H.
Proof.
  intros C p. induction p as [|s p IH] using rev_ind; intros l m L F.
  - cbn in F. congruence.
  - rewrite follow_app in F. destruct (follow H (Ref l) p) as [w|] eqn:E; [|discriminate].
    cbn in F. destruct (child H w s) as [u|] eqn:Ec; [|discriminate]. injection F as ->.
    apply child_ref in Ec. destruct Ec as (k & -> & HI). eapply C, HI. eapply IH; eauto.
Qed.

(** ** Changing one entry of one group *)

(** [H'] differs from [H] in the entry [c] of the group at [m] only. *)
Definition one_entry (H H' : heap) (m : nat) (c : string) (w : option val) : Prop :=
  (forall l, l < length H -> l <> m -> node_at H' l = node_at H l) /\
  length H <= length H' /\ m < length H /\
  exists k d d', node_at H m = NGroup k d /\ node_at H' m = NGroup k d' /\
    forall c', sget d' c' = if String.eqb c' c then w else sget d c'.

Lemma set_entry_one H m c v : m < length H -> is_group H m ->
  one_entry H (set_entry H m c v) m c (Some v).
Proof.
  intros L (k & d & E). unfold set_entry. rewrite E. split; [|split; [|split]].
  - intros l Hl N. rewrite node_upd. apply Nat.eqb_neq in N. rewrite N. reflexivity.
  - rewrite upd_length. lia.
  - assumption.
  - exists k, d, (sset d c v). split; [assumption|]. split.
    + rewrite node_upd, Nat.eqb_refl. apply Nat.ltb_lt in L. rewrite L. reflexivity.
    + intros c'. apply sget_sset.
Qed.
Lemma create_group_one H m c : m < length H -> is_group H m ->
  one_entry H (create_group H m c) m c (Some (Ref (length H))).
Proof.
  intros L (k & d & E). unfold create_group, set_entry.
  assert (E1 : node_at (H ++ [NGroup false []]) m = NGroup k d).
  { rewrite node_app. destruct (Nat.eqb_spec m (length H)); [lia|assumption]. }
  rewrite E1. split; [|split; [|split]].
  - intros l Hl N. rewrite node_upd. apply Nat.eqb_neq in N. rewrite N. cbn.
    rewrite node_app. destruct (Nat.eqb_spec l (length H)); [lia|reflexivity].
  - rewrite upd_length, app_length. cbn. lia.
  - assumption.
  - exists k, d, (sset d c (Ref (length H))). split; [assumption|]. split.
    + rewrite node_upd, Nat.eqb_refl, app_length. destruct (Nat.ltb_spec m (length H + length [NGroup false []])); [reflexivity|lia].
    + intros c'. apply sget_sset.
Qed.
Lemma create_group_new H m c : m < length H ->
  node_at (create_group H m c) (length H) = NGroup false [].
Proof.
  intros L. unfold create_group, set_entry.
  destruct (node_at (H ++ [NGroup false []]) m); rewrite ?node_upd, ?node_app, ?Nat.eqb_refl; try reflexivity.
  destruct (Nat.eqb_spec (length H) m); [lia|]. cbn. rewrite ?node_app, ?Nat.eqb_refl. reflexivity.
Qed.
Lemma create_group_length H m c : length (create_group H m c) = S (length H).
Proof.
  unfold create_group, set_entry. destruct (node_at _ m); rewrite ?upd_length, app_length; cbn; lia.
Qed.
Lemma set_entry_length H m c v : length (set_entry H m c v) = length H.
Proof. unfold set_entry. destruct (node_at _ m); rewrite ?upd_length; reflexivity. Qed.

(** One step, seen from below. *)
Lemma child_one H H' m c w v s : one_entry H H' m c w ->
  (forall l, v = Ref l -> l < length H) ->
  ~ (v = Ref m /\ s = SName c) -> child H' v s = child H v s.
Proof.
  intros (O1 & O2 & O3 & k & d & d' & E1 & E2 & E3) L N.
  destruct v as [x|l]; cbn; [reflexivity|].
  destruct (Nat.eq_dec l m) as [->|D].
  - rewrite E1, E2. destruct s as [c'|i]; [|reflexivity].
    rewrite E3. destruct (String.eqb_spec c' c) as [->|]; [|reflexivity].
    exfalso. apply N. split; reflexivity.
  - rewrite O1 by auto. reflexivity.
Qed.

Section One.
Variables (H H' : heap) (l m : nat) (c : string) (w : option val) (P : list step).
Hypothesis Hone : one_entry H H' m c w.
Hypothesis Hl : l < length H.
Hypothesis Hclosed : closed H.
Hypothesis Hunsh : unshared H l.
Hypothesis HP : follow H (Ref l) P = Some (Ref m).

Notation K := (P ++ [SName c]).

(** A path that does not run through the changed entry leads to the same place. *)
Lemma follow_frame p : (~ exists r, p = K ++ r) -> follow H' (Ref l) p = follow H (Ref l) p.
Proof.
  induction p as [|s p IH] using rev_ind; intros N; [reflexivity|].
  rewrite !follow_app. rewrite IH.
  2:{ intros (r & E). apply N. exists (r ++ [s]). rewrite E, app_assoc. reflexivity. }
  destruct (follow H (Ref l) p) as [v|] eqn:F; [|reflexivity]. cbn.
  rewrite (child_one _ _ _ _ _ _ _ Hone); [reflexivity| |].
  - intros j ->. eapply follow_lt; eauto.
  - intros (-> & ->). apply N. exists []. rewrite app_nil_r. f_equal.
    eapply Hunsh; eassumption.
Qed.
Lemma follow_changed r : follow H' (Ref l) (K ++ r) =
  match w with None => None | Some v => follow H' v r end.
Proof.
  rewrite <- app_assoc. rewrite follow_app, follow_frame, HP.
  2:{ intros (q & E). apply (f_equal (@length _)) in E. rewrite !app_length in E. cbn in E. lia. }
  cbn. destruct Hone as (O1 & O2 & O3 & k & d & d' & E1 & E2 & E3).
  rewrite E2, E3, String.eqb_refl. destruct w; reflexivity.
Qed.
End One.

(** ** Reading, in terms of physical paths *)
Definition names (comps : list string) : list step := map SName comps.

Lemma pyindex_lt {A} (xs : list A) n i : pyindex xs n = Some i -> i < length xs.
Proof.
  unfold pyindex. intros E.
  destruct ((0 <=? n)%Z && (n <? Z.of_nat (length xs))%Z) eqn:E1.
  - injection E as <-. apply andb_true_iff in E1. rewrite Z.leb_le, Z.ltb_lt in E1. lia.
  - destruct ((- Z.of_nat (length xs) <=? n)%Z && (n <? 0)%Z) eqn:E2; [|discriminate].
    injection E as <-. apply andb_true_iff in E2. rewrite Z.leb_le, Z.ltb_lt in E2. lia.
Qed.

(** [prefix_of K p]: the path [p] runs through [K]. *)
Definition through (K p : list step) : Prop := exists r, p = K ++ r.

Lemma through_idx comps0 p i q q' :
  through (names comps0) (p ++ SIdx i :: q) -> through (names comps0) (p ++ q').
Proof.
  intros (r & E). assert (L : length comps0 <= length p).
  { destruct (Nat.lt_ge_cases (length p) (length comps0)) as [L|L]; [exfalso|assumption].
    assert (HE : nth_error (p ++ SIdx i :: q) (length p) = Some (SIdx i)).
    { rewrite nth_error_app2, Nat.sub_diag by lia. reflexivity. }
    rewrite E, nth_error_app1 in HE by (unfold names; rewrite map_length; assumption).
    unfold names in HE. rewrite nth_error_map in HE. destruct (nth_error comps0 (length p)); discriminate. }
  exists (skipn (length comps0) p ++ q').
  assert (E2 : firstn (length comps0) p = names comps0).
  { apply (f_equal (firstn (length comps0))) in E. rewrite firstn_app in E.
    replace (length comps0 - length p) with 0 in E by lia. cbn [firstn] in E. rewrite app_nil_r in E.
    rewrite E, firstn_app. unfold names at 1 2. rewrite map_length, Nat.sub_diag, firstn_all2; [|rewrite map_length; lia].
    cbn. apply app_nil_r. }
  rewrite app_assoc, <- E2, firstn_skipn. reflexivity.
Qed.

Section Frame.
Variables (H H' : heap) (l m : nat) (c : string) (w : option val) (comps0 : list string).
Hypothesis Hone : one_entry H H' m c w.
Hypothesis Hl : l < length H.
Hypothesis Hclosed : closed H.
Hypothesis Hunsh : unshared H l.
Hypothesis HP : follow H (Ref l) (names comps0) = Some (Ref m).
Notation K := (names (comps0 ++ [c])).

Lemma node_frame p j : follow H (Ref l) p = Some (Ref j) -> 
  (j <> m -> node_at H' j = node_at H j) /\ (j = m -> p = names comps0).
Proof.
  intros F. split.
  - intros N. apply Hone; [|assumption]. eapply follow_lt; eauto.
  - intros ->. eapply Hunsh; eassumption.
Qed.

Lemma K_app p r : p = names comps0 -> through K (p ++ SName c :: r).
Proof. intros ->. exists r. unfold names. rewrite map_app. cbn. rewrite <- app_assoc. reflexivity. Qed.

(** What reading finds through [comps] from the value at path [p] is unaffected
    unless the way runs through the changed entry. *)
Lemma step_frame p v c1 : follow H (Ref l) p = Some v -> ~ through K (p ++ [SName c1]) ->
  forall j, v = Ref j ->
  match node_at H j with
  | NGroup k d => exists d', node_at H' j = NGroup k d' /\ sget d' c1 = sget d c1
  | n => node_at H' j = n
  end.
Proof.
  intros F N j ->. destruct (Nat.eq_dec j m) as [->|D].
  - destruct Hone as (O1 & O2 & O3 & k & d & d' & E1 & E2 & E3). rewrite E1.
    exists d'. split; [assumption|]. rewrite E3.
    destruct (String.eqb_spec c1 c) as [->|]; [|reflexivity].
    exfalso. apply N. apply K_app. eapply Hunsh; eassumption.
  - destruct (node_frame _ _ F) as [Hn _]. rewrite Hn by assumption.
    destruct (node_at H j); eauto.
Qed.

Lemma not_through_pre p s r : ~ through K (p ++ SName s :: r) -> ~ through K (p ++ [SName s]).
Proof.
  intros N (q & E). apply N. exists (q ++ r).
  change (p ++ SName s :: r) with (p ++ [SName s] ++ r).
  rewrite (app_assoc p), E, <- app_assoc. reflexivity.
Qed.
Lemma names_cons s r : names (s :: r) = SName s :: names r.
Proof. reflexivity. Qed.

Lemma lookup_frame comps p v : follow H (Ref l) p = Some v ->
  ~ through K (p ++ names comps) -> lookup H' v comps = lookup H v comps.
Proof.
  revert p v. induction comps as [|c1 r IH]; intros p v F N; [reflexivity|].
  cbn [lookup]. destruct v as [x|j]; [reflexivity|].
  rewrite names_cons in N.
  pose proof (step_frame _ _ _ F (not_through_pre _ _ _ N) _ eq_refl) as S.
  destruct (node_at H j) as [k d|xs|xs] eqn:E.
  - destruct S as (d' & -> & ->). destruct (sget d c1) as [u|] eqn:Eu; [|reflexivity].
    apply IH with (p := p ++ [SName c1]).
    + rewrite follow_app, F. cbn. rewrite E, Eu. reflexivity.
    + rewrite <- app_assoc. exact N.
  - rewrite S. destruct (numeral c1) as [n|]; [|reflexivity].
    destruct (pyindex xs n) as [i|] eqn:Ei; [|reflexivity].
    pose proof (pyindex_lt _ _ _ Ei) as Li.
    apply IH with (p := p ++ [SIdx i]).
    + rewrite follow_app, F. cbn. rewrite E.
      destruct (nth_error xs i) eqn:En.
      * rewrite (nth_error_nth xs i (Ref j) En). reflexivity.
      * apply nth_error_None in En. lia.
    + rewrite <- app_assoc. intros T. apply N. apply through_idx with (i := i) (q := names r). exact T.
  - rewrite S. destruct (numeral c1) as [n|]; [|reflexivity].
    destruct (pyindex xs n) as [i|] eqn:Ei; [|reflexivity].
    pose proof (pyindex_lt _ _ _ Ei) as Li.
    apply IH with (p := p ++ [SIdx i]).
    + rewrite follow_app, F. cbn. rewrite E.
      destruct (nth_error xs i) eqn:En.
      * rewrite (nth_error_nth xs i (Ref j) En). reflexivity.
      * apply nth_error_None in En. lia.
    + rewrite <- app_assoc. intros T. apply N. apply through_idx with (i := i) (q := names r). exact T.
Qed.

Lemma kind_frame p j : follow H (Ref l) p = Some (Ref j) ->
  match node_at H j with
  | NGroup k d => exists d', node_at H' j = NGroup k d'
  | n => node_at H' j = n
  end.
Proof.
  intros F. destruct (Nat.eq_dec j m) as [->|D].
  - destruct Hone as (O1 & O2 & O3 & k & d & d' & E1 & E2 & E3). rewrite E1. eauto.
  - destruct (node_frame _ _ F) as [Hn _]. rewrite Hn by assumption. destruct (node_at H j); eauto.
Qed.

Lemma get_at_frame comps p v : follow H (Ref l) p = Some v ->
  ~ through K (p ++ names comps) -> get_at H' v comps = get_at H v comps.
Proof.
  revert p v. induction comps as [|c1 r IH]; intros p v F N; [reflexivity|].
  cbn [get_at]. destruct v as [x|j]; [reflexivity|].
  rewrite names_cons in N.
  pose proof (step_frame _ _ _ F (not_through_pre _ _ _ N) _ eq_refl) as S.
  assert (HL : forall xs i n, (node_at H j = NList xs \/ node_at H j = NArr xs) -> pyindex xs n = Some i ->
    match nth i xs (Ref j) with
    | Leaf x => Ok (Leaf x)
    | Ref m0 => match node_at H' m0 with
                | NGroup true _ => match r with [] => Ok (Ref m0) | _ :: _ =>
                    match lookup H' (Ref m0) r with None => Err KeyError | Some w0 => Ok w0 end end
                | _ => get_at H' (Ref m0) r end
    end =
    match nth i xs (Ref j) with
    | Leaf x => Ok (Leaf x)
    | Ref m0 => match node_at H m0 with
                | NGroup true _ => match r with [] => Ok (Ref m0) | _ :: _ =>
                    match lookup H (Ref m0) r with None => Err KeyError | Some w0 => Ok w0 end end
                | _ => get_at H (Ref m0) r end
    end).
  { intros xs i n En Ei. pose proof (pyindex_lt _ _ _ Ei) as Li.
    assert (F' : follow H (Ref l) (p ++ [SIdx i]) = Some (nth i xs (Ref j))).
    { rewrite follow_app, F. cbn. destruct (nth_error xs i) eqn:Ee; [|apply nth_error_None in Ee; lia].
      destruct En as [-> | ->]; rewrite Ee, (nth_error_nth xs i (Ref j) Ee); reflexivity. }
    assert (N' : ~ through K ((p ++ [SIdx i]) ++ names r)).
    { rewrite <- app_assoc. intros T. apply N. apply through_idx with (i := i) (q := names r). exact T. }
    destruct (nth i xs (Ref j)) as [x|m0]; [reflexivity|].
    pose proof (kind_frame _ _ F') as KF.
    destruct (node_at H m0) as [k d|ys|ys].
    - destruct KF as (d' & ->). destruct k.
      + rewrite (lookup_frame r _ _ F' N'). reflexivity.
      + exact (IH _ _ F' N').
    - rewrite KF. exact (IH _ _ F' N').
    - rewrite KF. exact (IH _ _ F' N'). }
  destruct (node_at H j) as [k d|xs|xs] eqn:E.
  - destruct S as (d' & -> & ->). destruct (sget d c1) as [u|] eqn:Eu; [|reflexivity].
    apply IH with (p := p ++ [SName c1]).
    + rewrite follow_app, F. cbn. rewrite E, Eu. reflexivity.
    + rewrite <- app_assoc. exact N.
  - rewrite S. destruct (numeral c1) as [n|]; [|reflexivity]. cbn [bind].
    destruct (pyindex xs n) as [i|] eqn:Ei; [|reflexivity]. apply (HL _ _ n); auto.
  - rewrite S. destruct (numeral c1) as [n|]; [|reflexivity]. cbn [bind].
    destruct (pyindex xs n) as [i|] eqn:Ei; [|reflexivity]. apply (HL _ _ n); auto.
Qed.

Lemma contains_group_frame comps p v : follow H (Ref l) p = Some v ->
  ~ through K (p ++ names comps) -> contains_group H' v comps = contains_group H v comps.
Proof.
  revert p v. induction comps as [|c1 r IH]; intros p v F N; [reflexivity|].
  cbn [contains_group]. destruct v as [x|j]; [reflexivity|].
  rewrite names_cons in N.
  pose proof (step_frame _ _ _ F (not_through_pre _ _ _ N) _ eq_refl) as S.
  destruct (node_at H j) as [k d|xs|xs] eqn:E; try (rewrite S; reflexivity).
  destruct S as (d' & -> & ->). destruct (sget d c1) as [u|] eqn:Eu; [|reflexivity].
  apply IH with (p := p ++ [SName c1]).
  - rewrite follow_app, F. cbn. rewrite E, Eu. reflexivity.
  - rewrite <- app_assoc. exact N.
Qed.

Lemma get_comps_frame comps : ~ through K (names comps) -> get_comps H' l comps = get_comps H l comps.
Proof.
  intros N. unfold get_comps.
  assert (F : follow H (Ref l) [] = Some (Ref l)) by reflexivity.
  pose proof (kind_frame _ _ F) as KF.
  destruct (node_at H l) as [k d|xs|xs].
  - destruct KF as (d' & ->). destruct k.
    + rewrite (lookup_frame comps [] _ F N). reflexivity.
    + apply (get_at_frame comps [] _ F N).
  - rewrite KF. apply (get_at_frame comps [] _ F N).
  - rewrite KF. apply (get_at_frame comps [] _ F N).
Qed.
Lemma contains_comps_frame comps : ~ through K (names comps) -> contains_comps H' l comps = contains_comps H l comps.
Proof.
  intros N. unfold contains_comps.
  assert (F : follow H (Ref l) [] = Some (Ref l)) by reflexivity.
  pose proof (kind_frame _ _ F) as KF.
  destruct (node_at H l) as [k d|xs|xs].
  - destruct KF as (d' & ->). destruct k.
    + rewrite (lookup_frame comps [] _ F N). reflexivity.
    + apply (contains_group_frame comps [] _ F N).
  - rewrite KF. reflexivity.
  - rewrite KF. reflexivity.
Qed.
End Frame.

(** ** Dotted names *)
Lemma split_app (a b : string) : split dot (a ++ String dot b)%string = split dot a ++ split dot b.
Proof.
  induction a as [|x a IH].
  - rewrite split_cons by reflexivity. reflexivity.
  - cbn [append]. cbn [split]. destruct (Ascii.eqb x dot) eqn:E.
    + rewrite IH. reflexivity.
    + rewrite IH. pose proof (split_nonempty dot a) as N. destruct (split dot a) as [|h t]; [congruence|].
      reflexivity.
Qed.
Lemma split_parts s x : In x (split dot s) -> has_char dot x = false.
Proof.
  revert x. induction s as [|y s IH]; cbn [split]; intros x.
  - intros [<-|[]]. reflexivity.
  - pose proof (split_nonempty dot s) as N. destruct (Ascii.eqb y dot) eqn:Ey.
    + intros [<-|HI]; [reflexivity|]. apply IH, HI.
    + destruct (split dot s) as [|h t]; [congruence|].
      intros [<-|HI]; [|apply IH; right; exact HI].
      cbn. rewrite Ey. apply IH. left. reflexivity.
Qed.
Lemma split_prefix k k' : (exists r, split dot k' = split dot k ++ r) <-> extends k k'.
Proof.
  split.
  - assert (J : forall s, join dot (split dot s) = s).
    { induction s as [|x s IH]; [reflexivity|]. cbn [split]. destruct (Ascii.eqb x dot) eqn:E.
      - apply Ascii.eqb_eq in E. subst x. pose proof (split_nonempty dot s) as N.
        destruct (split dot s) as [|h t]; [congruence|]. cbn [join]. cbn [join] in IH. rewrite IH. reflexivity.
      - pose proof (split_nonempty dot s) as N. destruct (split dot s) as [|h t]; [congruence|].
        rewrite <- IH. cbn [join]. destruct t; reflexivity. }
    assert (JA : forall a b, a <> [] -> b <> [] -> join dot (a ++ b) = (join dot a ++ "." ++ join dot b)%string).
    { induction a as [|x a IH]; [congruence|]. intros b _ Nb. destruct a as [|y a].
      - cbn. destruct b; [congruence|]. reflexivity.
      - change ((x :: y :: a) ++ b) with (x :: ((y :: a) ++ b)).
        change (join dot (x :: (y :: a) ++ b)) with (x ++ String dot (join dot ((y :: a) ++ b)))%string.
        rewrite IH by (congruence || assumption).
        change (join dot (x :: y :: a)) with (x ++ String dot (join dot (y :: a)))%string.
        rewrite <- !str_app_assoc. reflexivity. }
    intros (r & E). destruct r as [|x r].
    + left. rewrite app_nil_r in E. rewrite <- (J k), <- (J k'), E. reflexivity.
    + right. exists (join dot (x :: r)). rewrite <- (J k'), E, JA.
      * rewrite J. reflexivity.
      * apply split_nonempty.
      * congruence.
  - intros [->|(r & ->)].
    + exists []. rewrite app_nil_r. reflexivity.
    + exists (split dot r). cbn [append]. apply split_app.
Qed.
Lemma names_inj a b : names a = names b -> a = b.
Proof.
  revert b. induction a as [|x a IH]; intros [|y b] E; try discriminate; [reflexivity|].
  injection E as -> E. f_equal. apply IH, E.
Qed.
Lemma names_app a b : names (a ++ b) = names a ++ names b.
Proof. apply map_app. Qed.
Lemma through_names a b : through (names a) (names b) -> exists r, b = a ++ r.
Proof.
  revert b. induction a as [|x a IH]; intros b (r & E).
  - exists b. reflexivity.
  - destruct b as [|y b]; [discriminate|]. injection E as -> E.
    destruct (IH b) as (q & ->); [exists r; exact E|]. exists q. reflexivity.
Qed.

(** ** Reading plain names *)
Definition plainc (c : string) : Prop := c <> ""%string /\ first_is "[" c = false.
Lemma numeral_plain c : plainc c -> numeral c = Err KeyError.
Proof.
  intros (N & F). unfold numeral, numeral_loose. rewrite F. destruct c; [congruence|reflexivity].
Qed.
Lemma numeral_loose_plain c : plainc c -> numeral_loose c = Err KeyError.
Proof. intros (N & F). unfold numeral_loose. rewrite F. reflexivity. Qed.

Lemma lookup_names H v a b : forall w, follow H v (names a) = Some w -> lookup H v (a ++ b) = lookup H w b.
Proof.
  revert v. induction a as [|c a IH]; intros v w F; cbn in F; [injection F as ->; reflexivity|].
  destruct (child H v (SName c)) as [u|] eqn:E; [|discriminate].
  destruct v as [x|l]; [discriminate|]. cbn in E. cbn [app lookup].
  destruct (node_at H l); try discriminate. rewrite E. apply IH, F.
Qed.
Lemma get_at_names H v a b : forall w, follow H v (names a) = Some w -> get_at H v (a ++ b) = get_at H w b.
Proof.
  revert v. induction a as [|c a IH]; intros v w F; cbn in F; [injection F as ->; reflexivity|].
  destruct (child H v (SName c)) as [u|] eqn:E; [|discriminate].
  destruct v as [x|l]; [discriminate|]. cbn in E. cbn [app get_at].
  destruct (node_at H l); try discriminate. rewrite E. apply IH, F.
Qed.
Lemma contains_group_names H v a b : forall w, follow H v (names a) = Some w ->
  contains_group H v (a ++ b) = contains_group H w b.
Proof.
  revert v. induction a as [|c a IH]; intros v w F; cbn in F; [injection F as ->; reflexivity|].
  destruct (child H v (SName c)) as [u|] eqn:E; [|discriminate].
  destruct v as [x|l]; [discriminate|]. cbn in E. cbn [app contains_group].
  destruct (node_at H l); try discriminate. rewrite E. apply IH, F.
Qed.
Lemma lookup_plain H v comps w : Forall plainc comps ->
  lookup H v comps = Some w <-> follow H v (names comps) = Some w.
Proof.
  intros P. revert v. induction P as [|c r Pc P IH]; intros v; cbn; [reflexivity|].
  destruct v as [x|l]; cbn; [reflexivity|].
  destruct (node_at H l) as [k d|xs|xs].
  - destruct (sget d c); [apply IH|reflexivity].
  - rewrite (numeral_plain c Pc). split; discriminate.
  - rewrite (numeral_plain c Pc). split; discriminate.
Qed.
Lemma get_at_plain H v comps w : Forall plainc comps ->
  get_at H v comps = Ok w <-> follow H v (names comps) = Some w.
Proof.
  intros P. revert v. induction P as [|c r Pc P IH]; intros v; cbn.
  - split; intros E; injection E as ->; reflexivity.
  - destruct v as [x|l]; cbn; [split; discriminate|].
    destruct (node_at H l) as [k d|xs|xs].
    + destruct (sget d c); [apply IH|split; discriminate].
    + rewrite (numeral_plain c Pc). split; discriminate.
    + rewrite (numeral_plain c Pc). split; discriminate.
Qed.
Lemma get_comps_plain H l comps w : Forall plainc comps ->
  get_comps H l comps = Ok w <-> follow H (Ref l) (names comps) = Some w.
Proof.
  intros P. unfold get_comps.
  assert (A := get_at_plain H (Ref l) comps w P).
  destruct (node_at H l) as [[] d|xs|xs]; try exact A.
  rewrite <- (lookup_plain H (Ref l) comps w P).
  destruct (lookup H (Ref l) comps); split; intros E; try discriminate; injection E as ->; reflexivity.
Qed.
Lemma contains_group_follow H v comps w : follow H v (names comps) = Some w ->
  contains_group H v comps = Ok true.
Proof.
  intros F. pose proof (contains_group_names H v comps [] w F) as E. rewrite app_nil_r in E.
  rewrite E. reflexivity.
Qed.

(** A single missing component. *)
Lemma contains_one H l c : is_group H l ->
  contains_comps H l [c] = Ok (match child H (Ref l) (SName c) with Some _ => true | None => false end).
Proof.
  intros (k & d & E). unfold contains_comps. cbn. rewrite E. destruct k; cbn; destruct (sget d c); reflexivity.
Qed.
Lemma get_one H l c : is_group H l ->
  get_comps H l [c] = match child H (Ref l) (SName c) with Some w => Ok w | None => Err KeyError end.
Proof.
  intros (k & d & E). unfold get_comps. cbn. rewrite E. destruct k; cbn; destruct (sget d c); reflexivity.
Qed.

(** Reading below a missing entry. *)
Definition nothing (H : heap) (l : nat) (comps : list string) : Prop :=
  get_comps H l comps = Err KeyError /\ contains_comps H l comps = Ok false.
Lemma missing H l a j c b : is_group H l -> follow H (Ref l) (names a) = Some (Ref j) -> is_group H j ->
  child H (Ref j) (SName c) = None -> nothing H l (a ++ c :: b).
Proof.
  intros (k0 & d0 & E0) F (k & d & E) N. cbn in N. rewrite E in N. unfold nothing, get_comps, contains_comps.
  rewrite E0.
  rewrite (lookup_names H (Ref l) a (c :: b) _ F), (get_at_names H (Ref l) a (c :: b) _ F),
    (contains_group_names H (Ref l) a (c :: b) _ F).
  cbn. rewrite E, N. destruct k0; split; reflexivity.
Qed.

(** ** The invariant is kept *)
Lemma step_dec (x y : step) : {x = y} + {x <> y}.
Proof. decide equality; [apply string_dec|apply Nat.eq_dec]. Qed.
Lemma through_dec k p : through k p \/ ~ through k p.
Proof.
  unfold through. destruct (list_eq_dec step_dec (firstn (length k) p) k) as [E|E].
  - left. exists (skipn (length k) p). rewrite <- E at 1. symmetry. apply firstn_skipn.
  - right. intros (r & ->). apply E. rewrite firstn_app, Nat.sub_diag, firstn_all. cbn. apply app_nil_r.
Qed.
Lemma follow_one_inv H H' l m c w a : one_entry H H' m c w -> l < length H -> closed H -> unshared H l ->
  follow H (Ref l) (names a) = Some (Ref m) ->
  forall p, follow H' (Ref l) p = follow H (Ref l) p \/
    exists r, p = names (a ++ [c]) ++ r /\
      follow H' (Ref l) p = match w with None => None | Some v => follow H' v r end.
Proof.
  intros O L C U F p.
  destruct (through_dec (names (a ++ [c])) p) as [(r & ->)|N].
  - right. exists r. split; [reflexivity|]. rewrite names_app. cbn [names map].
    eapply follow_changed; eassumption.
  - left. eapply follow_frame; try eassumption. intros (r & ->). apply N. exists r.
    rewrite names_app. reflexivity.
Qed.

Lemma is_group_one H H' m c w j : one_entry H H' m c w -> j < length H -> is_group H j -> is_group H' j.
Proof.
  intros (O1 & O2 & O3 & k & d & d' & E1 & E2 & E3) L G.
  destruct (Nat.eq_dec j m) as [->|N].
  - exists k, d'. assumption.
  - destruct G as (k0 & d0 & E0). exists k0, d0. rewrite O1; assumption.
Qed.

Lemma keys_once_set H m c v : keys_once H -> keys_once (set_entry H m c v).
Proof.
  intros K l k d. unfold set_entry. destruct (node_at H m) as [k0 d0|xs|xs] eqn:E; try apply K.
  rewrite node_upd. destruct ((l =? m) && (m <? length H)); [|apply K].
  intros Q. injection Q as <- <-. apply sset_nodup. eapply K, E.
Qed.
Lemma closed_set H m c v : closed H -> (forall r, v = Ref r -> r < length H) -> closed (set_entry H m c v).
Proof.
  intros C V l j. unfold set_entry. destruct (node_at H m) as [k0 d0|xs|xs] eqn:E; try apply C.
  rewrite upd_length, node_upd. intros L.
  destruct ((l =? m) && (m <? length H)) eqn:B; [|apply C, L].
  cbn. intros HI. apply sset_in in HI. destruct HI as [HI|HI]; [apply V; auto|].
  apply andb_true_iff in B. destruct B as [_ B]. apply Nat.ltb_lt in B.
  apply (C m j B). rewrite E. exact HI.
Qed.
Lemma keys_once_app H : keys_once H -> keys_once (H ++ [NGroup false []]).
Proof.
  intros K l k d. rewrite node_app. destruct (l =? length H); [|apply K].
  intros Q. injection Q as <- <-. constructor.
Qed.
Lemma closed_app H : closed H -> closed (H ++ [NGroup false []]).
Proof.
  intros C l j. rewrite app_length, node_app. cbn. intros L.
  destruct (Nat.eqb_spec l (length H)); [intros []|]. intros HI.
  assert (j < length H) by (eapply C; [|exact HI]; lia). lia.
Qed.

Lemma create_good H l a j c : good H l -> follow H (Ref l) (names a) = Some (Ref j) -> is_group H j ->
  child H (Ref j) (SName c) = None ->
  good (create_group H j c) l.
Proof.
  intros (L & G & U & C & K) F Gj N.
  assert (Lj : j < length H) by (eapply follow_lt; eauto).
  pose proof (create_group_one H j c Lj Gj) as O.
  split; [rewrite create_group_length; lia|].
  split; [eapply is_group_one; eauto|].
  split; [|split].
  - assert (A : forall p x, follow (create_group H j c) (Ref l) p = Some (Ref x) ->
       follow H (Ref l) p = Some (Ref x) \/ (p = names (a ++ [c]) /\ x = length H)).
    { intros p x Fp. destruct (follow_one_inv _ _ _ _ _ _ _ O L C U F p) as [E|(r & Ep & E)].
      - left. congruence.
      - right. rewrite Fp in E. destruct r as [|s r].
        + rewrite app_nil_r in Ep. cbn in E. split; [assumption|congruence].
        + cbn in E. rewrite create_group_new in E by assumption. destruct s; discriminate. }
    intros p q x Fp Fq. destruct (A _ _ Fp) as [A1|(A1 & A1')]; destruct (A _ _ Fq) as [A2|(A2 & A2')].
    + eapply U; eassumption.
    + exfalso. assert (x < length H) by (eapply follow_lt; [exact C|exact L|eassumption]). lia.
    + exfalso. assert (x < length H) by (eapply follow_lt; [exact C|exact L|eassumption]). lia.
    + congruence.
  - unfold create_group. apply closed_set; [apply closed_app, C|].
    intros r E. injection E as <-. rewrite app_length. cbn. lia.
  - unfold create_group. apply keys_once_set, keys_once_app, K.
Qed.

(** Below an object that does not contain the changed group, nothing changes. *)
Lemma follow_away H H' m c w : one_entry H H' m c w -> closed H -> forall q v,
  (forall r, v = Ref r -> r < length H) ->
  (forall q, follow H v q <> Some (Ref m)) -> follow H' v q = follow H v q.
Proof.
  intros O C q. induction q as [|s q IH]; intros v Lv A; [reflexivity|].
  cbn. assert (E : child H' v s = child H v s).
  { apply (child_one _ _ _ _ _ _ _ O Lv). intros (-> & _). apply (A []). reflexivity. }
  rewrite E. destruct (child H v s) as [u|] eqn:Ec; [|reflexivity].
  apply IH.
  - intros r ->. apply child_ref in Ec. destruct Ec as (i & -> & HI). eapply C; [|exact HI]. apply Lv. reflexivity.
  - intros q' Fq. apply (A (s :: q')). cbn. rewrite Ec. exact Fq.
Qed.

Lemma set_good H l a j c v : good H l -> follow H (Ref l) (names a) = Some (Ref j) -> is_group H j ->
  separate H l v -> good (set_entry H j c v) l.
Proof.
  intros (L & G & U & C & K) F Gj S.
  assert (Lj : j < length H) by (eapply follow_lt; eauto).
  pose proof (set_entry_one H j c v Lj Gj) as O.
  split; [rewrite set_entry_length; lia|].
  split; [eapply is_group_one; eauto|].
  split; [|split].
  - assert (A : forall p x, follow (set_entry H j c v) (Ref l) p = Some (Ref x) ->
       follow H (Ref l) p = Some (Ref x) \/ 
       exists r q, v = Ref r /\ p = names (a ++ [c]) ++ q /\ follow H (Ref r) q = Some (Ref x)).
    { intros p x Fp. destruct (follow_one_inv _ _ _ _ _ _ _ O L C U F p) as [E|(q & Ep & E)].
      - left. congruence.
      - right. rewrite Fp in E. destruct v as [y|r]; [destruct q; discriminate|].
        exists r, q. split; [reflexivity|]. split; [assumption|].
        rewrite E. destruct (S r eq_refl) as (Lr & _ & D). symmetry.
        apply (follow_away _ _ _ _ _ O C).
        + intros r0 E0. injection E0 as <-. assumption.
        + intros q'. eapply D. eassumption. }
    intros p q x Fp Fq.
    destruct (A _ _ Fp) as [A1|(r1 & q1 & A1 & A1' & A1'')]; destruct (A _ _ Fq) as [A2|(r2 & q2 & A2 & A2' & A2'')].
    + eapply U; eassumption.
    + exfalso. destruct (S _ A2) as (_ & _ & D). eapply D; eassumption.
    + exfalso. destruct (S _ A1) as (_ & _ & D). eapply D; eassumption.
    + assert (r1 = r2) as <- by congruence. destruct (S _ A1) as (_ & Ur & _).
      rewrite A1', A2'. f_equal. eapply Ur; eassumption.
  - apply closed_set; [assumption|]. intros r E. apply S. assumption.
  - apply keys_once_set, K.
Qed.

Lemma separate_create H l a j c v : good H l -> follow H (Ref l) (names a) = Some (Ref j) -> is_group H j ->
  separate H l v -> separate (create_group H j c) l v.
Proof.
  intros (L & G & U & C & K) F Gj S r ->.
  assert (Lj : j < length H) by (eapply follow_lt; eauto).
  pose proof (create_group_one H j c Lj Gj) as O.
  destruct (S r eq_refl) as (Lr & Ur & D).
  assert (E : forall q, follow (create_group H j c) (Ref r) q = follow H (Ref r) q).
  { intros q. apply (follow_away _ _ _ _ _ O C).
    - intros r0 E0. injection E0 as <-. assumption.
    - intros q'. eapply D. eassumption. }
  split; [rewrite create_group_length; lia|]. split.
  - intros p q x. rewrite !E. apply Ur.
  - intros p q x Fp. rewrite E. intros Fq.
    destruct (follow_one_inv _ _ _ _ _ _ _ O L C U F p) as [Ep|(q' & _ & Ep)].
    + rewrite Fp in Ep. eapply D; [symmetry; exact Ep|exact Fq].
    + rewrite Fp in Ep. assert (Lx : x < length H) by (eapply follow_lt; [exact C| |exact Fq]; assumption).
      destruct q' as [|s q'].
      * cbn in Ep. injection Ep as ->. lia.
      * cbn in Ep. rewrite create_group_new in Ep by assumption. destruct s; discriminate.
Qed.

(** ** Creating a group: nothing but that name changes *)
Lemma create_follow H l a j c : good H l -> follow H (Ref l) (names a) = Some (Ref j) -> is_group H j ->
  follow (create_group H j c) (Ref l) (names (a ++ [c])) = Some (Ref (length H)).
Proof.
  intros (L & G & U & C & K) F Gj.
  assert (Lj : j < length H) by (eapply follow_lt; eauto).
  pose proof (create_group_one H j c Lj Gj) as O.
  rewrite names_app. pose proof (follow_changed H _ l j c _ (names a) O L C U F []) as E.
  rewrite app_nil_r in E. exact E.
Qed.
Lemma create_reads H l a j c comps : good H l -> follow H (Ref l) (names a) = Some (Ref j) -> is_group H j ->
  child H (Ref j) (SName c) = None -> comps <> a ++ [c] ->
  get_comps (create_group H j c) l comps = get_comps H l comps /\
  contains_comps (create_group H j c) l comps = contains_comps H l comps.
Proof.
  intros Hg F Gj N D.
  pose proof (create_good _ _ _ _ _ Hg F Gj N) as Hg'.
  destruct Hg as (L & G & U & C & K).
  assert (Lj : j < length H) by (eapply follow_lt; eauto).
  pose proof (create_group_one H j c Lj Gj) as O.
  destruct (through_dec (names (a ++ [c])) (names comps)) as [T|T].
  - apply through_names in T. destruct T as (r & ->).
    destruct r as [|c2 r]; [exfalso; apply D, app_nil_r|].
    rewrite <- app_assoc. cbn [app].
    destruct (missing H l a j c (c2 :: r) G F Gj N) as (M1 & M2).
    assert (F' := create_follow _ _ _ _ c (conj L (conj G (conj U (conj C K)))) F Gj).
    destruct Hg' as (_ & G' & _).
    destruct (missing (create_group H j c) l (a ++ [c]) (length H) c2 r G' F') as (M3 & M4).
    + exists false, []. apply create_group_new. assumption.
    + cbn. rewrite create_group_new by assumption. reflexivity.
    + rewrite <- app_assoc in M3, M4. cbn in M3, M4. split; congruence.
  - split.
    + eapply get_comps_frame; eassumption.
    + eapply contains_comps_frame; eassumption.
Qed.

Definition prefix (a b : list string) : Prop := exists r, b = a ++ r.

(** ** Walking to the parent of a plain name *)
Lemma walk_correct comps : forall H l a j v, good H l -> separate H l v ->
  follow H (Ref l) (names a) = Some (Ref j) ->
  Forall plainc comps -> forall H1 m, walk H j comps = (H1, Ok m) ->
  good H1 l /\ separate H1 l v /\ follow H1 (Ref l) (names (a ++ comps)) = Some (Ref m) /\
  forall comps2, ~ prefix comps2 (a ++ comps) \/ prefix comps2 a ->
    get_comps H1 l comps2 = get_comps H l comps2 /\
    contains_comps H1 l comps2 = contains_comps H l comps2.
Proof.
  induction comps as [|c r IH]; intros H l a j v Hg Hs F P H1 m W.
  - cbn in W. injection W as <- <-. rewrite app_nil_r. auto.
  - inversion P as [|? ? Pc Pr]; subst. cbn [walk] in W.
    destruct (node_at H j) as [k d|xs|xs] eqn:E.
    + assert (Gj : is_group H j) by (exists k, d; assumption).
      rewrite (contains_one _ _ _ Gj) in W. destruct (child H (Ref j) (SName c)) as [u|] eqn:Ec.
      * rewrite (get_one _ _ _ Gj), Ec in W. destruct u as [x|j2]; [discriminate|].
        assert (F2 : follow H (Ref l) (names (a ++ [c])) = Some (Ref j2)).
        { rewrite names_app, follow_app, F. cbn [names map follow]. rewrite Ec. reflexivity. }
        destruct (IH H l (a ++ [c]) j2 v Hg Hs F2 Pr H1 m W) as (A1 & A2 & A3 & A4).
        rewrite <- app_assoc in A3, A4. split; [assumption|]. split; [assumption|]. split; [assumption|].
        intros comps2 [N|(q & ->)]; apply A4; [left; exact N|right].
        exists (q ++ [c]). rewrite app_assoc. reflexivity.
      * assert (FB : first_is "[" c = false) by apply Pc. rewrite FB in W.
        assert (Hg' := create_good _ _ _ _ c Hg F Gj Ec).
        assert (Hs' := separate_create _ _ _ _ c _ Hg F Gj Hs).
        assert (F' := create_follow _ _ _ _ c Hg F Gj).
        destruct (IH _ l (a ++ [c]) _ v Hg' Hs' F' Pr H1 m W) as (A1 & A2 & A3 & A4).
        rewrite <- app_assoc in A3, A4. split; [assumption|]. split; [assumption|]. split; [assumption|].
        intros comps2 D.
        assert (NE : comps2 <> a ++ [c]).
        { intros ->. destruct D as [D|(q & Q)].
          - apply D. exists r. rewrite <- app_assoc. reflexivity.
          - apply (f_equal (@length _)) in Q. rewrite !app_length in Q. cbn in Q. lia. }
        destruct (create_reads _ _ _ _ c comps2 Hg F Gj Ec NE) as (R1 & R2).
        destruct (A4 comps2) as (R3 & R4).
        { destruct D as [D|(q & ->)]; [left; exact D|right]. exists (q ++ [c]). rewrite app_assoc. reflexivity. }
        split; congruence.
    + unfold contains_comps in W. rewrite E, (numeral_plain c Pc) in W. discriminate.
    + unfold contains_comps in W. rewrite E, (numeral_plain c Pc) in W. discriminate.
Qed.

(** ** Setting *)
Lemma plain_Forall key : plain key -> Forall plainc (split dot key).
Proof. intros P. apply Forall_forall. exact P. Qed.
Lemma plain_no_empty key : plain key -> existsb (String.eqb "") (split dot key) = false.
Proof.
  intros P. apply not_true_is_false. intros E. apply existsb_exists in E.
  destruct E as (x & HI & E). apply String.eqb_eq in E. subst x. destruct (P _ HI) as [N _]. congruence.
Qed.

Lemma set_entry_correct H l a j c v : good H l -> separate H l v ->
  follow H (Ref l) (names a) = Some (Ref j) -> is_group H j ->
  good (set_entry H j c v) l /\
  follow (set_entry H j c v) (Ref l) (names (a ++ [c])) = Some v /\
  forall comps2, ~ prefix (a ++ [c]) comps2 ->
    get_comps (set_entry H j c v) l comps2 = get_comps H l comps2 /\
    contains_comps (set_entry H j c v) l comps2 = contains_comps H l comps2.
Proof.
  intros Hg Hs F Gj. split; [eapply set_good; eassumption|].
  destruct Hg as (L & G & U & C & K).
  assert (Lj : j < length H) by (eapply follow_lt; eauto).
  pose proof (set_entry_one H j c v Lj Gj) as O. split.
  - rewrite names_app. pose proof (follow_changed H _ l j c _ (names a) O L C U F []) as E.
    rewrite app_nil_r in E. exact E.
  - intros comps2 N. assert (T : ~ through (names (a ++ [c])) (names comps2)).
    { intros T. apply through_names in T. apply N, T. }
    split; [eapply get_comps_frame; eassumption|eapply contains_comps_frame; eassumption].
Qed.

(** Without the requirement that the value be separate (the invariant may then be lost). *)
Lemma set_entry_reads H l a j c v : good H l ->
  follow H (Ref l) (names a) = Some (Ref j) -> is_group H j ->
  follow (set_entry H j c v) (Ref l) (names (a ++ [c])) = Some v /\
  is_group (set_entry H j c v) l /\
  forall comps2, ~ prefix (a ++ [c]) comps2 ->
    get_comps (set_entry H j c v) l comps2 = get_comps H l comps2 /\
    contains_comps (set_entry H j c v) l comps2 = contains_comps H l comps2.
Proof.
  intros (L & G & U & C & K) F Gj.
  assert (Lj : j < length H) by (eapply follow_lt; eauto).
  pose proof (set_entry_one H j c v Lj Gj) as O. split; [|split].
  - rewrite names_app. pose proof (follow_changed H _ l j c _ (names a) O L C U F []) as E.
    rewrite app_nil_r in E. exact E.
  - eapply is_group_one; eauto.
  - intros comps2 N. assert (T : ~ through (names (a ++ [c])) (names comps2)).
    { intros T. apply through_names in T. apply N, T. }
    split; [eapply get_comps_frame; eassumption|eapply contains_comps_frame; eassumption].
Qed.

Lemma follow_contains H l comps w : is_group H l -> follow H (Ref l) (names comps) = Some w ->
  contains_comps H l comps = Ok true.
Proof.
  intros (k & d & E) F. unfold contains_comps. rewrite E.
  pose proof (lookup_names H (Ref l) comps [] w F) as E1. rewrite app_nil_r in E1. cbn in E1. rewrite E1.
  pose proof (contains_group_follow H (Ref l) comps w F) as E2. destruct k; [reflexivity|exact E2].
Qed.
Lemma follow_get H l comps w : is_group H l -> follow H (Ref l) (names comps) = Some w ->
  get_comps H l comps = Ok w.
Proof.
  intros (k & d & E) F. unfold get_comps. rewrite E.
  pose proof (lookup_names H (Ref l) comps [] w F) as E1. rewrite app_nil_r in E1. cbn in E1. rewrite E1.
  pose proof (get_at_names H (Ref l) comps [] w F) as E2. rewrite app_nil_r in E2.
  destruct k; [reflexivity|exact E2].
Qed.

Lemma separate_leaf H l x : separate H l (Leaf x).
Proof. intros r E. discriminate. Qed.

Lemma setitem_shape H l key v H' : plain key -> is_group H l -> setitem H l key v = (H', Ok tt) ->
  exists a c H1 j, split dot key = a ++ [c] /\ walk H l a = (H1, Ok j) /\ is_group H1 j /\
    H' = set_entry H1 j c v.
Proof.
  intros P (k & d & E) S. unfold setitem in S. rewrite (plain_no_empty _ P) in S.
  pose proof (split_nonempty dot key) as NE.
  pose proof (plain_Forall _ P) as PF.
  pose proof (app_removelast_last ""%string NE) as AL.
  destruct (split dot key) as [|c0 [|c1 r]] eqn:ES; [congruence| |].
  - rewrite E in S. injection S as <-. exists [], c0, H, l.
    split; [reflexivity|]. split; [reflexivity|]. split; [exists k, d; assumption|reflexivity].
  - destruct (walk H l (removelast (c0 :: c1 :: r))) as [H1 [j|e]] eqn:W; [|discriminate].
    exists (removelast (c0 :: c1 :: r)), (last (c0 :: c1 :: r) ""%string), H1, j.
    split; [exact AL|]. split; [exact W|].
    unfold assign in S. destruct (node_at H1 j) as [k1 d1|xs|xs] eqn:E1.
    + injection S as <-. split; [exists k1, d1; assumption|reflexivity].
    + discriminate.
    + rewrite numeral_loose_plain in S; [discriminate|].
      rewrite Forall_forall in PF. apply PF. rewrite AL at 2. apply in_or_app. right. left. reflexivity.
Qed.

Theorem setitem_correct H l key v H' : good H l -> plain key -> setitem H l key v = (H', Ok tt) ->
  getitem H' l key = Ok v /\ contains H' l key = Ok true /\
  (forall key2, ~ extends key key2 -> ~ extends key2 key ->
     getitem H' l key2 = getitem H l key2 /\ contains H' l key2 = contains H l key2) /\
  (separate H l v -> good H' l).
Proof.
  intros Hg P S.
  assert (G : is_group H l) by apply Hg.
  destruct (setitem_shape _ _ _ _ _ P G S) as (a & c & H1 & j & ES & W & Gj & ->).
  assert (Pa : Forall plainc a).
  { pose proof (plain_Forall _ P) as PF. rewrite ES in PF. apply Forall_app in PF. apply PF. }
  destruct (walk_correct a H l [] l (Leaf (LBool true)) Hg (separate_leaf _ _ _) eq_refl Pa H1 j W)
    as (Hg1 & _ & F1 & A1). cbn [app] in F1, A1.
  destruct (set_entry_reads H1 l a j c v Hg1 F1 Gj) as (F2 & G2 & A2).
  unfold getitem, contains. rewrite ES.
  split; [apply follow_get; assumption|]. split; [eapply follow_contains; eassumption|]. split.
  - intros key2 N1 N2.
    assert (M1 : ~ prefix (a ++ [c]) (split dot key2)).
    { intros (r & E). apply N1, split_prefix. exists r. rewrite ES. exact E. }
    assert (M2 : ~ prefix (split dot key2) a).
    { intros (r & E). apply N2, split_prefix. exists (r ++ [c]). rewrite ES, E, app_assoc. reflexivity. }
    destruct (A2 _ M1) as (B1 & B2). destruct (A1 (split dot key2) (or_introl M2)) as (B3 & B4).
    split; congruence.
  - intros Sep. destruct (walk_correct a H l [] l v Hg Sep eq_refl Pa H1 j W) as (_ & Sep1 & _ & _).
    eapply set_good; eassumption.
Qed.

(** *** When setting succeeds *)
Lemma walk_ok comps : forall H j, closed H -> j < length H -> is_group H j -> Forall plainc comps ->
  (exists H1 m, walk H j comps = (H1, Ok m) /\ is_group H1 m) <->
  (forall p q w, comps = p ++ q -> follow H (Ref j) (names p) = Some w -> exists i, w = Ref i /\ is_group H i).
Proof.
  induction comps as [|c r IH]; intros H j C L G P.
  - split.
    + intros _ p q w E F. symmetry in E. apply app_eq_nil in E. destruct E as [-> ->].
      cbn in F. injection F as <-. eauto.
    + intros _. exists H, j. split; [reflexivity|assumption].
  - inversion P as [|? ? Pc Pr]; subst. cbn [walk]. rewrite (contains_one _ _ _ G).
    destruct (child H (Ref j) (SName c)) as [u|] eqn:Ec.
    + rewrite (get_one _ _ _ G), Ec.
      assert (Lu : forall i, u = Ref i -> i < length H).
      { intros i ->. apply child_ref in Ec. destruct Ec as (n & E & HI). injection E as <-. eapply C; eassumption. }
      destruct u as [x|i].
      * split.
        -- intros (H1 & m & W & _). discriminate.
        -- intros A. exfalso. destruct (A [c] r (Leaf x)) as (i & E & _); [reflexivity| |discriminate].
           cbn [names map follow]. rewrite Ec. reflexivity.
      * destruct (node_at H i) as [k d|xs|xs] eqn:Ei.
        -- assert (Gi : is_group H i) by (exists k, d; assumption).
           rewrite (IH H i C (Lu _ eq_refl) Gi Pr). split.
           ++ intros A [|c0 p] q w E F; [cbn in F; injection F as <-; eauto|].
              cbn in E. injection E as <- ->. cbn [names map follow] in F. rewrite Ec in F.
              eapply A; [reflexivity|exact F].
           ++ intros A p q w -> F. apply (A (c :: p) q w); [reflexivity|].
              cbn [names map follow]. rewrite Ec. exact F.
        -- split.
           ++ intros (H1 & m & W & Gm). exfalso. destruct r as [|c2 r].
              ** cbn in W. injection W as <- <-. destruct Gm as (k & d & E). congruence.
              ** inversion Pr; subst. cbn [walk] in W. unfold contains_comps in W.
                 rewrite Ei, numeral_plain in W by assumption. discriminate.
           ++ intros A. exfalso. destruct (A [c] r (Ref i)) as (i' & E & (k & d & E')); [reflexivity| |].
              ** cbn [names map follow]. rewrite Ec. reflexivity.
              ** injection E as <-. congruence.
        -- split.
           ++ intros (H1 & m & W & Gm). exfalso. destruct r as [|c2 r].
              ** cbn in W. injection W as <- <-. destruct Gm as (k & d & E). congruence.
              ** inversion Pr; subst. cbn [walk] in W. unfold contains_comps in W.
                 rewrite Ei, numeral_plain in W by assumption. discriminate.
           ++ intros A. exfalso. destruct (A [c] r (Ref i)) as (i' & E & (k & d & E')); [reflexivity| |].
              ** cbn [names map follow]. rewrite Ec. reflexivity.
              ** injection E as <-. congruence.
    + assert (FB : first_is "[" c = false) by apply Pc. rewrite FB.
      assert (C' : closed (create_group H j c)).
      { unfold create_group. apply closed_set; [apply closed_app, C|].
        intros x E. injection E as <-. rewrite app_length. cbn. lia. }
      assert (N' := create_group_new H j c L).
      rewrite (IH (create_group H j c) (length H) C').
      * split.
        -- intros _ [|c0 p] q w E F; [cbn in F; injection F as <-; eauto|].
           cbn in E. injection E as <- ->. cbn [names map follow] in F. rewrite Ec in F. discriminate.
        -- intros _ [|c0 p] q w E F.
           ++ cbn in F. injection F as <-. exists (length H). split; [reflexivity|]. exists false, []. assumption.
           ++ cbn in F. rewrite N' in F. discriminate.
      * rewrite create_group_length. lia.
      * exists false, []. assumption.
      * assumption.
Qed.

Theorem setitem_ok H l key v : good H l -> plain key ->
  (exists H', setitem H l key v = (H', Ok tt)) <->
  (forall key2 w, extends key2 key -> key2 <> key -> getitem H l key2 = Ok w ->
     exists i, w = Ref i /\ is_group H i).
Proof.
  intros (L & G & U & C & K) P.
  pose proof (plain_Forall _ P) as PF.
  pose proof (split_nonempty dot key) as NE.
  pose proof (app_removelast_last ""%string NE) as AL.
  set (a := removelast (split dot key)) in *. set (c := last (split dot key) ""%string) in *.
  assert (Pa : Forall plainc a).
  { rewrite AL in PF. apply Forall_app in PF. apply PF. }
  assert (S1 : (exists H', setitem H l key v = (H', Ok tt)) <->
               (exists H1 m, walk H l a = (H1, Ok m) /\ is_group H1 m)).
  { split.
    - intros (H' & S). destruct (setitem_shape _ _ _ _ _ P G S) as (a' & c' & H1 & j & ES & W & Gj & ->).
      assert (a' = a) as ->.
      { rewrite ES in AL. apply app_inj_tail in AL. apply AL. }
      eauto.
    - intros (H1 & m & W & Gm). unfold setitem. rewrite (plain_no_empty _ P).
      destruct (split dot key) as [|c0 [|c1 r]] eqn:ES; [congruence| |].
      + destruct G as (k & d & E). rewrite E. eauto.
      + fold a. rewrite W. unfold assign. destruct Gm as (k & d & E). rewrite E. eauto. }
  rewrite S1, (walk_ok a H l C L G Pa). split.
  - intros A key2 w E N Gt.
    apply split_prefix in E. destruct E as (r & E).
    assert (P2 : Forall plainc (split dot key2)).
    { rewrite E in PF. apply Forall_app in PF. apply PF. }
    unfold getitem in Gt. apply (get_comps_plain _ _ _ _ P2) in Gt.
    destruct r as [|x r] using rev_ind.
    { exfalso. apply N. rewrite app_nil_r in E.
      assert (X : extends key key2). { apply split_prefix. exists []. rewrite app_nil_r. congruence. }
      assert (Y : extends key2 key). { apply split_prefix. exists []. rewrite app_nil_r. congruence. }
      destruct X as [|(q & X)]; [assumption|]. destruct Y as [|(q' & Y)]; [congruence|].
      exfalso. apply (f_equal String.length) in X. apply (f_equal String.length) in Y.
      assert (LA : forall a b, String.length (a ++ b)%string = String.length a + String.length b).
      { induction a0; intros; cbn; auto. }
      rewrite !LA in X, Y. cbn in X, Y. lia. }
    clear IHr. rewrite E in AL. rewrite app_assoc in AL. apply app_inj_tail in AL. destruct AL as [AL _].
    eapply A; [symmetry; exact AL|exact Gt].
  - intros A p q w E F.
    destruct p as [|p0 p]; [cbn in F; injection F as <-; eauto|].
    assert (PP : Forall plainc (p0 :: p)).
    { rewrite E in Pa. apply Forall_app in Pa. apply Pa. }
    assert (SJ : split dot (join dot (p0 :: p)) = p0 :: p).
    { apply split_join; [congruence|]. intros x HI.
      assert (HI2 : In x (split dot key)). { rewrite AL, E. apply in_or_app. left. apply in_or_app. left. exact HI. }
      exact (split_parts _ _ HI2). }
    apply (A (join dot (p0 :: p)) w).
    + apply split_prefix. rewrite SJ. exists (q ++ [c]). rewrite AL, E, app_assoc. reflexivity.
    + intros EQ. rewrite EQ in SJ. rewrite SJ in AL. rewrite E in AL.
      apply (f_equal (@length _)) in AL. rewrite !app_length in AL. cbn in AL. lia.
    + unfold getitem. rewrite SJ. apply get_comps_plain; assumption.
Qed.

(** ** Deleting *)
Lemma del_entry_one H j c : j < length H -> keys_once H -> child H (Ref j) (SName c) <> None ->
  exists H', del_entry H j c = (H', Ok tt) /\ one_entry H H' j c None /\ length H' = length H /\
    (closed H -> closed H') /\ keys_once H'.
Proof.
  intros L K N. unfold del_entry. cbn in N. destruct (node_at H j) as [k d|xs|xs] eqn:E; try congruence.
  destruct (sget d c) as [u|] eqn:Ed; [|congruence].
  eexists. split; [reflexivity|]. split; [|split; [|split]].
  - split; [|split; [|split]].
    + intros l Hl D. rewrite node_upd. apply Nat.eqb_neq in D. rewrite D. reflexivity.
    + rewrite upd_length. lia.
    + assumption.
    + exists k, d, (sdel d c). split; [assumption|]. split.
      * rewrite node_upd, Nat.eqb_refl. apply Nat.ltb_lt in L. rewrite L. reflexivity.
      * intros c'. apply sget_sdel. eapply K, E.
  - apply upd_length.
  - intros C l m. rewrite upd_length, node_upd. intros Ll.
    destruct ((l =? j) && (j <? length H)); [|apply C, Ll].
    cbn. intros HI. apply sdel_in in HI. apply (C j m L). rewrite E. exact HI.
  - intros l k0 d0. rewrite node_upd. destruct ((l =? j) && (j <? length H)); [|apply K].
    intros Q. injection Q as <- <-. apply sdel_nodup. eapply K, E.
Qed.

Lemma contains_plain_follow H l comps : is_group H l -> Forall plainc comps ->
  contains_comps H l comps = Ok true -> exists w, follow H (Ref l) (names comps) = Some w.
Proof.
  intros (k & d & E) P. unfold contains_comps. rewrite E. destruct k.
  - destruct (lookup H (Ref l) comps) as [w|] eqn:EL; [|discriminate]. intros _.
    exists w. apply (lookup_plain _ _ _ _ P), EL.
  - clear. generalize (Ref l). induction comps as [|c r IH]; intros v; cbn; [eauto|].
    destruct v as [x|j]; [discriminate|]. cbn. destruct (node_at H j) as [k d|xs|xs]; try discriminate.
    destruct (sget d c); [apply IH|discriminate].
Qed.

Theorem delitem_correct H l key H' : good H l -> plain key -> delitem H l key = (H', Ok tt) ->
  contains H' l key = Ok false /\ getitem H' l key = Err KeyError /\
  (forall key2, ~ extends key key2 ->
     getitem H' l key2 = getitem H l key2 /\ contains H' l key2 = contains H l key2) /\
  good H' l.
Proof.
  intros Hg P S. unfold getitem, contains.
  assert (G : is_group H l) by apply Hg.
  pose proof (plain_Forall _ P) as PF.
  unfold delitem in S.
  destruct (contains_comps H l (split dot key)) as [b|e] eqn:EC; [|discriminate].
  destruct b.
  2:{ injection S as <-. rewrite EC. split; [reflexivity|]. split; [|auto].
      destruct G as (k & d & E). unfold contains_comps in EC. unfold get_comps. rewrite E in *. destruct k.
      - destruct (lookup H (Ref l) (split dot key)); [discriminate|reflexivity].
      - clear - EC. revert EC. generalize (Ref l). induction (split dot key) as [|c r IH]; intros v; cbn; [discriminate|].
        destruct v as [x|j]; [discriminate|]. destruct (node_at H j) as [k d|xs|xs]; try discriminate.
        destruct (sget d c); [apply IH|reflexivity]. }
  destruct (contains_plain_follow _ _ _ G PF EC) as (w & F).
  pose proof (split_nonempty dot key) as NE.
  pose proof (app_removelast_last ""%string NE) as AL.
  set (a := removelast (split dot key)) in *. set (c := last (split dot key) ""%string) in *.
  rewrite AL, names_app, follow_app in F.
  destruct (follow H (Ref l) (names a)) as [u|] eqn:Fa; [|discriminate].
  cbn [names map follow] in F.
  destruct (child H u (SName c)) as [w0|] eqn:Ec; [|discriminate].
  destruct u as [x|j]; [discriminate|].
  assert (Gj : is_group H j).
  { cbn in Ec. destruct (node_at H j) as [k d|xs|xs] eqn:E; try discriminate. exists k, d. exact E. }
  assert (SD : del_entry H j c = (H', Ok tt)).
  { destruct (split dot key) as [|c0 [|c1 r]] eqn:ES; [congruence| |].
    - assert (a = []) by reflexivity. subst a. cbn in Fa. injection Fa as <-. exact S.
    - fold a in S. rewrite (follow_get _ _ _ _ G Fa) in S. fold c in S.
      rewrite (contains_one _ _ _ Gj), Ec in S. exact S. }
  destruct Hg as (L & _ & U & C & K).
  assert (Lj : j < length H) by (eapply follow_lt; eauto).
  destruct (del_entry_one H j c Lj K) as (H2 & D1 & O & LEN & CL & K'); [congruence|].
  rewrite SD in D1. injection D1 as <-.
  assert (G' : is_group H' l) by (eapply is_group_one; eauto).
  assert (Fa' : follow H' (Ref l) (names a) = Some (Ref j)).
  { rewrite <- Fa. eapply (follow_frame H H' l j c None (names a)); try eassumption.
    intros (r & E). apply (f_equal (@length _)) in E. rewrite !app_length in E. cbn in E. lia. }
  assert (Gj' : is_group H' j) by (eapply is_group_one; eauto).
  assert (Nc : child H' (Ref j) (SName c) = None).
  { destruct O as (O1 & O2 & O3 & k & d & d' & E1 & E2 & E3). cbn. rewrite E2, E3, String.eqb_refl. reflexivity. }
  destruct (missing H' l a j c [] G' Fa' Gj' Nc) as (M1 & M2).
  rewrite AL at 1 2. split; [exact M2|]. split; [exact M1|]. split.
  - intros key2 N. assert (T : ~ through (names (a ++ [c])) (names (split dot key2))).
    { intros T. apply through_names in T. apply N, split_prefix. rewrite AL. exact T. }
    split; [eapply get_comps_frame; eassumption|eapply contains_comps_frame; eassumption].
  - split; [rewrite LEN; exact L|]. split; [exact G'|]. split; [|split; [apply CL, C|exact K']].
    intros p q x Fp Fq.
    destruct (follow_one_inv _ _ _ _ _ _ _ O L C U Fa p) as [Ep|(r & _ & Ep)]; [|congruence].
    destruct (follow_one_inv _ _ _ _ _ _ _ O L C U Fa q) as [Eq|(r & _ & Eq)]; [|congruence].
    eapply U; [rewrite <- Ep; exact Fp|rewrite <- Eq; exact Fq].
Qed.

(** ** Containment and lookup *)
Theorem contains_config H l key d : node_at H l = NGroup true d ->
  (contains H l key = Ok true <-> exists w, getitem H l key = Ok w) /\
  (contains H l key = Ok false <-> getitem H l key = Err KeyError).
Proof.
  intros E. unfold contains, getitem, contains_comps, get_comps. rewrite E.
  destruct (lookup H (Ref l) (split dot key)) as [w|].
  - split; split; intros X; try discriminate; eauto.
  - split; split; intros X; try discriminate; try reflexivity. destruct X; discriminate.
Qed.
Theorem contains_no_lists H l key : no_lists H -> closed H -> l < length H ->
  (contains H l key = Ok true <-> exists w, getitem H l key = Ok w) /\
  (contains H l key = Ok false <-> getitem H l key = Err KeyError).
Proof.
  intros NL C L. destruct (NL l L) as ([] & d & E); [eapply contains_config; eassumption|].
  unfold contains, getitem, contains_comps, get_comps. rewrite E.
  assert (Lv : forall r, Ref l = Ref r -> r < length H) by (intros r X; injection X as <-; exact L).
  revert Lv. generalize (Ref l). induction (split dot key) as [|c r IH]; intros v Lv; cbn.
  - split; split; intros X; try discriminate; eauto.
  - destruct v as [x|j].
    + split; split; intros X; try discriminate. destruct X; discriminate.
    + specialize (Lv j eq_refl). destruct (NL j Lv) as (k & d0 & E0). rewrite E0.
      destruct (sget d0 c) as [w|] eqn:Ed.
      * apply IH. intros r0 ->. apply (C j r0 Lv). rewrite E0. cbn.
        apply sget_in in Ed. apply in_map_iff. exists (c, Ref r0). auto.
      * split; split; intros X; try discriminate; try reflexivity. destruct X; discriminate.
Qed.
