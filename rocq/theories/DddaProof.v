From Verif Require Import QcBase PyBase OtfsModel OtfsSpec OtfsProof DddaModel DddaSpec.
From Coq Require Import Field.
Set Implicit Arguments.
Open Scope Qc_scope.

Lemma two_neq0 : two <> 0. Proof. discriminate. Qed.

(** * Streaming *)

(** Averages of consecutive pairs. *)
Fixpoint halve (l : list Qc) : list Qc :=
  match l with
  | x :: y :: r => (x + y) / two :: halve r
  | _ => []
  end.

Lemma list_ind2 (A : Type) (P : list A -> Prop) :
  P [] -> (forall x, P [x]) -> (forall x y l, P l -> P (x :: y :: l)) -> forall l, P l.
Proof.
  intros H0 H1 H2. fix IH 1. intros [|x [|y l]]; [exact H0|apply H1|apply H2, IH].
Qed.

Lemma halve_length l : length (halve l) = (length l / 2)%nat.
Proof.
  induction l as [| |x y l IH] using list_ind2; [reflexivity|reflexivity|].
  cbn [halve length]. rewrite IH.
  replace (S (S (length l))) with (length l + 1 * 2)%nat by lia.
  rewrite Nat.div_add by lia. lia.
Qed.

Inductive strm : list level -> list Qc -> Prop :=
| strm_nil : strm [] []
| strm_cons b r l : rep b l -> l <> [] -> strm r (halve l) ->
    strm ((b, last_if_odd l) :: r) l.

Lemma last_if_odd_app l x : last_if_odd (l ++ [x]) =
  match last_if_odd l with None => Some x | Some _ => None end.
Proof.
  unfold last_if_odd. rewrite app_length. cbn [length].
  rewrite Nat.add_1_r, Nat.odd_succ, <- Nat.negb_odd.
  destruct (Nat.odd (length l)); cbn [negb].
  - reflexivity.
  - rewrite last_last. reflexivity.
Qed.

Lemma halve_app_even l x : Nat.odd (length l) = false ->
  halve (l ++ [x]) = halve l.
Proof.
  induction l as [| |a b l IH] using list_ind2; intros H; cbn in *;
    [reflexivity|discriminate|].
  f_equal. apply IH, H.
Qed.
Lemma halve_app_odd l x : Nat.odd (length l) = true ->
  halve (l ++ [x]) = halve l ++ [(last l 0 + x) / two].
Proof.
  induction l as [| |a b l IH] using list_ind2; intros H.
  - discriminate.
  - reflexivity.
  - cbn [length] in H. change (Nat.odd (S (S (length l)))) with (Nat.odd (length l)) in H.
    specialize (IH H). destruct l as [|c l]; [discriminate|].
    cbn [halve app] in *. rewrite IH. reflexivity.
Qed.

Lemma strm_add lv l x : strm lv l -> strm (add_lv lv x) (l ++ [x]).
Proof.
  intros H. revert x. induction H as [|b r l Hb Hn Hr IH]; intros x.
  - cbn. change (Some x) with (last_if_odd [x]). constructor.
    + apply (@rep_add otfs_new [] x rep_new).
    + discriminate.
    + constructor.
  - cbn [add_lv].
    assert (Hne : l ++ [x] <> []) by (destruct l; discriminate).
    pose proof (last_if_odd_app l x) as HL.
    destruct (last_if_odd l) as [y|] eqn:E.
    + rewrite <- HL. constructor; [apply rep_add, Hb|assumption|].
      unfold last_if_odd in E. destruct (Nat.odd (length l)) eqn:O; [|discriminate].
      injection E as <-. rewrite halve_app_odd by assumption. apply IH.
    + rewrite <- HL. constructor; [apply rep_add, Hb|assumption|].
      unfold last_if_odd in E. destruct (Nat.odd (length l)) eqn:O; [discriminate|].
      rewrite halve_app_even by assumption. assumption.
Qed.

Lemma add_new x : add_lv ddda_new x = add_lv [] x.
Proof. reflexivity. Qed.

Lemma strm_stream x l : strm (fold_left ddda_add (x :: l) ddda_new) (x :: l).
Proof.
  assert (G : forall l lv d, strm lv d -> strm (fold_left ddda_add l lv) (d ++ l)).
  { clear. intros l. induction l as [|x l IH]; intros lv d H; cbn.
    - rewrite app_nil_r. assumption.
    - change (x :: l) with ([x] ++ l). rewrite app_assoc. apply IH, strm_add, H. }
  cbn [fold_left]. unfold ddda_add at 2. rewrite add_new.
  apply (G l _ [x]). apply (@strm_add [] [] x). constructor.
Qed.

Fixpoint halves (i : nat) (l : list Qc) : list Qc :=
  match i with O => l | S i' => halves i' (halve l) end.

Lemma strm_nth lv l i : strm lv l -> (i < length lv)%nat ->
  rep (block lv i) (halves i l) /\ waiting lv i = last_if_odd (halves i l).
Proof.
  intros H. revert i. induction H as [|b r l Hb Hn Hr IH]; intros i Hi.
  - cbn in Hi. lia.
  - destruct i as [|i]; cbn [halves].
    + split; [exact Hb|reflexivity].
    + unfold block, waiting in *. cbn [nth]. apply IH. cbn in Hi. lia.
Qed.

Lemma log2_half n : (2 <= n)%nat -> Nat.log2 n = S (Nat.log2 (n / 2)).
Proof.
  intros H. pose proof (Nat.div_mod n 2). pose proof (Nat.mod_upper_bound n 2).
  assert (P : (0 < n / 2)%nat) by (apply Nat.div_str_pos; lia).
  destruct (Nat.log2_spec _ P) as [A B].
  apply Nat.log2_unique; [lia|]. rewrite !Nat.pow_succ_r' in *. lia.
Qed.

Lemma strm_length lv l : strm lv l -> l <> [] -> length lv = block_count (length l).
Proof.
  induction 1 as [|b r l Hb Hn Hr IH]; intros Hl; [congruence|].
  unfold block_count in *. cbn [length]. f_equal.
  destruct (halve l) as [|h t] eqn:E.
  - inversion Hr; subst; [|congruence].
    destruct l as [|? [|? l]]; [congruence|reflexivity|discriminate].
  - rewrite IH by discriminate. rewrite <- E, halve_length.
    symmetry. apply log2_half. destruct l as [|? [|? ?]]; try discriminate. cbn. lia.
Qed.

(** Group means. *)
Lemma firstn_add (A : Type) (l : list A) a b :
  firstn (a + b) l = firstn a l ++ firstn b (skipn a l).
Proof.
  revert l. induction a as [|a IH]; intros l; [reflexivity|].
  destruct l; cbn; [rewrite firstn_nil; reflexivity|]. f_equal. apply IH.
Qed.
Lemma skipn_add (A : Type) (l : list A) a b : skipn a (skipn b l) = skipn (a + b) l.
Proof.
  revert l. induction b as [|b IH]; intros l.
  - rewrite Nat.add_0_r. reflexivity.
  - rewrite Nat.add_succ_r. destruct l; [destruct a; reflexivity|]. cbn. apply IH.
Qed.

Lemma halve_skipn k l : skipn k (halve l) = halve (skipn (2 * k) l).
Proof.
  revert l. induction k as [|k IH]; intros l; [reflexivity|].
  replace (2 * S k)%nat with (S (S (2 * k))) by lia.
  destruct l as [|x [|y l]]; cbn [skipn halve].
  - reflexivity.
  - destruct k; reflexivity.
  - apply IH.
Qed.
Lemma halve_firstn k l : firstn k (halve l) = halve (firstn (2 * k) l).
Proof.
  revert l. induction k as [|k IH]; intros l; [reflexivity|].
  replace (2 * S k)%nat with (S (S (2 * k))) by lia.
  destruct l as [|x [|y l]]; cbn [firstn halve]; [reflexivity|reflexivity|].
  f_equal. apply IH.
Qed.
Lemma qsum_halve l : Nat.odd (length l) = false -> qsum (halve l) = qsum l / two.
Proof.
  induction l as [| |a b l IH] using list_ind2; intros H.
  - cbn. field. apply two_neq0.
  - discriminate.
  - cbn [halve qsum]. rewrite IH by exact H. field. apply two_neq0.
Qed.

Lemma qn_2 : qn 2 = two.
Proof. apply Qc_is_canon. reflexivity. Qed.

Lemma odd_double n : Nat.odd (2 * n) = false.
Proof. rewrite Nat.odd_mul. reflexivity. Qed.

Lemma group_mean_halve l i k : (S k * 2 ^ S i <= length l)%nat ->
  group_mean (halve l) i k = group_mean l (S i) k.
Proof.
  intros H. unfold group_mean. rewrite halve_skipn, halve_firstn.
  replace (2 * (k * 2 ^ i))%nat with (k * 2 ^ S i)%nat by (cbn [Nat.pow]; lia).
  replace (2 * 2 ^ i)%nat with (2 ^ S i)%nat by (cbn [Nat.pow]; lia).
  assert (Hl : length (firstn (2 ^ S i) (skipn (k * 2 ^ S i) l)) = (2 * 2 ^ i)%nat).
  { rewrite firstn_length, skipn_length. cbn [Nat.pow] in *. lia. }
  revert Hl. generalize (firstn (2 ^ S i) (skipn (k * 2 ^ S i) l)) as g. intros g Hl.
  unfold mean. rewrite halve_length, Hl.
  rewrite qsum_halve by (rewrite Hl; apply odd_double).
  replace (2 * 2 ^ i / 2)%nat with (2 ^ i)%nat by (rewrite Nat.mul_comm, Nat.div_mul; lia).
  rewrite qn_mul, qn_2. field. split; [|apply two_neq0].
  apply qn_neq0. apply Nat.pow_nonzero. lia.
Qed.

Lemma block_data_0 l : block_data l 0 = l.
Proof.
  unfold block_data. cbn [Nat.pow]. rewrite Nat.div_1_r.
  assert (G : forall l k, k = length l -> map (group_mean l 0) (seq 0 k) = l).
  { clear. induction l as [|x l IH]; intros k ->; [reflexivity|].
    cbn [length seq map]. f_equal.
    - unfold group_mean. cbn. unfold mean. cbn [qsum length]. rewrite qn_1. field. discriminate.
    - rewrite <- seq_shift, map_map. etransitivity; [|exact (IH _ eq_refl)].
      apply map_ext. intros a. unfold group_mean. cbn [Nat.pow]. rewrite !Nat.mul_1_r. reflexivity. }
  apply G. reflexivity.
Qed.

Lemma block_data_halve l i : block_data (halve l) i = block_data l (S i).
Proof.
  unfold block_data. rewrite halve_length, Nat.div_div by (try lia; apply Nat.pow_nonzero; lia).
  replace (2 * 2 ^ i)%nat with (2 ^ S i)%nat by (cbn [Nat.pow]; lia).
  apply map_ext_in. intros k Hk. apply in_seq in Hk. apply group_mean_halve.
  assert (2 ^ S i <> 0)%nat by (apply Nat.pow_nonzero; lia).
  assert (S k <= length l / 2 ^ S i)%nat by lia.
  transitivity (length l / 2 ^ S i * 2 ^ S i)%nat.
  - apply Nat.mul_le_mono_r. assumption.
  - rewrite Nat.mul_comm. apply Nat.mul_div_le. assumption.
Qed.

Lemma halves_block_data i l : halves i l = block_data l i.
Proof.
  revert l. induction i as [|i IH]; intros l.
  - symmetry. apply block_data_0.
  - cbn [halves]. rewrite IH. apply block_data_halve.
Qed.

(** C05 *)
Lemma stream_correct l :
  let d := fold_left ddda_add l ddda_new in
  length d = block_count (length l) /\
  forall i, (i < length d)%nat ->
    answers (block d i) (block_data l i) /\
    waiting d i = last_if_odd (block_data l i).
Proof.
  destruct l as [|x l].
  - cbn. split; [reflexivity|]. intros i Hi. assert (i = 0%nat) by lia. subst i.
    split; [|reflexivity]. apply rep_answers. apply rep_new.
  - cbv zeta. pose proof (strm_stream x l) as H.
    split; [apply (strm_length H); discriminate|].
    intros i Hi. destruct (strm_nth H Hi) as [A B].
    rewrite halves_block_data in A, B. split; [apply rep_answers, A|exact B].
Qed.

Lemma block_data_length l i : length (block_data l i) = (length l / 2 ^ i)%nat.
Proof. unfold block_data. rewrite map_length, seq_length. reflexivity. Qed.

(** * Merging *)
Inductive ok : list level -> list Qc -> Prop :=
| ok_nil : ok [] []
| ok_cons b w r D ps :
    rep b D -> Permutation D (flat ps ++ opt w) -> ok r (map avg ps) ->
    ok ((b, w) :: r) D.

(** As [ok], with the waiting data of a second accumulator still pending. *)
Inductive okm : list level -> list (option Qc) -> list Qc -> Prop :=
| okm_done lv D : ok lv D -> okm lv [] D
| okm_cons b w v r rw D ps :
    rep b D -> Permutation D (flat ps ++ opt w ++ opt v) -> okm r rw (map avg ps) ->
    okm ((b, w) :: r) (v :: rw) D.

Lemma flat_app a b : flat (a ++ b) = flat a ++ flat b.
Proof. unfold flat. apply flat_map_app. Qed.

Lemma ok_perm lv D D' : Permutation D D' -> ok lv D -> ok lv D'.
Proof.
  intros P H. destruct H as [|b w r D ps Hb HP Hr].
  - apply Permutation_nil in P. subst. constructor.
  - econstructor; [eapply rep_perm; eauto| |exact Hr].
    rewrite <- P. exact HP.
Qed.
Lemma okm_perm lv rw D D' : Permutation D D' -> okm lv rw D -> okm lv rw D'.
Proof.
  intros P H. destruct H as [lv D H|b w v r rw D ps Hb HP Hr].
  - constructor. eapply ok_perm; eauto.
  - econstructor; [eapply rep_perm; eauto| |exact Hr].
    rewrite <- P. exact HP.
Qed.

Lemma perm_pair ps x y (rest : list Qc) D :
  Permutation D (flat ps ++ x :: rest) ->
  Permutation (D ++ [y]) (flat (ps ++ [(x, y)]) ++ rest).
Proof.
  intros H. rewrite flat_app, <- app_assoc. cbn.
  etransitivity; [apply Permutation_app_tail, H|].
  rewrite <- app_assoc. apply Permutation_app_head.
  cbn. constructor. symmetry. apply Permutation_cons_append.
Qed.

Lemma ok_add lv D x : ok lv D -> ok (add_lv lv x) (D ++ [x]).
Proof.
  intros H. revert x. induction H as [|b w r D ps Hb HP Hr IH]; intros x.
  - cbn. econstructor 2 with (ps := []).
    + apply (@rep_add otfs_new [] x rep_new).
    + apply Permutation_refl.
    + constructor.
  - destruct w as [y|]; cbn [add_lv].
    + econstructor 2 with (ps := ps ++ [(y, x)]).
      * apply rep_add, Hb.
      * apply perm_pair with (rest := []). exact HP.
      * rewrite map_app. apply IH.
    + econstructor 2 with (ps := ps).
      * apply rep_add, Hb.
      * cbn [opt] in *. rewrite app_nil_r in HP. apply Permutation_app_tail, HP.
      * exact Hr.
Qed.

Lemma okm_add lv rw D x : okm lv rw D -> okm (add_lv lv x) rw (D ++ [x]).
Proof.
  intros H. revert x. induction H as [lv D H|b w v r rw D ps Hb HP Hr IH]; intros x.
  - constructor. apply ok_add, H.
  - destruct w as [y|]; cbn [add_lv].
    + econstructor 2 with (ps := ps ++ [(y, x)]).
      * apply rep_add, Hb.
      * apply perm_pair. exact HP.
      * rewrite map_app. apply IH.
    + econstructor 2 with (ps := ps).
      * apply rep_add, Hb.
      * cbn [opt app] in *. rewrite HP, <- app_assoc.
        apply Permutation_app_head. symmetry. apply Permutation_cons_append.
      * exact Hr.
Qed.

Lemma okm_merge_wait rw lv D : okm lv rw D -> ok (merge_wait lv rw) D.
Proof.
  revert lv D. induction rw as [|v rw IH]; intros lv D H.
  - inversion H; subst. destruct lv; assumption.
  - inversion H as [|b w v' r rw' D' ps Hb HP Hr]; subst.
    destruct v as [y|]; cbn [merge_wait].
    + destruct w as [x|].
      * econstructor 2 with (ps := ps ++ [(x, y)]); [exact Hb| |].
        -- cbn [opt app] in *. rewrite HP, flat_app, <- app_assoc. apply Permutation_refl.
        -- rewrite map_app. apply IH, okm_add, Hr.
      * econstructor 2 with (ps := ps); [exact Hb| |].
        -- exact HP.
        -- apply IH, Hr.
    + econstructor 2 with (ps := ps); [exact Hb| |].
      * rewrite HP. cbn [opt]. rewrite app_nil_r. apply Permutation_refl.
      * apply IH, Hr.
Qed.

Lemma ok_pad1 n : ok (repeat (otfs_new, None) n) [].
Proof.
  induction n as [|n IH]; cbn; [constructor|].
  econstructor 2 with (ps := []); [apply rep_new|apply Permutation_refl|exact IH].
Qed.
Lemma ok_app_pad lv D n : ok lv D -> ok (lv ++ repeat (otfs_new, None) n) D.
Proof.
  induction 1 as [|b w r D ps Hb HP Hr IH]; cbn; [apply ok_pad1|].
  econstructor; eauto.
Qed.

Lemma merge_blocks_ok rv E : ok rv E -> forall lv D, ok lv D ->
  (length rv <= length lv)%nat ->
  exists lv', merge_blocks lv rv = Ok lv' /\ length lv' = length lv /\
    okm lv' (map snd rv) (D ++ E).
Proof.
  induction 1 as [|c v rv E qs Hc HQ Hq IH]; intros lv D H L.
  - exists lv. split; [destruct lv as [|[? ?] ?]; reflexivity|]. split; [reflexivity|].
    rewrite app_nil_r. constructor. assumption.
  - destruct H as [|b w r D ps Hb HP Hr]; [cbn in L; lia|].
    cbn [merge_blocks length map snd] in *.
    destruct (rep_merge Hb Hc) as (b' & Eb & Rb). rewrite Eb. cbn [bind].
    destruct (IH r (map avg ps) Hr) as (t & Et & Lt & Ot); [lia|].
    rewrite Et. cbn [bind]. eexists; split; [reflexivity|]. split; [cbn; lia|].
    econstructor 2 with (ps := ps ++ qs).
    + exact Rb.
    + rewrite HP, HQ, flat_app, <- !app_assoc.
      apply Permutation_app_head.
      rewrite app_assoc, (Permutation_app_comm (opt w)), <- app_assoc. apply Permutation_refl.
    + rewrite map_app. exact Ot.
Qed.

Lemma pad_length d n : (n <= length (pad d n))%nat.
Proof. unfold pad. rewrite app_length, repeat_length. lia. Qed.

Lemma ddda_merge_ok d D e E : ok d D -> ok e E ->
  exists d', ddda_merge d e = Ok d' /\ ok d' (D ++ E).
Proof.
  intros Hd He. unfold ddda_merge.
  destruct (merge_blocks_ok He (@ok_app_pad d D (length e - length d) Hd)) as (t & Et & Lt & Ot).
  { apply pad_length. }
  unfold pad. rewrite Et. cbn [bind]. eexists; split; [reflexivity|].
  apply okm_merge_wait, Ot.
Qed.

Lemma flat_length ps : length (flat ps) = (2 * length ps)%nat.
Proof. induction ps as [|p ps IH]; [reflexivity|].
  unfold flat in *. cbn [flat_map app length]. rewrite IH. lia. Qed.

(** Number of levels: no level above the first is empty. *)
Definition tight (d : ddda) (n : nat) : Prop := length d = block_count n.

Lemma ok_size lv D : ok lv D -> forall i,
  getSampleSize (block lv i) = (length D / 2 ^ i)%nat.
Proof.
  induction 1 as [|b w r D ps Hb HP Hr IH]; intros i.
  - unfold block. destruct i; cbn [nth fst length]; rewrite Nat.div_0_l; try reflexivity;
    apply Nat.pow_nonzero; lia.
  - destruct i as [|i].
    + cbn [Nat.pow]. rewrite Nat.div_1_r. unfold block. cbn. apply Hb.
    + unfold block in *. cbn [nth]. rewrite IH, map_length.
      assert (LD : length D = (2 * length ps + length (opt w))%nat).
      { rewrite (Permutation_length HP), app_length, flat_length. reflexivity. }
      assert (W : (length (opt w) < 2)%nat) by (destruct w; cbn; lia).
      cbn [Nat.pow]. rewrite <- Nat.div_div by (try lia; apply Nat.pow_nonzero; lia).
      f_equal. rewrite LD, Nat.mul_comm, Nat.div_add_l by lia.
      rewrite (Nat.div_small _ _ W). lia.
Qed.

Lemma ok_waiting lv D : ok lv D -> forall i, (i < length lv)%nat ->
  (waiting lv i <> None <-> Nat.odd (getSampleSize (block lv i)) = true).
Proof.
  induction 1 as [|b w r D ps Hb HP Hr IH]; intros i Hi.
  - cbn in Hi. lia.
  - destruct i as [|i].
    + unfold block, waiting. cbn [nth fst snd].
      unfold getSampleSize. destruct Hb as [-> _].
      assert (LD : length D = (2 * length ps + length (opt w))%nat).
      { rewrite (Permutation_length HP), app_length, flat_length. reflexivity. }
      rewrite LD, Nat.odd_add, odd_double. destruct w; cbn; split; congruence.
    + unfold block, waiting in *. cbn [nth]. apply IH. cbn in Hi. lia.
Qed.

Lemma ok_paired lv D : ok lv D -> paired lv D.
Proof.
  induction 1 as [|b w r D ps Hb HP Hr IH]; [constructor|].
  econstructor; eauto. apply rep_answers, Hb.
Qed.

(** Tightness is kept. *)
Lemma add_lv_length_ge lv x : (length lv <= length (add_lv lv x))%nat.
Proof.
  revert x. induction lv as [|[b [y|]] r IH]; intros x; cbn; [lia| |lia].
  specialize (IH ((y + x) / two)). lia.
Qed.

(** Top level non-empty: the last level has size at least one. *)
Definition topne (d : ddda) : Prop := (1 <= getSampleSize (block d (length d - 1)))%nat.

Lemma tight_iff lv D : ok lv D -> lv <> [] -> D <> [] ->
  (length lv = block_count (length D) <-> topne lv).
Proof.
  intros H Hl HD. unfold topne, block_count. rewrite (ok_size H).
  assert (L : (0 < length lv)%nat) by (destruct lv; [congruence|cbn; lia]).
  assert (N : (0 < length D)%nat) by (destruct D; [congruence|cbn; lia]).
  destruct (Nat.log2_spec (length D) N) as [A B].
  assert (P : (2 ^ (length lv - 1) <> 0)%nat) by (apply Nat.pow_nonzero; lia).
  split; intros T.
  - assert (E : (length lv - 1 = Nat.log2 (length D))%nat) by lia. rewrite E.
    apply Nat.div_le_lower_bound; [apply Nat.pow_nonzero; lia|rewrite Nat.mul_1_r; exact A].
  - assert (2 ^ (length lv - 1) <= length D)%nat.
    { pose proof (Nat.mul_div_le (length D) _ P). nia. }
    assert (length lv - 1 <= Nat.log2 (length D))%nat by (apply Nat.log2_le_pow2; lia).
    (* the other direction: every level above length lv is empty *)
    assert (Z : getSampleSize (block lv (length lv)) = 0%nat).
    { unfold block. rewrite nth_overflow by lia. reflexivity. }
    rewrite (ok_size H) in Z.
    apply Nat.div_small_iff in Z; [|apply Nat.pow_nonzero; lia].
    assert (Nat.log2 (length D) < length lv)%nat by (apply Nat.log2_lt_pow2; lia).
    lia.
Qed.

(** [ok] already bounds the number of levels from below; from above we need that
    no empty level is created. *)
Lemma ok_lower lv D : ok lv D -> D <> [] -> (block_count (length D) <= length lv)%nat.
Proof.
  intros H HD. unfold block_count.
  assert (N : (0 < length D)%nat) by (destruct D; [congruence|cbn; lia]).
  assert (Z : getSampleSize (block lv (length lv)) = 0%nat).
  { unfold block. rewrite nth_overflow by lia. reflexivity. }
  rewrite (ok_size H) in Z.
  apply Nat.div_small_iff in Z; [|apply Nat.pow_nonzero; lia].
  assert (Nat.log2 (length D) < length lv)%nat by (apply Nat.log2_lt_pow2; lia). lia.
Qed.

(** Growth happens only when carrying into a new level, whose size is then 1. *)
Definition lv_tight (lv : list level) : Prop :=
  forall i, (i < length lv)%nat -> (1 <= getSampleSize (block lv i))%nat.

Lemma lv_tight_cons b w r : lv_tight ((b, w) :: r) <-> (1 <= o_n b)%nat /\ lv_tight r.
Proof.
  split.
  - intros H. split; [apply (H 0%nat); cbn; lia|]. intros i Hi.
    apply (H (S i)). cbn. lia.
  - intros [H1 H2] [|i] Hi; [exact H1|]. apply (H2 i). cbn in Hi. lia.
Qed.

Lemma lv_tight_add lv x : lv_tight lv -> lv_tight (add_lv lv x).
Proof.
  revert x. induction lv as [|[b w] r IH]; intros x H.
  - cbn. apply lv_tight_cons. split; [cbn; lia|]. intros i Hi. cbn in Hi. lia.
  - apply lv_tight_cons in H. destruct H as [H1 H2].
    destruct w; cbn [add_lv]; apply lv_tight_cons; (split; [cbn; lia|]); auto.
Qed.

Lemma lv_tight_merge_wait rw lv : lv_tight lv -> lv_tight (merge_wait lv rw).
Proof.
  revert lv. induction rw as [|v rw IH]; intros lv H.
  - destruct lv; exact H.
  - destruct lv as [|[b w] r].
    + destruct v; exact H.
    + apply lv_tight_cons in H. destruct H as [H1 H2].
      destruct v as [y|]; cbn [merge_wait].
      * destruct w; apply lv_tight_cons; (split; [exact H1|]); auto.
        apply IH, lv_tight_add, H2.
      * apply lv_tight_cons. split; auto.
Qed.

(** Levels that are non-empty or matched by a non-empty level of [rv]. *)
Lemma merge_blocks_tight rv E : ok rv E -> lv_tight rv -> forall lv D n, ok lv D -> lv_tight lv ->
  exists lv', merge_blocks (lv ++ repeat (otfs_new, None) n) rv = Ok lv' /\
    (n = (length rv - length lv)%nat -> lv_tight lv').
Proof.
  induction 1 as [|c v rv E qs Hc HQ Hq IH]; intros Tr lv D n H T.
  - exists (lv ++ repeat (otfs_new, None) n).
    split; [destruct (lv ++ repeat (otfs_new, None) n) as [|[? ?] ?]; reflexivity|].
    cbn. intros ->. cbn. rewrite app_nil_r. exact T.
  - apply lv_tight_cons in Tr. destruct Tr as [Tc Tr].
    destruct H as [|b w r D ps Hb HP Hr].
    + cbn [app]. destruct n as [|n]; cbn [repeat].
      * exists []. split; [reflexivity|]. intros K. cbn in K. lia.
      * cbn [merge_blocks]. destruct (rep_merge rep_new Hc) as (b' & Eb & Rb). rewrite Eb. cbn [bind].
        destruct (IH Tr [] [] n ok_nil T) as (t & Et & Tt). cbn [app] in Et. rewrite Et. cbn [bind].
        eexists; split; [reflexivity|]. intros K. apply lv_tight_cons.
        split; [|apply Tt; cbn in *; lia].
        destruct Rb as (-> & _). destruct Hc as (Hc & _). cbn [app]. lia.
    + apply lv_tight_cons in T. destruct T as [T1 T2].
      cbn [app merge_blocks]. destruct (rep_merge Hb Hc) as (b' & Eb & Rb). rewrite Eb. cbn [bind].
      destruct (IH Tr r (map avg ps) n Hr T2) as (t & Et & Tt). rewrite Et. cbn [bind].
      eexists; split; [reflexivity|]. intros K. apply lv_tight_cons.
      split; [|apply Tt; cbn in *; lia].
      destruct Rb as (-> & _). rewrite app_length. destruct Hc as (Hc & _). lia.
Qed.

(** An accumulator is fresh, or all its levels are non-empty. *)
Definition shape (d : ddda) : Prop := d = ddda_new \/ (lv_tight d /\ d <> []).

Definition good (d : ddda) (D : list Qc) : Prop := ok d D /\ shape d.

Lemma good_new : good ddda_new [].
Proof.
  split; [|left; reflexivity]. apply (ok_pad1 1).
Qed.
Lemma add_lv_ne lv x : add_lv lv x <> [].
Proof. destruct lv as [|[b [y|]] r]; discriminate. Qed.

Lemma good_add d D x : good d D -> good (ddda_add d x) (D ++ [x]).
Proof.
  intros [H S]. split; [apply ok_add, H|]. right. split; [|apply add_lv_ne].
  destruct S as [->|[T N]].
  - change (lv_tight (add_lv [] x)). apply lv_tight_add. intros i Hi. cbn in Hi. lia.
  - apply lv_tight_add, T.
Qed.

Lemma merge_blocks_new lv D : ok lv D -> lv <> [] -> lv_tight lv ->
  exists lv', merge_blocks lv ddda_new = Ok lv' /\ lv_tight lv' /\ lv' <> [].
Proof.
  intros H N T. destruct H as [|b w r D ps Hb HP Hr]; [congruence|].
  apply lv_tight_cons in T. destruct T as [T1 T2].
  cbn. destruct (rep_merge Hb rep_new) as (b' & Eb & Rb).
  unfold otfs_new in *. rewrite Eb. cbn.
  destruct r as [|[c v] r]; cbn; (eexists; split; [reflexivity|]; split; [|discriminate]);
  apply lv_tight_cons; (split; [|assumption]); destruct Rb as (-> & _);
  rewrite app_length; destruct Hb as (<- & _); lia.
Qed.

Lemma merge_blocks_into_new lv D : ok lv D -> lv <> [] -> lv_tight lv ->
  exists lv', merge_blocks (pad ddda_new (length lv)) lv = Ok lv' /\ lv_tight lv' /\ lv' <> [].
Proof.
  intros H N T.
  destruct (@merge_blocks_tight lv D H T [] [] (length lv) ok_nil) as (lv' & E & Tl).
  { intros i Hi. cbn in Hi. lia. }
  assert (P : pad ddda_new (length lv) = [] ++ repeat (otfs_new, None) (length lv)).
  { unfold pad, ddda_new. destruct lv as [|l lv]; [congruence|]. cbn. rewrite Nat.sub_0_r. reflexivity. }
  rewrite P. exists lv'. split; [exact E|]. split; [apply Tl; cbn; lia|].
  intros ->. destruct lv as [|[b w] r]; [congruence|]. cbn in E.
  destruct (merge_blocks (repeat (otfs_new, None) (length r)) r); cbn in E; discriminate.
Qed.

Lemma merge_wait_ne lv rw : lv <> [] -> merge_wait lv rw <> [].
Proof.
  destruct rw as [|[y|] rw], lv as [|[b [x|]] r]; cbn; congruence.
Qed.

Lemma merge_blocks_ne lv rv lv' : lv <> [] -> merge_blocks lv rv = Ok lv' -> lv' <> [].
Proof.
  destruct lv as [|[b w] lv], rv as [|[c v] rv]; cbn; try congruence.
  destruct (mergeSample b c); cbn; [|discriminate].
  destruct (merge_blocks lv rv); cbn; [|discriminate]. congruence.
Qed.

Lemma good_merge d D e E : good d D -> good e E ->
  exists d', ddda_merge d e = Ok d' /\ good d' (D ++ E).
Proof.
  intros [Hd Sd] [He Se].
  destruct (ddda_merge_ok Hd He) as (d' & Ed & Od).
  exists d'. split; [exact Ed|]. split; [exact Od|].
  unfold ddda_merge in Ed.
  destruct Se as [->|[Te Ne]].
  - destruct Sd as [->|[Td Nd]].
    + left. cbn in Ed. injection Ed as <-. reflexivity.
    + right. destruct (merge_blocks_new Hd Nd Td) as (t & Et & Tt & Nt).
      replace (pad d (length ddda_new)) with d in Ed.
      2:{ unfold pad. destruct d; [congruence|]. cbn. rewrite app_nil_r. reflexivity. }
      rewrite Et in Ed. cbn [bind] in Ed. injection Ed as <-.
      split; [apply (@lv_tight_merge_wait (map snd ddda_new) t), Tt
             |apply (@merge_wait_ne t (map snd ddda_new)), Nt].
  - right. destruct Sd as [->|[Td Nd]].
    + destruct (merge_blocks_into_new He Ne Te) as (t & Et & Tt & Nt).
      rewrite Et in Ed. cbn [bind] in Ed. injection Ed as <-.
      split; [apply lv_tight_merge_wait, Tt|apply merge_wait_ne, Nt].
    + destruct (merge_blocks_tight He Te (length e - length d) Hd Td) as (t & Et & Tt).
      unfold pad in Ed. rewrite Et in Ed. cbn [bind] in Ed. injection Ed as <-.
      split; [apply lv_tight_merge_wait, Tt; reflexivity|apply merge_wait_ne].
      eapply merge_blocks_ne; [|exact Et]. destruct d; [congruence|discriminate].
Qed.

Lemma good_count d D : good d D -> length d = block_count (length D).
Proof.
  intros [H [->|[T N]]].
  - inversion H as [|b w r D' ps Hb HP Hr]; subst. destruct Hb as (Hn & _). cbn in Hn.
    rewrite <- Hn. reflexivity.
  - assert (HD : D <> []).
    { intros ->. pose proof (ok_size H 0) as Z. cbn [length Nat.pow] in Z.
      assert (L : (0 < length d)%nat) by (destruct d; [congruence|cbn; lia]).
      specialize (T 0%nat L). rewrite Z in T. cbn in T. lia. }
    apply tight_iff; [assumption|assumption|assumption|].
    apply T. destruct d; [congruence|cbn; lia].
Qed.

(** Programs *)
Definition good_store (st : nat -> ddda) (dd : nat -> list Qc) : Prop :=
  forall i, good (st i) (dd i).

Lemma good_upd st dd i d D : good_store st dd -> good d D ->
  good_store (upd st i d) (setl dd i D).
Proof.
  intros H G k. unfold upd, setl. destruct (Nat.eqb k i); [exact G|apply H].
Qed.

Lemma good_run os st dd : no_self os -> good_store st dd ->
  exists st', drun st os = Ok st' /\ good_store st' (fold_left ddata_op os dd).
Proof.
  revert st dd. induction os as [|o os IH]; intros st dd N H; cbn.
  - eauto.
  - assert (N' : no_self os) by (intros i Hi; apply (N i); right; exact Hi).
    destruct o as [i|i x|i j]; cbn.
    + apply IH; [exact N'|]. apply good_upd; [exact H|apply good_new].
    + apply IH; [exact N'|]. apply good_upd; [exact H|apply good_add, H].
    + destruct (Nat.eqb_spec i j) as [->|Hij].
      { exfalso. apply (N j). left. reflexivity. }
      destruct (good_merge (H i) (H j)) as (d' & E & G). rewrite E. cbn.
      apply IH; [exact N'|]. apply good_upd; assumption.
Qed.

Lemma good_run0 os : no_self os ->
  exists st, drun dstore0 os = Ok st /\ good_store st (ddata_of os).
Proof. intros N. apply good_run; [exact N|]. intros i. apply good_new. Qed.

Lemma good_structure d D : good d D -> structure_ok d D.
Proof.
  intros G. destruct G as [H S]. repeat split.
  - apply ok_paired, H.
  - apply good_count. split; assumption.
  - intros i. rewrite !(ok_size H). cbn [Nat.pow].
    rewrite (Nat.mul_comm 2), <- Nat.div_div; try lia. apply Nat.pow_nonzero; lia.
  - apply (ok_waiting H); assumption.
  - apply (ok_waiting H); assumption.
  - destruct H as [|b w r D ps Hb HP Hr]; [|apply (rep_answers Hb)].
    destruct S as [S|[_ S]]; [discriminate S|congruence].
  - destruct H as [|b w r D ps Hb HP Hr]; [|apply (rep_answers Hb)].
    destruct S as [S|[_ S]]; [discriminate S|congruence].
  - destruct H as [|b w r D ps Hb HP Hr]; [|apply (rep_answers Hb)].
    destruct S as [S|[_ S]]; [discriminate S|congruence].
Qed.

Lemma run_structure os : no_self os ->
  exists st, drun dstore0 os = Ok st /\ forall i, structure_ok (st i) (ddata_of os i).
Proof.
  intros N. destruct (good_run0 N) as (st & E & G). exists st. split; [exact E|].
  intros i. apply good_structure, G.
Qed.

(** * Optimal block *)
Lemma good_ne d D : good d D -> d <> [].
Proof. intros [_ [->|[_ N]]]; [discriminate|exact N]. Qed.

Lemma good_size d D i : good d D -> getSampleSize (block d i) = (length D / 2 ^ i)%nat.
Proof. intros [H _]. apply ok_size, H. Qed.

Lemma good_size0 d D : good d D -> ddda_size d = length D.
Proof.
  intros G. unfold ddda_size. rewrite (good_size 0 G). cbn [Nat.pow]. apply Nat.div_1_r.
Qed.

Lemma se2_ok s : (2 <= getSampleSize s)%nat ->
  getStandardErrorOfTheMean_squared s = Ok (se2 s).
Proof.
  unfold getSampleSize, getStandardErrorOfTheMean_squared, se2, getSampleVariance. intros H.
  destruct (Nat.leb_spec (o_n s) 1); [lia|]. reflexivity.
Qed.

Lemma threshold_criterion d b :
  threshold_exceeded (ddda_size d) b (se2 (block d b)) (se2 (block d 0)) = true
  <-> criterion d b.
Proof. unfold threshold_exceeded, criterion. apply qltb_spec. Qed.

Lemma optimal_loop_spec d k o :
  (forall i, (i < k)%nat -> (i <= maxBlockID d)%nat /\ (2 <= getSampleSize (block d i))%nat) ->
  exists b, optimal_loop d (se2 (block d 0)) k o = Ok b /\
   (((b < k)%nat /\ criterion d b /\ forall b', (b' < b)%nat -> ~ criterion d b')
    \/ (b = o /\ forall b', (b' < k)%nat -> ~ criterion d b')).
Proof.
  revert o. induction k as [|k IH]; intros o H.
  - cbn. exists o. split; [reflexivity|]. right. split; [reflexivity|]. intros b' Hb. lia.
  - cbn [optimal_loop]. destruct (H k) as [Hm Hs]; [lia|].
    unfold hasBlockVariance. destruct (Nat.ltb_spec (maxBlockID d) k); [lia|]. cbn [bind].
    apply Nat.leb_le in Hs. rewrite Hs. cbn [negb]. apply Nat.leb_le in Hs.
    rewrite se2_ok by assumption. cbn [bind].
    assert (H' : forall i, (i < k)%nat -> (i <= maxBlockID d)%nat /\ (2 <= getSampleSize (block d i))%nat)
      by (intros i Hi; apply H; lia).
    destruct (threshold_exceeded _ k _ _) eqn:T.
    + apply threshold_criterion in T.
      destruct (IH k H') as (b & E & [(A & B & C)|(A & C)]).
      * exists b. split; [exact E|]. left. repeat split; auto.
      * exists b. split; [exact E|]. left. subst b. repeat split; auto.
    + assert (NT : ~ criterion d k).
      { intros C. apply threshold_criterion in C. congruence. }
      destruct (IH o H') as (b & E & [(A & B & C)|(A & C)]).
      * exists b. split; [exact E|]. left. repeat split; auto.
      * exists b. split; [exact E|]. right. split; [exact A|].
        intros b' Hb'. destruct (Nat.eq_dec b' k) as [->|Hk]; [exact NT|]. apply C. lia.
Qed.

Lemma good_optimal d D : good d D -> (2 <= length D)%nat ->
  exists b, optimalBlockID d = Ok b /\
    documented_block d (Nat.log2 (length D) - 1) b /\
    optimalIsReliable d = Ok (Nat.ltb (50 * 2 ^ b) (length D)) /\
    optimalStandardError_squared d = Ok (se2 (block d b)).
Proof.
  intros G HN.
  pose proof (good_size0 G) as S0. pose proof (good_count G) as L.
  assert (L2 : (1 <= Nat.log2 (length D))%nat) by (apply Nat.log2_le_pow2; cbn; lia).
  destruct (Nat.log2_spec (length D)) as [A B]; [lia|].
  assert (Hsz : forall i, (i <= Nat.log2 (length D) - 1)%nat ->
     (i <= maxBlockID d)%nat /\ (2 <= getSampleSize (block d i))%nat).
  { intros i Hi. split; [unfold maxBlockID, block_count in *; lia|].
    rewrite (good_size i G). apply Nat.div_le_lower_bound; [apply Nat.pow_nonzero; lia|].
    rewrite Nat.mul_comm. change (2 * 2 ^ i)%nat with (2 ^ S i)%nat.
    etransitivity; [|exact A]. apply Nat.pow_le_mono_r; lia. }
  assert (E1 : exists b, optimalBlockID d = Ok b /\ documented_block d (Nat.log2 (length D) - 1) b).
  { unfold optimalBlockID. rewrite S0. destruct (Nat.ltb_spec (length D) 2); [lia|].
    rewrite se2_ok by (apply Hsz; lia). cbn [bind].
    unfold documented_block. destruct (qeqb (se2 (block d 0)) 0); [eauto|].
    assert (M : maxBlockID d = Nat.log2 (length D)) by (unfold maxBlockID, block_count in *; lia).
    rewrite M. cbn [optimal_loop]. unfold hasBlockVariance at 1. rewrite M.
    destruct (Nat.ltb_spec (Nat.log2 (length D)) (Nat.log2 (length D))); [lia|]. cbn [bind].
    assert (Z : Nat.leb 2 (getSampleSize (block d (Nat.log2 (length D)))) = false).
    { rewrite (good_size _ G). apply Nat.leb_gt. apply Nat.div_lt_upper_bound.
      - apply Nat.pow_nonzero; lia.
      - cbn [Nat.pow] in B. lia. }
    rewrite Z. cbn [negb]. rewrite Nat.eqb_refl.
    destruct (@optimal_loop_spec d (Nat.log2 (length D)) (Nat.log2 (length D) - 1)) as (b & E & HB).
    { intros i Hi. apply Hsz. lia. }
    exists b. split; [exact E|].
    destruct HB as [(X & Y & W)|(X & Y)].
    - left. repeat split; auto. lia.
    - right. split; [exact X|]. intros b' Hb'. apply Y. lia. }
  destruct E1 as (b & E & Db). exists b. split; [exact E|]. split; [exact Db|].
  assert (Hb : (b <= Nat.log2 (length D) - 1)%nat).
  { unfold documented_block in Db. destruct (qeqb (se2 (block d 0)) 0); [lia|].
    destruct Db as [(X & _)|(X & _)]; lia. }
  split.
  - unfold optimalIsReliable. rewrite E. cbn [bind]. rewrite S0. reflexivity.
  - unfold optimalStandardError_squared. rewrite E. cbn [bind]. unfold hasBlockVariance.
    destruct (Hsz b Hb) as [X Y].
    destruct (Nat.ltb_spec (maxBlockID d) b); [lia|]. cbn [bind].
    apply Nat.leb_le in Y. rewrite Y. apply Nat.leb_le in Y. apply se2_ok, Y.
Qed.

Lemma good_optimal_small d D : good d D -> (length D < 2)%nat ->
  optimalBlockID d = Err RuntimeError.
Proof.
  intros G H. unfold optimalBlockID. rewrite (good_size0 G).
  destruct (Nat.ltb_spec (length D) 2); [reflexivity|lia].
Qed.

Lemma run_optimal os st i : no_self os -> drun dstore0 os = Ok st ->
  let D := ddata_of os i in
  ((length D < 2)%nat -> optimalBlockID (st i) = Err RuntimeError) /\
  ((2 <= length D)%nat ->
   exists b, optimalBlockID (st i) = Ok b /\
     documented_block (st i) (Nat.log2 (length D) - 1) b /\
     optimalIsReliable (st i) = Ok (Nat.ltb (50 * 2 ^ b) (length D)) /\
     optimalStandardError_squared (st i) = Ok (se2 (block (st i) b))).
Proof.
  intros N E. destruct (good_run0 N) as (st' & E' & G). rewrite E in E'. injection E' as <-.
  split; intros H; [eapply good_optimal_small|apply good_optimal]; eauto.
Qed.

(** C++: the same block as long as no block with a variance has an ID above 21. *)
Lemma cpp_threshold N b x y : (b <= 21)%nat ->
  cpp_threshold_exceeded N b x y = threshold_exceeded N b x y.
Proof.
  intros H. unfold cpp_threshold_exceeded, threshold_exceeded. f_equal.
  rewrite qn_qz. f_equal. rewrite !Nat2Z.inj_pow. change (Z.of_nat 2) with 2%Z.
  change (Z.of_nat 3) with 3%Z. apply Z.mod_small.
  assert (0 < 2 ^ Z.of_nat b)%Z by (apply Z.pow_pos_nonneg; lia).
  split; [apply Z.pow_nonneg; lia|].
  rewrite <- Z.pow_mul_r by lia. apply Z.pow_lt_mono_r; lia.
Qed.

Lemma cpp_loop_eq d raw k o : (forall i, (i < k)%nat -> (22 <= i)%nat ->
     hasBlockVariance d i = Ok false) ->
  cpp_optimal_loop d raw k o = optimal_loop d raw k o.
Proof.
  revert o. induction k as [|k IH]; intros o H; [reflexivity|].
  cbn [cpp_optimal_loop optimal_loop].
  assert (H' : forall i, (i < k)%nat -> (22 <= i)%nat -> hasBlockVariance d i = Ok false)
    by (intros i Hi; apply H; lia).
  destruct (hasBlockVariance d k) as [h|] eqn:E; cbn [bind]; [|reflexivity].
  destruct h; cbn [negb].
  - destruct (Nat.le_gt_cases 22 k) as [C|C].
    { rewrite (H k) in E by lia. discriminate. }
    destruct (getStandardErrorOfTheMean_squared (block d k)); cbn [bind]; [|reflexivity].
    rewrite cpp_threshold by lia. rewrite !IH by assumption. reflexivity.
  - rewrite !IH by assumption. reflexivity.
Qed.

Lemma cpp_optimal_eq d D : good d D -> (Z.of_nat (length D) < 2 ^ 23)%Z ->
  cpp_optimalBlockID d = optimalBlockID d.
Proof.
  intros G H. unfold cpp_optimalBlockID, optimalBlockID.
  destruct (Nat.ltb (ddda_size d) 2); [reflexivity|].
  destruct (getStandardErrorOfTheMean_squared (block d 0)); cbn [bind]; [|reflexivity].
  destruct (qeqb a 0); [reflexivity|].
  apply cpp_loop_eq. intros i Hi H22. unfold hasBlockVariance.
  destruct (Nat.ltb_spec (maxBlockID d) i); [lia|]. f_equal.
  rewrite (good_size i G). apply Nat.leb_gt. apply Nat.div_lt_upper_bound.
  - apply Nat.pow_nonzero; lia.
  - apply Nat2Z.inj_lt. rewrite Nat2Z.inj_mul, Nat2Z.inj_pow.
    change (Z.of_nat 2) with 2%Z.
    assert (2 ^ 22 <= 2 ^ Z.of_nat i)%Z by (apply Z.pow_le_mono_r; lia).
    change (2 ^ 23)%Z with (2 ^ 22 * 2)%Z in H. lia.
Qed.

(** * Merging with itself *)
Lemma self_merge_bad : exists d D d1 d2 e,
  d = fold_left ddda_add D ddda_new /\ ddda_merge d d = Ok d1 /\
  ddda_merge_self d = Ok d2 /\
  length d1 = length d2 /\
  map (fun l => getSampleSize (fst l)) d1 = map (fun l => getSampleSize (fst l)) d2 /\
  waiting d1 1 = Some e /\ waiting d2 1 = None /\
  Nat.odd (getSampleSize (block d2 1)) = true.
Proof.
  exists (fold_left ddda_add [qz 1; qz 2; qz 3] ddda_new), [qz 1; qz 2; qz 3].
  eexists. eexists. eexists. split; [reflexivity|].
  split; [reflexivity|]. split; [reflexivity|]. split; [reflexivity|].
  split; [reflexivity|]. split; [reflexivity|]. split; reflexivity.
Qed.

Lemma self_merge_bad_sizes : exists d D d1 d2,
  d = fold_left ddda_add D ddda_new /\ ddda_merge d d = Ok d1 /\
  ddda_merge_self d = Ok d2 /\
  map (fun l => getSampleSize (fst l)) d1 = [10; 5; 2; 1]%nat /\
  map (fun l => getSampleSize (fst l)) d2 = [10; 5; 3; 1]%nat.
Proof.
  exists (fold_left ddda_add [qz 1; qz 2; qz 3; qz 4; qz 5] ddda_new), [qz 1; qz 2; qz 3; qz 4; qz 5].
  eexists. eexists. split; [reflexivity|].
  split; [reflexivity|]. split; [reflexivity|]. split; reflexivity.
Qed.

Lemma self_wait_fst0 k lv : lv <> [] -> block (self_wait k lv) 0 = block lv 0.
Proof.
  intros H. destruct lv as [|[b [x|]] r], k; try congruence; reflexivity.
Qed.

Lemma self_merge_block0 d D : good d D ->
  exists d', ddda_merge_self d = Ok d' /\ answers (block d' 0) (D ++ D).
Proof.
  intros G. pose proof (good_ne G) as N. destruct G as [H _].
  destruct (merge_blocks_ok H H (le_n _)) as (t & Et & Lt & Ot).
  unfold ddda_merge_self. rewrite Et. cbn [bind]. eexists; split; [reflexivity|].
  assert (Nt : t <> []) by (intros ->; destruct d; [congruence|discriminate]).
  rewrite self_wait_fst0 by assumption.
  inversion Ot; subst; [destruct d; [congruence|discriminate]|].
  apply rep_answers. assumption.
Qed.

Lemma pad_self d : pad d (length d) = d.
Proof. unfold pad. rewrite Nat.sub_diag. apply app_nil_r. Qed.

Lemma merge_blocks_snd lv rv t : merge_blocks lv rv = Ok t -> map snd t = map snd lv.
Proof.
  revert rv t. induction lv as [|[b w] lv IH]; intros rv t H.
  - cbn in H. destruct rv; injection H as <-; reflexivity.
  - destruct rv as [|[c v] rv]; cbn in H.
    + injection H as <-. reflexivity.
    + destruct (mergeSample b c); cbn in H; [|discriminate].
      destruct (merge_blocks lv rv) eqn:E; cbn in H; [|discriminate].
      injection H as <-. cbn. f_equal. eapply IH, E.
Qed.

Lemma self_wait_eq lv : (forall i, (S i < length lv)%nat -> waiting lv i = None) ->
  self_wait (length lv) lv = merge_wait lv (map snd lv).
Proof.
  induction lv as [|[b w] lv IH]; intros H; [reflexivity|].
  destruct lv as [|l lv].
  - destruct w; reflexivity.
  - assert (w = None) by (apply (H 0%nat); cbn; lia). subst w.
    change (length ((b, None) :: l :: lv)) with (S (length (l :: lv))).
    remember (l :: lv) as q. cbn [self_wait map snd merge_wait].
    rewrite IH; [reflexivity|]. intros i Hi. apply (H (S i)). cbn [length]. lia.
Qed.

Lemma self_merge_ok d : (forall i, (S i < length d)%nat -> waiting d i = None) ->
  ddda_merge_self d = ddda_merge d d.
Proof.
  intros H. unfold ddda_merge_self, ddda_merge. rewrite pad_self.
  destruct (merge_blocks d d) as [t|] eqn:E; cbn [bind]; [|reflexivity]. f_equal.
  pose proof (merge_blocks_snd _ _ E) as S.
  assert (L : length t = length d) by (rewrite <- (map_length snd t), S; apply map_length).
  rewrite <- L, <- S. apply self_wait_eq. intros i Hi. rewrite L in Hi.
  rewrite <- (H i Hi). unfold waiting.
  change (nth i t (otfs_new, None)) with (nth i t (otfs_new, @None Qc)).
  rewrite <- !(map_nth snd). rewrite S. reflexivity.
Qed.

(** * Serialization *)
Import StrBase.
Section Ser.
Variable fmt : Qc -> string.
Variable parse : string -> option Qc.
Hypothesis parse_fmt : forall x, parse (fmt x) = Some x.
Hypothesis fmt_semi : forall x, has_char ";" (fmt x) = false.
Hypothesis fmt_bar : forall x, has_char "|" (fmt x) = false.
Hypothesis fmt_ne : forall x, fmt x <> ""%string.

Lemma concat_cons a l : String.concat "" (a :: l) = (a ++ String.concat "" l)%string.
Proof. destruct l; cbn; [rewrite str_app_nil|]; reflexivity. Qed.

Lemma join_concat a l :
  join "|" (a :: l) = (a ++ String.concat "" (map (fun x => "|" ++ x) l))%string.
Proof.
  revert a. induction l as [|b l IH]; intros a.
  - cbn. rewrite str_app_nil. reflexivity.
  - change (join "|" (a :: b :: l)) with (a ++ String "|" (join "|" (b :: l)))%string.
    rewrite IH. cbn [map]. rewrite concat_cons. reflexivity.
Qed.

Lemma concat_app l1 l2 :
  String.concat "" (l1 ++ l2) = (String.concat "" l1 ++ String.concat "" l2)%string.
Proof.
  induction l1 as [|a l IH]; [reflexivity|].
  cbn [app]. rewrite !concat_cons, IH. apply str_app_assoc.
Qed.

Definition fields (d : ddda) : list string :=
  ["1"; str_of_Z (Z.of_nat (List.length d))]%string
  ++ map (fun l => serialize fmt (fst l)) d ++ map (fun l => ser_wait fmt (snd l)) d.

Lemma serialize_join d : ddda_serialize fmt d = join "|" (fields d).
Proof.
  unfold fields. cbn [app]. rewrite join_concat. cbn [map]. rewrite concat_cons.
  rewrite map_app, concat_app, !map_map. unfold ddda_serialize.
  change ("1|")%string with ("1" ++ "|")%string.
  rewrite !str_app_assoc. reflexivity.
Qed.

Lemma serialize_bar s : has_char "|" (serialize fmt s) = false.
Proof.
  unfold serialize. rewrite !has_char_app. rewrite !fmt_bar.
  rewrite str_of_Z_no by reflexivity. reflexivity.
Qed.

Lemma split_ser d : split "|" (ddda_serialize fmt d) = fields d.
Proof.
  rewrite serialize_join. apply split_join; [discriminate|].
  intros x Hx. unfold fields in Hx. apply in_app_or in Hx. destruct Hx as [[<-|[<-|[]]]|Hx].
  - reflexivity.
  - apply str_of_Z_no; reflexivity.
  - apply in_app_or in Hx. destruct Hx as [Hx|Hx]; apply in_map_iff in Hx; destruct Hx as ([b w] & <- & _); cbn.
    + apply serialize_bar.
    + destruct w; cbn; [apply fmt_bar|reflexivity].
Qed.

Lemma read_blocks_ok d : Forall (fun l : level => valid (fst l)) d ->
  read_blocks parse (map (fun l => serialize fmt (fst l)) d) = Ok (map fst d).
Proof.
  induction 1 as [|[b w] d V H IH]; [reflexivity|]. cbn [map read_blocks fst].
  cbn [fst] in V. rewrite (py_roundtrip_valid fmt parse parse_fmt fmt_semi otfs_new V), IH. reflexivity.
Qed.
Lemma read_wait_ok d :
  read_wait parse (map (fun l : level => ser_wait fmt (snd l)) d) = Ok (map snd d).
Proof.
  induction d as [|[b [x|]] d IH]; [reflexivity| |]; cbn [map read_wait snd ser_wait].
  - destruct (Nat.eqb_spec (String.length (fmt x)) 0) as [E|E].
    { exfalso. apply (@fmt_ne x). destruct (fmt x); [reflexivity|discriminate]. }
    rewrite parse_fmt. cbn [oget bind]. rewrite IH. reflexivity.
  - cbn. rewrite IH. reflexivity.
Qed.

Lemma combine_fst_snd (d : ddda) : combine (map fst d) (map snd d) = d.
Proof. induction d as [|[b w] d IH]; cbn; congruence. Qed.

Lemma ddda_roundtrip d self : d <> [] -> Forall (fun l : level => valid (fst l)) d ->
  ddda_unserialize parse self (ddda_serialize fmt d) = (d, Ok tt).
Proof.
  intros N V. unfold ddda_unserialize. rewrite split_ser.
  assert (L : List.length (fields d) = (2 + 2 * List.length d)%nat).
  { unfold fields. rewrite !app_length, !map_length. cbn [List.length]. lia. }
  rewrite L.
  change (nth 0 (fields d) "") with "1"%string.
  change (nth 1 (fields d) "") with (str_of_Z (Z.of_nat (List.length d))).
  change (Z_of_str "1") with (Some 1%Z). cbn [oget bind Z.eqb Pos.eqb negb].
  destruct (Nat.ltb_spec (2 + 2 * List.length d) 2); [lia|].
  rewrite Z_of_str_of_Z. cbn [oget bind].
  destruct (Z.ltb_spec (Z.of_nat (List.length d)) 0); [lia|].
  rewrite Nat2Z.id, Nat.eqb_refl. cbn [negb].
  assert (F1 : firstn (List.length d) (skipn 2 (fields d)) = map (fun l => serialize fmt (fst l)) d).
  { unfold fields. cbn [app skipn].
    replace (List.length d) with (List.length (map (fun l : level => serialize fmt (fst l)) d)) by apply map_length.
    rewrite firstn_app, Nat.sub_diag, firstn_all, firstn_O, app_nil_r. reflexivity. }
  assert (F2 : firstn (List.length d) (skipn (2 + List.length d) (fields d)) = map (fun l => ser_wait fmt (snd l)) d).
  { unfold fields. cbn [app skipn Nat.add].
    rewrite skipn_app, map_length, Nat.sub_diag.
    rewrite skipn_all2 by (rewrite map_length; lia). cbn [app skipn].
    replace (List.length d) with (List.length (map (fun l : level => ser_wait fmt (snd l)) d)) by apply map_length.
    apply firstn_all. }
  rewrite F1, F2, (read_blocks_ok V), read_wait_ok. cbn [bind].
  destruct (Nat.eqb_spec (List.length d) 0) as [E|E]; [destruct d; [congruence|discriminate]|].
  rewrite combine_fst_snd. reflexivity.
Qed.

Lemma ok_valid lv D : ok lv D -> Forall (fun l : level => valid (fst l)) lv.
Proof.
  induction 1; constructor; [|assumption]. eapply rep_valid; eassumption.
Qed.

Lemma run_roundtrip os st i self : no_self os -> drun dstore0 os = Ok st ->
  ddda_unserialize parse self (ddda_serialize fmt (st i)) = (st i, Ok tt).
Proof.
  intros N E. destruct (good_run0 N) as (st' & E' & G). rewrite E in E'. injection E' as <-.
  apply ddda_roundtrip; [eapply good_ne, G|]. eapply ok_valid, G.
Qed.
End Ser.

Lemma ddda_reject parse self str e :
  snd (ddda_unserialize parse self str) = Err e ->
  fst (ddda_unserialize parse self str) = self.
Proof.
  unfold ddda_unserialize.
  match goal with |- context [match ?r with Ok _ => _ | Err _ => _ end] => destruct r end;
  cbn; [discriminate|reflexivity].
Qed.

Lemma run_self_merge_total os st i : no_self os -> drun dstore0 os = Ok st ->
  exists d', ddda_merge_self (st i) = Ok d' /\
    answers (block d' 0) (ddata_of os i ++ ddata_of os i).
Proof.
  intros N E. destruct (good_run0 N) as (st' & E' & G). rewrite E in E'. injection E' as <-.
  apply self_merge_block0, G.
Qed.
Lemma run_cpp_optimal os st i : no_self os -> drun dstore0 os = Ok st ->
  (Z.of_nat (length (ddata_of os i)) < 2 ^ 23)%Z ->
  cpp_optimalBlockID (st i) = optimalBlockID (st i).
Proof.
  intros N E. destruct (good_run0 N) as (st' & E' & G). rewrite E in E'. injection E' as <-.
  apply cpp_optimal_eq, G.
Qed.

Lemma read_blocks_length parse : forall ps bs, read_blocks parse ps = Ok bs -> length bs = length ps.
Proof.
  induction ps as [|p ps IH]; intros bs E; cbn in E.
  - injection E as <-. reflexivity.
  - destruct (unserialize parse otfs_new p) as (b, [u|e]); [|discriminate].
    destruct (read_blocks parse ps) as [t|e] eqn:R; [|discriminate]. cbn in E. injection E as <-.
    cbn. f_equal. apply IH. reflexivity.
Qed.
Lemma read_wait_length parse : forall ps bs, read_wait parse ps = Ok bs -> length bs = length ps.
Proof.
  induction ps as [|p ps IH]; intros bs E; cbn in E.
  - injection E as <-. reflexivity.
  - destruct (if Nat.eqb (String.length p) 0 then _ else _) as [w|e]; [|discriminate]. cbn in E.
    destruct (read_wait parse ps) as [t|e] eqn:R; [|discriminate]. cbn in E. injection E as <-.
    cbn. f_equal. apply IH. reflexivity.
Qed.
Lemma ddda_accept parse self str d : ddda_unserialize parse self str = (d, Ok tt) ->
  exists n : nat, StrBase.Z_of_str (nth 0 (StrBase.split "|" str) ""%string) = Some 1%Z
    /\ StrBase.Z_of_str (nth 1 (StrBase.split "|" str) ""%string) = Some (Z.of_nat n)
    /\ length d = Nat.max 1 n.
Proof.
  unfold ddda_unserialize. intros E.
  destruct (StrBase.Z_of_str (nth 0 (StrBase.split "|" str) ""%string)) as [v|] eqn:V; [|discriminate].
  cbn [oget bind] in E. destruct (Z.eqb v 1) eqn:V1; [|discriminate]. apply Z.eqb_eq in V1. cbn [negb] in E.
  destruct (Nat.ltb _ 2); [discriminate|].
  destruct (StrBase.Z_of_str (nth 1 (StrBase.split "|" str) ""%string)) as [n|]; [|discriminate].
  cbn [oget bind] in E. destruct (Z.ltb n 0) eqn:L; [discriminate|].
  destruct (negb _) eqn:NL; [discriminate|].
  apply Bool.negb_false_iff, Nat.eqb_eq in NL.
  match type of E with context [read_blocks ?p ?x] => destruct (read_blocks p x) as [bs|e] eqn:RB; [|discriminate] end.
  cbn [bind] in E.
  match type of E with context [read_wait ?p ?x] => destruct (read_wait p x) as [ws|e] eqn:RW; [|discriminate] end.
  cbn [bind] in E. apply read_blocks_length in RB. apply read_wait_length in RW.
  exists (Z.to_nat n). split.
  { rewrite V1. reflexivity. }
  split; [f_equal; apply Z.ltb_ge in L; lia|].
  rewrite firstn_length, skipn_length in RB, RW.
  destruct (Nat.eqb (Z.to_nat n) 0) eqn:N0; injection E as <-.
  - apply Nat.eqb_eq in N0. rewrite N0. reflexivity.
  - apply Nat.eqb_neq in N0. rewrite combine_length, RB, RW, NL. lia.
Qed.
