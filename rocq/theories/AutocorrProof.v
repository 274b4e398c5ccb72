From Verif Require Import QcBase PyBase OtfsModel OtfsSpec OtfsProof DddaModel DddaSpec DddaProof
  AutocorrModel AutocorrSpec.
Set Implicit Arguments.
Open Scope Qc_scope.

Section P.
Variable A : Type.
Variable mul : A -> A -> Qc.

Definition lastn (n : nat) (l : list A) : list A := skipn (length l - n) l.

Definition inv (s : autocorr A) (l : list A) : Prop :=
  length (ac_corr s) = S (ac_max s) /\ length (ac_buf s) = S (ac_max s) /\
  forall N, (N <= ac_max s)%nat ->
    nth N (ac_corr s) ddda_new = fold_left ddda_add (lagged mul N l) ddda_new /\
    nth N (ac_buf s) [] = lastn N l.

Lemma combine_app_len (X Y : Type) (a1 : list X) (b1 : list Y) a2 b2 :
  length a1 = length b1 -> combine (a1 ++ a2) (b1 ++ b2) = combine a1 b1 ++ combine a2 b2.
Proof.
  revert b1. induction a1 as [|x a1 IH]; intros [|y b1] H; try discriminate; cbn; [reflexivity|].
  f_equal. apply IH. injection H as H. exact H.
Qed.

Lemma lagged_app_short N l x : (length l < N)%nat -> lagged mul N (l ++ [x]) = [].
Proof.
  intros H. unfold lagged. rewrite skipn_all2; [reflexivity|]. rewrite app_length. cbn. lia.
Qed.
Lemma lagged_short N l : (length l <= N)%nat -> lagged mul N l = [].
Proof.
  intros H. unfold lagged. rewrite skipn_all2; [reflexivity|]. lia.
Qed.

Lemma combine_trunc (X Y : Type) (a : list X) (b c : list Y) :
  (length a <= length b)%nat -> combine a (b ++ c) = combine a b.
Proof.
  revert b. induction a as [|x a IH]; intros [|y b] H; cbn in *; try lia; try reflexivity.
  f_equal. apply IH. lia.
Qed.

Lemma lagged_app N l x d : (N <= length l)%nat -> nth_error (l ++ [x]) (length l - N) = Some d ->
  lagged mul N (l ++ [x]) = lagged mul N l ++ [mul x d].
Proof.
  intros H E. unfold lagged. rewrite skipn_app.
  replace (N - length l)%nat with 0%nat by lia. cbn [skipn].
  apply nth_error_split in E. destruct E as (l1 & l2 & E & L).
  rewrite E. rewrite combine_app_len by (rewrite skipn_length; lia).
  rewrite map_app. cbn. f_equal.
  - f_equal.
    assert (F : exists l3, l = l1 ++ l3).
    { exists (skipn (length l1) l). rewrite <- (firstn_skipn (length l1) l) at 1. f_equal.
      assert (G : firstn (length l1) (l ++ [x]) = firstn (length l1) (l1 ++ d :: l2)) by (rewrite E; reflexivity).
      rewrite firstn_app in G. replace (length l1 - length l)%nat with 0%nat in G by lia.
      rewrite firstn_O, app_nil_r in G. rewrite firstn_app, Nat.sub_diag, firstn_O, app_nil_r, firstn_all in G.
      exact G. }
    destruct F as [l3 ->]. symmetry. apply combine_trunc.
    rewrite skipn_length. rewrite app_length in *. lia.
Qed.

Lemma lastn_app_short N l x : (length l < N)%nat -> lastn N (l ++ [x]) = lastn N l ++ [x].
Proof.
  intros H. unfold lastn. rewrite app_length. cbn [length].
  replace (length l + 1 - N)%nat with 0%nat by lia.
  replace (length l - N)%nat with 0%nat by lia. reflexivity.
Qed.

Lemma lastn_length N l : length (lastn N l) = Nat.min N (length l).
Proof. unfold lastn. rewrite skipn_length. lia. Qed.

Lemma lastn_app_long N l x y r : (N <= length l)%nat -> lastn N l = y :: r ->
  lastn N (l ++ [x]) = r ++ [x].
Proof.
  intros H E. pose proof (lastn_length N l) as L. rewrite E in L. cbn in L.
  unfold lastn in *. rewrite app_length. cbn [length].
  replace (length l + 1 - N)%nat with (S (length l - N)) by lia.
  rewrite skipn_app. replace (S (length l - N) - length l)%nat with 0%nat by lia.
  rewrite skipn_O. f_equal. replace (S (length l - N)) with (1 + (length l - N))%nat by lia.
  rewrite <- skipn_add. rewrite E. reflexivity.
Qed.

Lemma skipn_nth_error (n : nat) (l : list A) y r : skipn n l = y :: r -> nth_error l n = Some y.
Proof.
  revert l. induction n as [|n IH]; intros [|x l] H; cbn in *; try discriminate.
  - congruence.
  - apply IH, H.
Qed.

Lemma step_ok N l x : (1 <= N)%nat ->
  ac_step mul N x (fold_left ddda_add (lagged mul N l) ddda_new) (lastn N l)
  = (fold_left ddda_add (lagged mul N (l ++ [x])) ddda_new, lastn N (l ++ [x])).
Proof.
  intros H1. unfold ac_step. rewrite lastn_length.
  destruct (Nat.eqb_spec (Nat.min N (length l)) N) as [E|E].
  - assert (HN : (N <= length l)%nat) by lia.
    destruct (lastn N l) as [|y r] eqn:EL.
    { pose proof (lastn_length N l) as L. rewrite EL in L. cbn in L. lia. }
    rewrite (@lastn_app_long N l x y r HN EL).
    rewrite (@lagged_app N l x y HN).
    + rewrite fold_left_app. reflexivity.
    + rewrite nth_error_app1 by lia. eapply skipn_nth_error, EL.
  - rewrite lastn_app_short by lia. rewrite lagged_app_short by lia.
    rewrite lagged_short by lia. reflexivity.
Qed.

Lemma loop_ok cs bs N l x : (1 <= N)%nat -> length cs = length bs ->
  (forall k, (k < length cs)%nat ->
     nth k cs ddda_new = fold_left ddda_add (lagged mul (N + k) l) ddda_new /\
     nth k bs [] = lastn (N + k) l) ->
  forall cs' bs', ac_loop mul N x cs bs = (cs', bs') ->
  length cs' = length cs /\ length bs' = length bs /\
  (forall k, (k < length cs)%nat ->
     nth k cs' ddda_new = fold_left ddda_add (lagged mul (N + k) (l ++ [x])) ddda_new /\
     nth k bs' [] = lastn (N + k) (l ++ [x])).
Proof.
  revert bs N. induction cs as [|c cs IH]; intros [|b bs] N HN HL H cs' bs' E; try discriminate.
  - cbn in E. injection E as <- <-. repeat split; cbn in *; lia.
  - cbn [ac_loop] in E.
    destruct (H 0%nat) as [H1 H2]; [cbn; lia|]. cbn [nth] in H1, H2. rewrite Nat.add_0_r in H1, H2.
    rewrite H1, H2, step_ok in E by assumption.
    destruct (ac_loop mul (S N) x cs bs) as [cs1 bs1] eqn:E1.
    injection E as <- <-.
    injection HL as HL.
    assert (H' : forall k, (k < length cs)%nat ->
     nth k cs ddda_new = fold_left ddda_add (lagged mul (S N + k) l) ddda_new /\
     nth k bs [] = lastn (S N + k) l).
    { intros k Hk. replace (S N + k)%nat with (N + S k)%nat by lia.
      apply (H (S k)). cbn. lia. }
    destruct (IH bs (S N) ltac:(lia) HL H' _ _ E1) as (L1 & L2 & L3).
    split; [cbn; congruence|]. split; [cbn; congruence|].
    intros [|k] Hk.
    + rewrite Nat.add_0_r. split; reflexivity.
    + replace (N + S k)%nat with (S N + k)%nat by lia. apply L3. cbn in Hk. lia.
Qed.

Lemma lagged_0_app l x : lagged mul 0 (l ++ [x]) = lagged mul 0 l ++ [mul x x].
Proof.
  unfold lagged. cbn [skipn]. rewrite combine_app_len by reflexivity.
  rewrite map_app. reflexivity.
Qed.

Lemma inv_add s l x : inv s l -> inv (ac_add mul s x) (l ++ [x]).
Proof.
  intros (HC & HB & H). unfold ac_add.
  destruct (ac_corr s) as [|c0 cs] eqn:EC; [discriminate|].
  destruct (ac_buf s) as [|b0 bs] eqn:EB; [discriminate|].
  destruct (ac_loop mul 1 x cs bs) as [cs' bs'] eqn:EL.
  injection HC as HC. injection HB as HB.
  assert (H' : forall k, (k < length cs)%nat ->
     nth k cs ddda_new = fold_left ddda_add (lagged mul (1 + k) l) ddda_new /\
     nth k bs [] = lastn (1 + k) l).
  { intros k Hk. destruct (H (S k)) as [X Y]; [lia|]. split; [exact X|exact Y]. }
  destruct (@loop_ok cs bs 1 l x (le_n _) ltac:(congruence) H' _ _ EL) as (L1 & L2 & L3).
  unfold inv. cbn [ac_corr ac_buf ac_max].
  split; [cbn; congruence|]. split; [cbn; congruence|].
  intros [|N] HN.
  - cbn [nth]. destruct (H 0%nat) as [X Y]; [lia|]. cbn [nth] in X, Y. subst c0 b0.
    split.
    + rewrite lagged_0_app, fold_left_app. reflexivity.
    + unfold lastn. rewrite Nat.sub_0_r, skipn_all. rewrite Nat.sub_0_r, skipn_all. reflexivity.
  - cbn [nth]. apply L3. lia.
Qed.

Lemma nth_repeat_any (X : Type) (a : X) n k : nth k (repeat a n) a = a.
Proof. revert k. induction n; intros [|k]; cbn; auto. Qed.

Lemma inv_new m s : ac_new A m = Ok s -> inv s [].
Proof.
  unfold ac_new. destruct (Z.ltb_spec m 0); [discriminate|]. intros E. injection E as <-.
  unfold inv. cbn [ac_corr ac_buf ac_max].
  split; [apply (repeat_length _ (S _))|]. split; [apply (repeat_length _ (S _))|].
  intros N HN. split.
  - match goal with |- nth N ?x _ = _ => change x with (repeat ddda_new (S (Z.to_nat m))) end.
    rewrite nth_repeat_any. unfold lagged. rewrite skipn_nil. reflexivity.
  - match goal with |- nth N ?x _ = _ => change x with (repeat (@nil A) (S (Z.to_nat m))) end.
    rewrite nth_repeat_any. reflexivity.
Qed.

Definition feed (s : autocorr A) (l : list A) : autocorr A := fold_left (ac_add mul) l s.

Lemma ac_add_max s x : ac_max (ac_add mul s x) = ac_max s.
Proof.
  unfold ac_add. destruct (ac_corr s) as [|c cs]; [reflexivity|].
  destruct (ac_buf s) as [|b bs]; [reflexivity|].
  destruct (ac_loop mul 1 x cs bs). reflexivity.
Qed.
Lemma feed_max s l : ac_max (feed s l) = ac_max s.
Proof.
  revert s. induction l as [|x l IH]; intros s; [reflexivity|]. cbn. unfold feed in IH.
  rewrite IH. apply ac_add_max.
Qed.

Lemma inv_feed s l d : inv s d -> inv (feed s l) (d ++ l).
Proof.
  revert s d. induction l as [|x l IH]; intros s d H.
  - rewrite app_nil_r. exact H.
  - change (d ++ x :: l) with (d ++ [x] ++ l). rewrite app_assoc. cbn. apply IH, inv_add, H.
Qed.

Lemma lagged_length N l : length (lagged mul N l) = (length l - N)%nat.
Proof. unfold lagged. rewrite map_length, combine_length, skipn_length. lia. Qed.

Lemma stream_size l : ddda_size (fold_left ddda_add l ddda_new) = length l.
Proof.
  destruct (stream_correct l) as [H1 H2]. unfold ddda_size.
  destruct (H2 0%nat) as [(X & _) _]; [rewrite H1; unfold block_count; lia|].
  rewrite X, block_data_length. cbn [Nat.pow]. apply Nat.div_1_r.
Qed.

(** Correctness of the reported autocorrelation. *)
Lemma ac_correct m s l : ac_new A m = Ok s ->
  let s' := feed s l in
  forall N : Z,
  ((N < 0 \/ m < N)%Z -> ac_available s' N = Err ValueError /\ ac_get s' N = Err ValueError) /\
  ((0 <= N <= m)%Z ->
     ac_available s' N = Ok (Nat.ltb (Z.to_nat N) (length l)) /\
     ac_get s' N = (if Nat.ltb (Z.to_nat N) (length l)
                    then Ok (fold_left ddda_add (lagged mul (Z.to_nat N) l) ddda_new)
                    else Err ValueError)).
Proof.
  intros E s' N. pose proof (inv_feed l (inv_new _ E)) as (HC & HB & H). cbn [app] in H.
  fold s' in HC, HB, H.
  assert (M : ac_max s' = Z.to_nat m).
  { unfold s'. rewrite feed_max. unfold ac_new in E.
    destruct (Z.ltb m 0); [discriminate|]. injection E as <-. reflexivity. }
  assert (Hm : (0 <= m)%Z).
  { unfold ac_new in E. destruct (Z.ltb_spec m 0); [discriminate|assumption]. }
  split.
  - intros HN. unfold ac_get, ac_available. rewrite M.
    destruct (Z.ltb_spec N 0); [split; reflexivity|].
    destruct (Z.ltb_spec (Z.of_nat (Z.to_nat m)) N); [split; reflexivity|]. lia.
  - intros HN.
    assert (AV : ac_available s' N = Ok (Nat.ltb (Z.to_nat N) (length l))).
    { unfold ac_available. rewrite M.
      destruct (Z.ltb_spec N 0); [lia|].
      destruct (Z.ltb_spec (Z.of_nat (Z.to_nat m)) N); [lia|].
      destruct (H 0%nat) as [X _]; [lia|]. rewrite X, stream_size, lagged_length.
      rewrite Nat.sub_0_r. reflexivity. }
    split; [exact AV|]. unfold ac_get. rewrite AV, M.
    destruct (Z.ltb_spec N 0); [lia|].
    destruct (Z.ltb_spec (Z.of_nat (Z.to_nat m)) N); [lia|]. cbn [bind].
    destruct (Nat.ltb (Z.to_nat N) (length l)); cbn [negb]; [|reflexivity].
    destruct (H (Z.to_nat N)) as [X _]; [lia|]. rewrite X. reflexivity.
Qed.

(** Statistics of the reported accumulator. *)
Lemma ac_mean m s l N c : ac_new A m = Ok s -> ac_get (feed s l) N = Ok c ->
  answers (block c 0) (lagged mul (Z.to_nat N) l).
Proof.
  intros E G. destruct (@ac_correct m s l E N) as [C1 C2].
  destruct (Z.ltb_spec N 0) as [H1|H1].
  { destruct C1 as [_ C1]; [lia|]. cbv zeta in C1. rewrite C1 in G. discriminate. }
  destruct (Z.ltb_spec m N) as [H2|H2].
  { destruct C1 as [_ C1]; [lia|]. cbv zeta in C1. rewrite C1 in G. discriminate. }
  destruct C2 as [_ C2]; [lia|]. cbv zeta in C2. rewrite C2 in G.
  destruct (Nat.ltb (Z.to_nat N) (length l)); [|discriminate]. injection G as <-.
  destruct (stream_correct (lagged mul (Z.to_nat N) l)) as [L S].
  destruct (S 0%nat) as [X _]; [rewrite L; unfold block_count; lia|].
  rewrite block_data_0 in X. exact X.
Qed.

(** Memory: each buffer holds at most as many data as its correlation time. *)
Lemma ac_memory m s l N : ac_new A m = Ok s -> (N <= Z.to_nat m)%nat ->
  (length (nth N (ac_buf (feed s l)) []) <= N)%nat /\
  length (ac_buf (feed s l)) = S (Z.to_nat m).
Proof.
  intros E HN. pose proof (inv_feed l (inv_new _ E)) as (HC & HB & H). cbn [app] in H.
  assert (M : ac_max (feed s l) = Z.to_nat m).
  { rewrite feed_max. unfold ac_new in E.
    destruct (Z.ltb m 0); [discriminate|]. injection E as <-. reflexivity. }
  rewrite M in *. split; [|exact HB].
  destruct (H N HN) as [_ Y]. rewrite Y, lastn_length. lia.
Qed.

(** The specification list, elementwise. *)
Lemma lagged_nth N l t d : (t + N < length l)%nat ->
  nth t (lagged mul N l) 0 = mul (nth (t + N) l d) (nth t l d).
Proof.
  intros H. unfold lagged.
  change 0 with ((fun _ : A * A => 0) (d, d)).
  rewrite (nth_indep _ _ (mul d d)) by (rewrite map_length, combine_length, skipn_length; lia).
  change (mul d d) with ((fun p => mul (fst p) (snd p)) (d, d)).
  rewrite map_nth.
  assert (C : forall (a b : list A) t, (t < length a)%nat -> (t < length b)%nat ->
    nth t (combine a b) (d, d) = (nth t a d, nth t b d)).
  { clear. induction a as [|x a IH]; intros [|y b] [|t] H1 H2; cbn in *; try lia; [reflexivity|].
    apply IH; lia. }
  rewrite C by (rewrite ?skipn_length; lia). cbn [fst snd].
  f_equal. rewrite <- (firstn_skipn N l) at 2. rewrite app_nth2; rewrite firstn_length; [|lia].
  f_equal. lia.
Qed.
End P.
