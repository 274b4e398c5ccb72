(** Proofs about iterators over every so many elements. *)
From Coq Require Import List Arith Bool Lia.
From Verif Require Import PyBase SpiModel SpiSpec.
Import ListNotations.

Lemma step_min : forall n c e, c < e -> step n c e = Nat.min (c + n) e.
Proof.
  induction n as [|n IH]; intros c e H; cbn [step]; [lia|]. destruct (c + 1 =? e) eqn:E.
  - apply Nat.eqb_eq in E. lia.
  - apply Nat.eqb_neq in E. rewrite IH by lia. lia.
Qed.
Lemma not_singular : forall it, 0 < current it -> isSingular it = false.
Proof. intros it H. unfold isSingular. apply Nat.eqb_neq. lia. Qed.
Lemma inside_deref : forall it, inside it -> isPastTheEnd it = Ok false /\ isDereferenceable it = Ok true /\ isValid it = Ok true /\ isIncrementable it = Ok true.
Proof.
  intros it [H1 H2]. assert (E : current it =? pastEnd it = false) by (apply Nat.eqb_neq; lia).
  unfold isValid, isIncrementable, isDereferenceable, isPastTheEnd. rewrite (not_singular it H1), E. repeat split.
Qed.
Lemma end_deref : forall it, at_end it -> isPastTheEnd it = Ok true /\ isDereferenceable it = Ok false /\ isValid it = Ok true /\ isIncrementable it = Ok false.
Proof.
  intros it [H1 H2]. assert (E : current it =? pastEnd it = true) by (now apply Nat.eqb_eq).
  unfold isValid, isIncrementable, isDereferenceable, isPastTheEnd. rewrite (not_singular it H1), E. cbn. unfold isPastTheEnd. rewrite ?(not_singular it H1), ?E. repeat split.
Qed.
Lemma inside_step : forall stride it, inside it -> pre_increment stride it = Ok (Iter (Nat.min (current it + stride) (pastEnd it)) (pastEnd it)).
Proof. intros stride it H. unfold pre_increment. destruct (inside_deref it H) as (_ & -> & _). cbn. rewrite step_min by apply H. reflexivity. Qed.
Lemma advance_min : forall stride n it, 0 < stride -> inside it -> advance stride n it = Ok (Iter (Nat.min (current it + n * stride) (pastEnd it)) (pastEnd it)).
Proof.
  induction n as [|n IH]; intros it P H; cbn [advance].
  - destruct it as [c e]. destruct H as [H1 H2]. cbn in *. do 2 f_equal. lia.
  - rewrite inside_step by exact H. cbn [bind]. destruct H as [H1 H2].
    destruct (le_lt_dec (pastEnd it) (current it + stride)) as [L|L].
    + assert (N : at_end (Iter (Nat.min (current it + stride) (pastEnd it)) (pastEnd it))) by (split; cbn; lia). rewrite (proj1 (end_deref _ N)). cbn. do 2 f_equal. nia.
    + assert (N : inside (Iter (Nat.min (current it + stride) (pastEnd it)) (pastEnd it))) by (split; cbn; lia).
      rewrite (proj1 (inside_deref _ N)). cbn [bind]. rewrite IH by assumption. cbn. do 2 f_equal. lia.
Qed.
Lemma filter_none : forall A (f : A -> bool) l, (forall x, In x l -> f x = false) -> filter f l = [].
Proof. induction l as [|x l IH]; intros H; cbn; [reflexivity|]. rewrite (H x) by (now left). apply IH. intros y Y. apply H. now right. Qed.
Lemma between_multiples : forall stride q i, 0 < stride -> q * stride < i -> i < q * stride + stride -> i mod stride =? 0 = false.
Proof.
  intros stride q i P L U. apply Nat.eqb_neq. intros E. apply Nat.mod_divide in E; [|lia]. destruct E as [k ->].
  assert (q < k) by (apply (Nat.mul_lt_mono_pos_r stride); lia). assert (k < q + 1) by (apply (Nat.mul_lt_mono_pos_r stride); lia). lia.
Qed.
Lemma loop_from : forall stride start count fuel q, 0 < stride -> 0 < start -> count - q * stride < fuel ->
  loop fuel stride (Iter (Nat.min (start + q * stride) (start + count)) (start + count)) (Iter (start + count) (start + count)) =
  Ok (map (fun i => start + i) (filter (fun i => i mod stride =? 0) (seq (q * stride) (count - q * stride)))).
Proof.
  intros stride start count fuel. induction fuel as [|fuel IH]; intros q P N F; [lia|].
  cbn [loop]. unfold unequal. destruct (le_lt_dec count (q * stride)) as [L|L].
  - replace (Nat.min (start + q * stride) (start + count)) with (start + count) by lia.
    rewrite (proj1 (proj2 (proj2 (end_deref (Iter (start + count) (start + count)) ltac:(split; cbn; lia))))). cbn [bind negb current].
    rewrite Nat.eqb_refl. cbn. replace (count - q * stride) with 0 by lia. reflexivity.
  - replace (Nat.min (start + q * stride) (start + count)) with (start + q * stride) by lia.
    assert (H : inside (Iter (start + q * stride) (start + count))) by (split; cbn; lia).
    destruct (inside_deref _ H) as (_ & D & V & _). rewrite V. cbn [bind negb current].
    replace (start + q * stride =? start + count) with false by (symmetry; apply Nat.eqb_neq; lia). cbn [negb].
    unfold access. rewrite D. cbn [bind negb]. rewrite inside_step by exact H. cbn [bind current pastEnd].
    replace (start + q * stride + stride) with (start + (S q) * stride) by (cbn; lia).
    rewrite IH by (cbn; lia). cbn [bind]. f_equal.
    destruct (le_lt_dec count (S q * stride)) as [G|G].
    + replace (count - S q * stride) with 0 by lia. cbn [seq filter map].
      remember (count - q * stride) as m eqn:M. destruct m as [|m]; [lia|]. cbn [seq filter]. rewrite Nat.mod_mul by lia. cbn [Nat.eqb map]. f_equal.
      rewrite filter_none; [reflexivity|]. intros x X. apply in_seq in X. apply (between_multiples stride q); cbn in G; lia.
    + replace (count - q * stride) with (stride + (count - S q * stride)) by (cbn in *; lia).
      rewrite seq_app, filter_app, map_app. replace (q * stride + stride) with (S q * stride) by (cbn; lia).
      destruct stride as [|s]; [lia|]. change (seq (q * S s) (S s)) with (q * S s :: seq (S (q * S s)) s). cbn [filter]. rewrite Nat.mod_mul by lia. cbn [Nat.eqb].
      rewrite (filter_none nat (fun i => i mod S s =? 0) (seq (S (q * S s)) s)); [reflexivity|]. intros x X. apply in_seq in X. apply (between_multiples (S s) q); lia.
Qed.
