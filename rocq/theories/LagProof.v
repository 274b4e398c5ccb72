(** Snapshots that are kept in a ring, and the pairs of times that are saved. *)
From Coq Require Import List Arith Lia.
From Verif Require Import MsdSpec.
Import ListNotations.

Section Ring.
Context {A : Type}.
Variable K : nat.
Hypothesis HK : K <> 0.
(** [holds k x]: place [k] of the ring holds the snapshot [x]; the ring holds the latest [K]
    snapshots of [l]. *)
Definition ring (holds : nat -> A -> Prop) (l : list A) : Prop :=
  forall j x, nth_error l j = Some x -> length l <= j + K -> holds (j mod K) x.

Lemma ring_nil h : ring h [].
Proof. intros [|j] x H; discriminate. Qed.
(** Times that are kept have different places. *)
Lemma mod_apart i j : i < j -> j < i + K -> i mod K <> j mod K.
Proof.
  intros H1 H2 E. pose proof (Nat.div_mod i K HK) as A1. pose proof (Nat.div_mod j K HK) as A2.
  pose proof (Nat.mod_upper_bound i K HK). pose proof (Nat.mod_upper_bound j K HK).
  assert (i / K < j / K) by nia. nia.
Qed.
Lemma ring_step (h h' : nat -> A -> Prop) l x : ring h l ->
  h' (length l mod K) x -> (forall k y, k < K -> k <> length l mod K -> h k y -> h' k y) ->
  ring h' (l ++ [x]).
Proof.
  intros R H O j y E L. rewrite app_length in L. cbn in L.
  destruct (Nat.eq_dec j (length l)) as [->|N].
  - rewrite nth_error_app2 in E by lia. rewrite Nat.sub_diag in E. cbn in E. injection E as <-. exact H.
  - assert (j < length l).
    { assert (j < length (l ++ [x])) by (apply nth_error_Some; congruence). rewrite app_length in *. cbn in *. lia. }
    rewrite nth_error_app1 in E by assumption. apply O.
    + apply Nat.mod_upper_bound, HK.
    + apply mod_apart; lia.
    + apply R; [exact E|lia].
Qed.
End Ring.

Lemma thin_nth {A} (n : nat) : n <> 0 -> forall (l : list A) k t, nth_error (thin n k l) t = nth_error l (k + n * t).
Proof.
  intros Hn. induction l as [|x l IH]; intros k t.
  - cbn. now destruct t, (k + n * _).
  - cbn [thin]. destruct k as [|k].
    + destruct t as [|t]; [now rewrite Nat.mul_0_r|]. cbn [nth_error]. rewrite IH.
      replace (0 + n * S t) with (S (n - 1 + n * t)) by nia. reflexivity.
    + rewrite IH. reflexivity.
Qed.
Lemma thin_1 {A} (l : list A) : thin 1 0 l = l.
Proof. induction l as [|x l IH]; [reflexivity|]. cbn. now rewrite IH. Qed.
(** The measurements are those of the calls 0, n, 2n, etc. *)
Lemma measured_nth {A} (n : nat) (l : list A) t : n <> 0 -> nth_error (measured n l) t = nth_error l (n * t).
Proof. intros H. unfold measured. now rewrite thin_nth. Qed.
