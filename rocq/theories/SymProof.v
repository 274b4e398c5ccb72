(** Proofs about symbols on the device. *)
From Coq Require Import List ZArith Bool Reals Lia.
From Verif Require Import CuModel SymModel SymSpec.
Import ListNotations.
Open Scope Z_scope.

Lemma healthy_next : forall d, healthy d -> next_fails d = false /\ Forall (eq false) (tl (failures d)).
Proof. intros [i r p [|f l]] [_ H]; cbn in *; [auto|]. inversion H; subst. auto. Qed.
Lemma set_int_ok : forall s v d, healthy d ->
  exists d', set_int s v d = (d', None) /\ healthy d' /\ ints d' = (fun t => if int_symbol_eq_dec t s then v else ints d t) /\ reals d' = reals d.
Proof.
  intros s v d H. destruct (healthy_next d H) as [A B]. destruct H as [P _]. unfold set_int, seqc, copy_int. rewrite A. unfold throw_on_error. cbn.
  rewrite P. eexists. split; [reflexivity|]. repeat split. exact B.
Qed.
Lemma set_real_ok : forall s v d, healthy d ->
  exists d', set_real s v d = (d', None) /\ healthy d' /\ ints d' = ints d /\ reals d' = (fun t => if real_symbol_eq_dec t s then v else reals d t).
Proof.
  intros s v d H. destruct (healthy_next d H) as [A B]. destruct H as [P _]. unfold set_real, seqc, copy_real. rewrite A. unfold throw_on_error. cbn.
  rewrite P. eexists. split; [reflexivity|]. repeat split. exact B.
Qed.
Lemma seqc_ok : forall a b d d', a d = (d', None) -> seqc a b d = b d'.
Proof. intros a b d d' H. unfold seqc. now rewrite H. Qed.
Lemma set_int_fails : forall s v d, next_fails d = true -> refuses (set_int s v) d CUDAException.
Proof. intros s v d H. unfold refuses, set_int, seqc, copy_int. rewrite H. cbn. auto. Qed.
Lemma set_real_fails : forall s v d, next_fails d = true -> refuses (set_real s v) d CUDAException.
Proof. intros s v d H. unfold refuses, set_real, seqc, copy_real. rewrite H. cbn. auto. Qed.
Lemma set_int_sets : forall s v d, healthy d -> sets (set_int s v) d [(s, v)] [].
Proof.
  intros s v d H. destruct (set_int_ok s v d H) as (d' & E & G & A & B). unfold sets. rewrite E, A, B.
  split; [reflexivity|]. split; [exact G|]. repeat split.
  - intros t w [I|[]]. inversion I; subst. destruct (int_symbol_eq_dec t t); congruence.
  - intros t N. destruct (int_symbol_eq_dec t s); [|reflexivity]. subst. destruct N. now left.
  - intros t w [].
Qed.
Lemma set_real_sets : forall s v d, healthy d -> sets (set_real s v) d [] [(s, v)].
Proof.
  intros s v d H. destruct (set_real_ok s v d H) as (d' & E & G & A & B). unfold sets. rewrite E, A, B.
  split; [reflexivity|]. split; [exact G|]. repeat split.
  - intros t w [].
  - intros t w [I|[]]. inversion I; subst. destruct (real_symbol_eq_dec t t); congruence.
  - intros t N. destruct (real_symbol_eq_dec t s); [|reflexivity]. subst. destruct N. now left.
Qed.
