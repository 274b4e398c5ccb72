(** Proofs about the script that plots files. *)
From Coq Require Import String Ascii List ZArith QArith Qcanon Bool Lia.
From Verif Require Import QcBase PyBase StrBase PdnModel PdnSpec.
Import ListNotations.
Open Scope string_scope.
Open Scope list_scope.

Lemma space_white : forall c, is_space c = true <-> white c.
Proof.
  intros c. unfold is_space, white. generalize (nat_of_ascii c). intros n.
  rewrite orb_true_iff, !andb_true_iff, !PeanoNat.Nat.leb_le. cbn [In]. lia.
Qed.
Lemma space_not_white : forall c, is_space c = false <-> ~ white c.
Proof. intros c. rewrite <- space_white. destruct (is_space c); split; congruence. Qed.
Lemma sapp_assoc : forall a b c, append (append a b) c = append a (append b c).
Proof. induction a; intros; cbn; congruence. Qed.
Lemma words_blank : forall b s, blank b -> words "" (append b s) = words "" s.
Proof.
  induction b as [|c b IH]; intros s H; [reflexivity|]. destruct H as [H1 H2]. cbn.
  rewrite (proj2 (space_white c) H1). cbn. now apply IH.
Qed.
Lemma words_word : forall w p s, every (fun c => ~ white c) w -> words p (append w s) = words (append p w) s.
Proof.
  induction w as [|c w IH]; intros p s H; cbn.
  - f_equal. induction p; cbn; congruence.
  - destruct H as [H1 H2]. rewrite (proj2 (space_not_white c) H1), IH by exact H2. f_equal. now rewrite sapp_assoc.
Qed.
Lemma flush_word : forall w l, w <> "" -> flush w l = w :: l.
Proof. intros [|c w] l H; [congruence|reflexivity]. Qed.
Lemma words_end : forall w b, w <> "" -> blank b -> words w b = [w].
Proof.
  intros w [|c b] N H; cbn; [now apply flush_word|]. destruct H as [H1 H2].
  rewrite (proj2 (space_white c) H1), flush_word by exact N. f_equal.
  generalize (words_blank b "" H2). replace (append b "") with b; [intros ->; reflexivity|].
  clear. induction b; cbn; congruence.
Qed.
Lemma words_two : forall b1 w1 b2 w2 b3, blank b1 -> word w1 -> blank b2 -> b2 <> "" -> word w2 -> blank b3 ->
  words "" (append b1 (append w1 (append b2 (append w2 b3)))) = [w1; w2].
Proof.
  intros b1 w1 b2 w2 b3 B1 [N1 W1] B2 N2 [N3 W2] B3. rewrite words_blank by exact B1. rewrite words_word by exact W1. cbn [append].
  destruct b2 as [|c b2]; [congruence|]. destruct B2 as [C B2]. cbn. rewrite (proj2 (space_white c) C), flush_word by exact N1. f_equal.
  rewrite words_blank by exact B2. rewrite words_word by exact W2. cbn [append]. now apply words_end.
Qed.
Lemma white_hash : ~ white "#".
Proof. intros H. cbv in H. intuition discriminate. Qed.
Lemma point_first : forall b1 w1 r, blank b1 -> w1 <> "" -> (forall s, w1 <> String "#" s) ->
  exists c s, append b1 (append w1 r) = String c s /\ Ascii.eqb c "#" = false.
Proof.
  intros [|c b] w1 r B N H.
  - destruct w1 as [|c w]; [congruence|]. exists c, (append w r). split; [reflexivity|]. apply Ascii.eqb_neq. intros ->. now apply (H w).
  - exists c, (append b (append w1 r)). split; [reflexivity|]. apply Ascii.eqb_neq. intros ->. destruct B as [B _]. now apply white_hash.
Qed.
Lemma read_says : forall float line o, says float line o -> forall xs ys,
  read_line float line xs ys = match o with None => Ok (xs, ys) | Some (x, y) => if left_out x then Ok (xs, ys) else Ok (xs ++ [x], ys ++ [y]) end.
Proof.
  intros float line o H xs ys. destruct H as [s|b1 w1 b2 w2 b3 x y B1 W1 B2 N W2 B3 H F1 F2]; [reflexivity|].
  pose proof (words_two b1 w1 b2 w2 b3 B1 W1 B2 N W2 B3) as W.
  destruct (point_first b1 w1 (append b2 (append w2 b3)) B1 (proj1 W1) H) as (c & s & E & C).
  rewrite E in W |- *. cbn [read_line]. rewrite C, W. cbn. rewrite F1, F2. reflexivity.
Qed.
Lemma left_out_iff : forall x, left_out x = true <-> (x = 0 \/ qz 1000 < x)%Qc.
Proof. intros x. unfold left_out. rewrite orb_true_iff, qeqb_spec, qltb_spec. reflexivity. Qed.
Lemma read_all : forall float lines os, Forall2 (says float) lines os -> forall k, shown (points os) k -> forall xs ys,
  read_lines float lines xs ys = Ok (xs ++ map fst k, ys ++ map snd k).
Proof.
  induction 1 as [|line o lines os H F IH]; intros k K xs ys.
  - inversion K; subst. cbn. now rewrite !app_nil_r.
  - cbn [read_lines]. rewrite (read_says float line o H). destruct o as [[x y]|].
    + cbn [points] in K. inversion K as [|x' y' l k' N L K'|x' y' l k' O K']; subst.
      * destruct (left_out x) eqn:E; [apply left_out_iff in E; destruct E as [E|E]; [congruence|exfalso; apply (Qclt_not_le _ _ E L)]|].
        cbn. rewrite (IH k' K'). now rewrite <- !app_assoc.
      * rewrite (proj2 (left_out_iff x) O). cbn. now apply IH.
    + cbn. now apply IH.
Qed.
Lemma blank_read : forall float line xs ys, blank line -> exists e, read_line float line xs ys = Err e.
Proof.
  intros float [|c s] xs ys B; [eexists; reflexivity|]. exists ValueError. cbn [read_line].
  destruct (Ascii.eqb c "#") eqn:E; [apply Ascii.eqb_eq in E; subst; destruct B as [B _]; now apply white_hash in B|].
  generalize (words_blank (String c s) "" B). replace (append (String c s) "") with (String c s); [intros ->; reflexivity|].
  clear. cbn. f_equal. induction s; cbn; congruence.
Qed.
