(** Proofs about the linear congruential generators. *)
From Coq Require Import List ZArith Bool Lia Znumtheory Zpow_facts.
From Verif Require Import CuModel CuProof.
Import ListNotations.
Open Scope Z_scope.

Definition p : Z := 2147483647.
Definition factors : list Z := [2; 3; 7; 11; 31; 151; 331].
Lemma prime_check q : 1 < q -> forallb (fun n => Z.gcd n q =? 1) (zfrom 1 (q - 1)) = true -> prime q.
Proof.
  intros Hq H. apply prime_intro; [exact Hq|]. intros n Hn. rewrite forallb_forall in H.
  apply Zgcd_1_rel_prime. apply Z.eqb_eq. apply H. apply In_zfrom. lia.
Qed.
Lemma factors_prime q : In q factors -> prime q.
Proof.
  intros H. assert (C : forallb (fun q => (1 <? q) && forallb (fun n => Z.gcd n q =? 1) (zfrom 1 (q - 1))) factors = true) by (vm_compute; reflexivity).
  rewrite forallb_forall in C. specialize (C q H). apply andb_prop in C. destruct C as [C1 C2]. apply Z.ltb_lt in C1. now apply prime_check.
Qed.
Lemma cofactor h : 1 < h -> (h | p - 1) -> exists q, In q factors /\ (q | h).
Proof.
  intros H D. destruct (existsb (fun q => Z.eqb (h mod q) 0) factors) eqn:E.
  - apply existsb_exists in E. destruct E as (q & Hq & Hm). exists q. split; [exact Hq|].
    apply Z.eqb_eq in Hm. apply Z.mod_divide; [|exact Hm]. pose proof (prime_ge_2 q (factors_prime q Hq)). lia.
  - exfalso. assert (K : forall q, In q factors -> rel_prime h q).
    { intros q Hq. apply rel_prime_sym, prime_rel_prime; [now apply factors_prime|]. intros X.
      assert (existsb (fun q => Z.eqb (h mod q) 0) factors = true); [|congruence]. apply existsb_exists. exists q. split; [exact Hq|].
      apply Z.eqb_eq. apply Z.mod_divide; [|exact X]. pose proof (prime_ge_2 q (factors_prime q Hq)). lia. }
    assert (G : forall q m, In q factors -> (h | q * m) -> (h | m)) by (intros q m Hq X; apply (Gauss h q m X), K, Hq).
    change (p - 1) with (2 * (3 * (3 * (7 * (11 * (31 * (151 * (331 * 1)))))))) in D.
    apply G in D; [|cbn; tauto]. apply G in D; [|cbn; tauto]. apply G in D; [|cbn; tauto]. apply G in D; [|cbn; tauto].
    apply G in D; [|cbn; tauto]. apply G in D; [|cbn; tauto]. apply G in D; [|cbn; tauto]. apply G in D; [|cbn; tauto].
    apply Z.divide_1_r in D. lia.
Qed.
Section Generator.
Variable a : Z.
Hypothesis a_range : 0 < a < 2 ^ 16.
Hypothesis a_full : Zpow_mod a (p - 1) p = 1.
Hypothesis a_part : forallb (fun q => negb (Zpow_mod a ((p - 1) / q) p =? 1)) factors = true.
Notation "x == y" := (x mod p = y mod p) (at level 70).
Lemma p_pos : 1 < p. Proof. reflexivity. Qed.
Lemma one_mod : 1 mod p = 1. Proof. reflexivity. Qed.
Lemma full : a ^ (p - 1) mod p = 1.
Proof. rewrite <- Zpow_mod_correct; [exact a_full|discriminate]. Qed.
Lemma part q : In q factors -> a ^ ((p - 1) / q) mod p <> 1.
Proof.
  intros H E. rewrite forallb_forall in a_part. specialize (a_part q H).
  rewrite Zpow_mod_correct, E in a_part by discriminate. discriminate.
Qed.
Lemma mul_eq x y x' y' : x == x' -> y == y' -> x * y == x' * y'.
Proof. intros H1 H2. rewrite (Z.mul_mod x y), H1, H2, <- Z.mul_mod by discriminate. reflexivity. Qed.
Lemma pow_multiple d k : 0 <= d -> 0 <= k -> a ^ d mod p = 1 -> a ^ (d * k) mod p = 1.
Proof.
  intros Hd Hk H. rewrite Z.pow_mul_r by lia. rewrite Zpower_mod by reflexivity.
  rewrite H, Z.pow_1_l by lia. reflexivity.
Qed.
Lemma pow_sub d e : 0 <= d <= e -> a ^ d mod p = 1 -> a ^ e mod p = 1 -> a ^ (e - d) mod p = 1.
Proof.
  intros H D E. replace e with (d + (e - d)) in E by lia. rewrite Z.pow_add_r, Z.mul_mod, D, Z.mul_1_l, Z.mod_mod in E by (try lia; discriminate).
  exact E.
Qed.
Lemma pow_gcd n : forall d e, 0 <= d <= Z.of_nat n -> 0 <= e -> a ^ d mod p = 1 -> a ^ e mod p = 1 -> a ^ (Z.gcd d e) mod p = 1.
Proof.
  induction n as [|n IH]; intros d e Hd He D E.
  - replace d with 0 by lia. rewrite Z.gcd_0_l, Z.abs_eq by lia. exact E.
  - destruct (Z.eq_dec d 0) as [->|N]; [rewrite Z.gcd_0_l, Z.abs_eq by lia; exact E|].
    rewrite <- Z.gcd_mod by lia. assert (M : 0 <= e mod d < d) by (apply Z.mod_pos_bound; lia).
    apply IH; try lia.
    replace (e mod d) with (e - d * (e / d)) by (pose proof (Z_div_mod_eq_full e d); lia).
    assert (0 <= e / d) by (apply Z.div_pos; lia).
    apply pow_sub; [|apply pow_multiple; try lia; exact D|exact E]. pose proof (Z_div_mod_eq_full e d). nia.
Qed.
Lemma pow_period k z : 0 <= k -> 0 <= z -> a ^ z mod p = 1 -> a ^ (k + z) == a ^ k.
Proof. intros Hk Hz H. rewrite Z.pow_add_r, Z.mul_mod, H, Z.mul_1_r, Z.mod_mod by (assumption || discriminate). reflexivity. Qed.
Lemma order e : 0 < e < p - 1 -> a ^ e mod p <> 1.
Proof.
  intros He E. pose proof full as F.
  assert (G : a ^ (Z.gcd e (p - 1)) mod p = 1) by (apply (pow_gcd (Z.to_nat e)); try lia; assumption).
  pose proof (Z.gcd_divide_l e (p - 1)) as Dl. pose proof (Z.gcd_divide_r e (p - 1)) as Dr.
  set (g := Z.gcd e (p - 1)) in *. assert (Gp : 0 < g) by (pose proof (Z.gcd_nonneg e (p - 1)); assert (g <> 0) by (intros X; apply Z.gcd_eq_0_l in X; lia); lia).
  apply Z.divide_pos_le in Dl; [|lia]. destruct Dr as (h & Eh).
  assert (Hh : 1 < h) by nia. destruct (cofactor h Hh) as (q & Hq & k & Ek); [exists g; lia|].
  pose proof (prime_ge_2 q (factors_prime q Hq)). apply (part q Hq). rewrite Eh, Ek.
  replace (k * q * g) with (g * k * q) by ring. rewrite Z.div_mul by lia. apply pow_multiple; [lia|nia|exact G].
Qed.
Lemma pow_inj i j : 0 <= i < p - 1 -> 0 <= j < p - 1 -> a ^ i == a ^ j -> i = j.
Proof.
  assert (K : forall i j, 0 <= i <= j -> j < p - 1 -> a ^ i == a ^ j -> i = j).
  { clear i j. intros i j Hi Hj E. destruct (Z.eq_dec i j) as [|N]; [assumption|]. exfalso. apply (order (j - i)); [lia|].
    assert (X : a ^ i * a ^ (p - 1 - i) == a ^ j * a ^ (p - 1 - i)) by (apply mul_eq; [exact E|reflexivity]).
    rewrite <- !Z.pow_add_r in X by lia. replace (i + (p - 1 - i)) with (p - 1) in X by lia.
    replace (j + (p - 1 - i)) with ((j - i) + (p - 1)) in X by lia.
    rewrite (Z.pow_add_r a (j - i)), Z.mul_mod, full, Z.mul_1_r, Z.mod_mod in X by (try lia; discriminate). now symmetry. }
  intros Hi Hj E. destruct (Z_le_gt_dec i j); [apply K; try lia; exact E|symmetry; apply K; try lia; now symmetry].
Qed.
Lemma pow_nonzero i : 0 <= i < p - 1 -> a ^ i mod p <> 0.
Proof.
  intros Hi E. pose proof full as F. replace (p - 1) with (i + (p - 1 - i)) in F by lia.
  rewrite Z.pow_add_r, Z.mul_mod, E in F by (try lia; discriminate). discriminate.
Qed.
Lemma NoDup_zrange n : NoDup (zrange n).
Proof. unfold zrange. apply FinFun.Injective_map_NoDup; [intros x y; lia|apply seq_NoDup]. Qed.
Lemma NoDup_map_in {A B} (f : A -> B) l : (forall x y, In x l -> In y l -> f x = f y -> x = y) -> NoDup l -> NoDup (map f l).
Proof.
  induction l as [|x l IH]; intros H N; cbn; constructor; inversion N; subst.
  - intros X. apply in_map_iff in X. destruct X as (y & E & Hy). assert (x = y) by (apply H; [now left|now right|now symmetry]). subst. contradiction.
  - apply IH; [|assumption]. intros; apply H; try assumption; now right.
Qed.
Lemma powers_all x : 0 < x < p -> exists e, 0 <= e < p - 1 /\ a ^ e mod p = x.
Proof.
  intros Hx. assert (I : incl (zfrom 1 (p - 1)) (map (fun e => a ^ e mod p) (zrange (p - 1)))).
  { apply NoDup_length_incl.
    - apply NoDup_map_in; [|apply NoDup_zrange]. intros i j Hi Hj. apply In_zrange in Hi, Hj. now apply pow_inj.
    - unfold zfrom. rewrite !map_length. apply Nat.le_refl.
    - intros y Hy. apply in_map_iff in Hy. destruct Hy as (e & <- & He). apply In_zrange in He. apply In_zfrom.
      pose proof (pow_nonzero e He). pose proof (Z.mod_pos_bound (a ^ e) p). pose proof p_pos. lia. }
  specialize (I x). rewrite In_zfrom, in_map_iff in I. destruct I as (e & E & He); [lia|]. apply In_zrange in He. eauto.
Qed.
(** The generator. *)
Variable width : Z.
Hypothesis width_range : 47 <= width.
Notation next := (lcg width a 0 p).
Lemma no_overflow x : 0 <= x < p -> 0 <= a * x + 0 < 2 ^ width.
Proof.
  intros Hx. split; [nia|]. apply Z.lt_le_trans with (2 ^ 47); [|apply Z.pow_le_mono_r; lia].
  assert (a * x < 2 ^ 16 * p) by nia. change (2 ^ 47) with (2 ^ 16 * 2 ^ 31). unfold p in *. lia.
Qed.
Lemma next_eq x : 0 <= x < p -> next x = (a * x) mod p.
Proof. intros Hx. unfold lcg. rewrite (Z.mod_small (a * x + 0) (2 ^ width)) by (now apply no_overflow). now rewrite Z.add_0_r. Qed.
Lemma next_nonzero x : 0 < x < p -> 0 < next x < p.
Proof.
  intros Hx. rewrite next_eq by lia. destruct (powers_all x Hx) as (e & He & <-).
  rewrite Zmult_mod_idemp_r. rewrite <- Z.pow_succ_r by lia.
  pose proof (Z.mod_pos_bound (a ^ Z.succ e) p). pose proof p_pos.
  enough (a ^ Z.succ e mod p <> 0) by lia. intros Z0. destruct (Z.eq_dec (Z.succ e) (p - 1)) as [E|N].
  - rewrite E, full in Z0. discriminate.
  - apply (pow_nonzero (Z.succ e)); [lia|exact Z0].
Qed.
Lemma draws_eq n : forall x, 0 <= x < p -> draws next n x = map (fun k => (a ^ (k + 1) * x) mod p) (zrange (Z.of_nat n)).
Proof.
  induction n as [|n IH]; intros x Hx; [reflexivity|]. cbn [draws]. rewrite Nat2Z.inj_succ. replace (Z.succ (Z.of_nat n)) with (1 + Z.of_nat n) by lia.
  rewrite zrange_app, map_app by lia. change (zrange 1) with [0]. cbn [map app]. rewrite (next_eq x Hx).
  f_equal; [f_equal; change (0 + 1) with 1; now rewrite Z.pow_1_r|]. rewrite IH.
  - unfold zfrom. rewrite map_map. apply map_ext_in. intros k Hk. apply In_zrange in Hk.
    rewrite Zmult_mod_idemp_r. f_equal. replace (1 + k + 1) with (k + 1 + 1) by ring. rewrite (Z.pow_add_r a (k + 1)), Z.pow_1_r by lia. ring.
  - apply Z.mod_pos_bound. reflexivity.
Qed.
Lemma iter_eq n : forall x, 0 <= x < p -> Nat.iter n next x = (a ^ (Z.of_nat n) * x) mod p.
Proof.
  induction n as [|n IH]; intros x Hx.
  - change (Nat.iter 0 next x) with x. rewrite Z.pow_0_r, Z.mul_1_l. symmetry. now apply Z.mod_small.
  - change (Nat.iter (S n) next x) with (next (Nat.iter n next x)). rewrite IH by assumption.
    rewrite next_eq by (apply Z.mod_pos_bound; reflexivity). rewrite Zmult_mod_idemp_r. f_equal.
    rewrite Nat2Z.inj_succ, Z.pow_succ_r by lia. ring.
Qed.
Lemma full_period x : 0 < x < p -> let l := draws next (Z.to_nat (p - 1)) x in
  NoDup l /\ (forall y, In y l <-> 0 < y < p) /\ Nat.iter (Z.to_nat (p - 1)) next x = x.
Proof.
  intros Hx l. destruct (powers_all x Hx) as (e & He & Ex).
  assert (L : l = map (fun k => (a ^ (k + 1) * x) mod p) (zrange (p - 1))) by (unfold l; rewrite draws_eq by lia; rewrite Z2Nat.id by (unfold p; lia); reflexivity).
  assert (N : NoDup l).
  { rewrite L. apply NoDup_map_in; [|apply NoDup_zrange]. intros i j Hi Hj E. apply In_zrange in Hi, Hj. apply pow_inj; try assumption.
    assert (X : a ^ (i + 1) * x * a ^ (p - 1 - e + (p - 2)) == a ^ (j + 1) * x * a ^ (p - 1 - e + (p - 2))) by (apply mul_eq; [exact E|reflexivity]).
    assert (Y : forall i, 0 <= i -> a ^ (i + 1) * x * a ^ (p - 1 - e + (p - 2)) == a ^ i).
    { intros k Hk. rewrite <- Ex. rewrite <- Z.mul_assoc. rewrite (Z.mul_mod (a ^ (k + 1))), (Z.mul_mod (a ^ e mod p)), Z.mod_mod by discriminate.
      rewrite <- (Z.mul_mod (a ^ e)), <- Z.mul_mod by discriminate. rewrite <- !Z.pow_add_r by (unfold p in *; lia).
      replace (k + 1 + (e + (p - 1 - e + (p - 2)))) with (k + (p - 1) * 2) by ring. apply pow_period; [exact Hk|discriminate|]. apply pow_multiple; [discriminate|discriminate|exact full]. }
    rewrite !Y in X by lia. exact X. }
  split; [exact N|]. split.
  - assert (I : incl l (zfrom 1 (p - 1))).
    { intros y Hy. unfold l in Hy. apply In_zfrom. enough (0 < y < p) by lia. clear - Hx Hy a_range a_full a_part width_range.
      revert x Hx Hy. induction (Z.to_nat (p - 1)) as [|n IH]; intros x Hx Hy; [destruct Hy|]. cbn [draws] in Hy. destruct Hy as [<-|Hy].
      - now apply next_nonzero.
      - apply (IH (next x)); [now apply next_nonzero|exact Hy]. }
    assert (J : incl (zfrom 1 (p - 1)) l).
    { apply NoDup_length_incl; [exact N| |exact I]. rewrite L. unfold zfrom. rewrite !map_length. apply Nat.le_refl. }
    intros y. split.
    + intros Hy. apply I in Hy. rewrite In_zfrom in Hy. lia.
    + intros Hy. apply J. rewrite In_zfrom. lia.
  - rewrite iter_eq by lia. rewrite Z2Nat.id by (unfold p; lia). rewrite Z.mul_mod, full, Z.mul_1_l, Z.mod_mod by discriminate. apply Z.mod_small. lia.
Qed.
Lemma always_range n x : 0 < x < p -> forall y, In y (draws next n x) -> 0 < y < p.
Proof.
  revert x. induction n as [|n IH]; intros x Hx y Hy; [destruct Hy|]. cbn [draws] in Hy. destruct Hy as [<-|Hy].
  - now apply next_nonzero.
  - apply (IH (next x)); [now apply next_nonzero|exact Hy].
Qed.
Lemma generator : 
  (forall x, 0 < x < p -> a * x + 0 < 2 ^ width /\ next x = (a * x) mod p) /\
  (forall x n y, 0 < x < p -> In y (draws next n x) -> 0 < y < p) /\
  (forall x, 0 < x < p -> NoDup (draws next (Z.to_nat (p - 1)) x) /\ (forall y, 0 < y < p -> In y (draws next (Z.to_nat (p - 1)) x)) /\
     Nat.iter (Z.to_nat (p - 1)) next x = x).
Proof.
  split; [|split].
  - intros x Hx. split; [apply no_overflow; lia|apply next_eq; lia].
  - intros x n y Hx Hy. apply (always_range n x Hx y Hy).
  - intros x Hx. destruct (full_period x Hx) as (A & B & C). split; [exact A|]. split; [|exact C]. intros y Hy. now apply B.
Qed.
End Generator.
