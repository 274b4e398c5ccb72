(** Proofs about bit sets. *)
From Coq Require Import List ZArith Bool Lia.
From Verif Require Import CuModel CuSpec CuProof.
Import ListNotations.
Open Scope Z_scope.

Lemma get_testbit f b : bitset_get f b = Z.testbit (f (b / 32)) (b mod 32).
Proof.
  unfold bitset_get. assert (0 <= b mod 32 < 32) by (apply Z.mod_pos_bound; lia).
  change 1 with (Z.ones 1) at 1. rewrite Z.land_ones by lia. change (2 ^ 1) with 2.
  replace (Z.testbit (f (b / 32)) (b mod 32)) with (Z.testbit (Z.shiftr (f (b / 32)) (b mod 32)) 0).
  - rewrite <- Z.bit0_mod. destruct (Z.testbit _ 0); reflexivity.
  - rewrite Z.shiftr_spec by lia. now rewrite Z.add_0_l.
Qed.
Lemma u32_testbit z i : 0 <= i < 32 -> Z.testbit (u32 z) i = Z.testbit z i.
Proof. intros H. unfold u32. apply Z.mod_pow2_bits_low. lia. Qed.
Lemma u32_words z : 0 <= u32 z < 2 ^ 32.
Proof. apply Z.mod_pos_bound. lia. Qed.
Lemma bit_mask i j : 0 <= i < 32 -> 0 <= j < 32 -> Z.testbit (u32 (Z.shiftl 1 i)) j = (i =? j).
Proof.
  intros Hi Hj. rewrite u32_testbit, Z.shiftl_1_l, Z.pow2_bits_eqb by lia. reflexivity.
Qed.
Lemma bounded_bits z n : 0 <= n -> (0 <= z < 2 ^ n <-> 0 <= z /\ forall i, n <= i -> Z.testbit z i = false).
Proof.
  intros Hn. split.
  - intros H. split; [lia|]. intros i Hi. destruct (Z.eq_dec z 0) as [->|N]; [apply Z.bits_0|].
    apply Z.bits_above_log2; [lia|]. enough (Z.log2 z < n) by lia. apply Z.log2_lt_pow2; lia.
  - intros [H0 H]. split; [exact H0|]. destruct (Z.eq_dec z 0) as [->|N]; [apply Z.pow_pos_nonneg; lia|].
    destruct (Z_lt_le_dec z (2 ^ n)) as [|L]; [assumption|]. exfalso.
    assert (n <= Z.log2 z) by (apply Z.log2_le_pow2; lia). specialize (H (Z.log2 z) H1).
    rewrite Z.bit_log2 in H by lia. discriminate.
Qed.
Lemma perform_words f a : words f ->
  match a with AtomicOr _ m => 0 <= m < 2 ^ 32 | AtomicAnd _ m => 0 <= m < 2 ^ 32 | Store _ v => 0 <= v < 2 ^ 32 end -> words (perform f a).
Proof.
  intros H A i. destruct a as [e m|e m|e v]; cbn [perform]; unfold put; destruct (i =? e); try apply H; try exact A.
  - pose proof (H e) as B. apply bounded_bits in A; [|lia]. apply bounded_bits in B; [|lia]. apply bounded_bits; [lia|].
    split; [apply Z.lor_nonneg; lia|]. intros j Hj. rewrite Z.lor_spec, (proj2 A), (proj2 B) by lia. reflexivity.
  - pose proof (H e) as B. apply bounded_bits in A; [|lia]. apply bounded_bits in B; [|lia]. apply bounded_bits; [lia|].
    split; [apply Z.land_nonneg; lia|]. intros j Hj. rewrite Z.land_spec, (proj2 A), (proj2 B) by lia. reflexivity.
Qed.
Lemma set_words f b v : words f -> words (performed f (bitset_set b v)).
Proof.
  intros H. destruct v; cbn [bitset_set performed fold_left]; unfold performed; cbn [fold_left];
  apply perform_words; try exact H; apply u32_words.
Qed.
Lemma set_get f b v c : bitset_get (performed f (bitset_set b v)) c = if b =? c then v else bitset_get f c.
Proof.
  rewrite !get_testbit. assert (Hb : 0 <= b mod 32 < 32) by (apply Z.mod_pos_bound; lia).
  assert (Hc : 0 <= c mod 32 < 32) by (apply Z.mod_pos_bound; lia).
  assert (E : b = 32 * (b / 32) + b mod 32) by (apply Z_div_mod_eq_full).
  assert (E' : c = 32 * (c / 32) + c mod 32) by (apply Z_div_mod_eq_full).
  unfold performed, bitset_set. destruct v; cbn [fold_left perform]; unfold put.
  - destruct (Z.eqb_spec (c / 32) (b / 32)) as [D|D].
    + rewrite D, Z.lor_spec, bit_mask by lia. destruct (Z.eqb_spec b c) as [F|F].
      * subst c. rewrite Z.eqb_refl. apply orb_true_r.
      * rewrite (proj2 (Z.eqb_neq (b mod 32) (c mod 32))) by lia. apply orb_false_r.
    + rewrite (proj2 (Z.eqb_neq b c)) by congruence. reflexivity.
  - destruct (Z.eqb_spec (c / 32) (b / 32)) as [D|D].
    + rewrite D, Z.land_spec, u32_testbit, Z.lnot_spec, bit_mask by lia. destruct (Z.eqb_spec b c) as [F|F].
      * subst c. rewrite Z.eqb_refl. apply andb_false_r.
      * rewrite (proj2 (Z.eqb_neq (b mod 32) (c mod 32))) by lia. apply andb_true_r.
    + rewrite (proj2 (Z.eqb_neq b c)) by congruence. reflexivity.
Qed.
Lemma performed_app f s s' : performed f (s ++ s') = performed (performed f s) s'.
Proof. unfold performed. apply fold_left_app. Qed.
Lemma calls_get sets : forall f c, bitset_get (performed f (calls sets)) c = assigned c sets (bitset_get f c).
Proof.
  induction sets as [|[b v] sets IH]; intros f c; [reflexivity|].
  unfold calls. cbn [flat_map]. fold (calls sets). rewrite performed_app, IH. cbn [assigned fst snd]. now rewrite set_get.
Qed.
Lemma calls_words sets : forall f, words f -> words (performed f (calls sets)).
Proof.
  induction sets as [|[b v] sets IH]; intros f H; [exact H|].
  unfold calls. cbn [flat_map]. fold (calls sets). rewrite performed_app. apply IH, set_words, H.
Qed.
Lemma set_one b v : exists a, bitset_set b v = [a].
Proof. destruct v; cbn; eauto. Qed.
Lemma map_split {A B} (f : A -> B) l : forall p x q, map f l = p ++ x :: q -> exists p' x' q', l = p' ++ x' :: q' /\ p = map f p' /\ x = f x' /\ q = map f q'.
Proof.
  intros p x q E. apply map_eq_app in E. destruct E as (l1 & l2 & -> & <- & E). destruct l2 as [|y l2]; [discriminate|].
  injection E as <- <-. exists l1, y, l2. auto.
Qed.
Lemma calls_interleaved s : forall threads, interleaving (map calls threads) s -> exists order, interleaving threads order /\ s = calls order.
Proof.
  intros threads H. remember (map calls threads) as ts eqn:E. revert threads E.
  induction H as [ts H|l a t r s H IH]; intros threads E.
  - exists []. split; [|reflexivity]. constructor. intros t Ht. subst ts.
    specialize (H (calls t) (in_map _ _ _ Ht)). destruct t as [|[b v] t]; [reflexivity|].
    unfold calls in H. cbn [flat_map fst snd] in H. destruct (set_one b v) as (x & X). rewrite X in H. discriminate.
  - symmetry in E. apply map_split in E. destruct E as (l' & t' & r' & -> & -> & D & ->).
    destruct t' as [|[b v] t']; [discriminate|]. unfold calls in D. cbn [flat_map fst snd] in D. destruct (set_one b v) as (x & X).
    rewrite X in D. cbn in D. injection D as -> D.
    destruct (IH (l' ++ t' :: r')) as (order & O & ->).
    { rewrite map_app. cbn [map]. rewrite D. reflexivity. }
    exists ((b, v) :: order). split; [now constructor|]. unfold calls. cbn [flat_map fst snd]. now rewrite X.
Qed.
Definition untouched (c : Z) (t : list (Z * bool)) := forall x, In x t -> fst x <> c.
Lemma assigned_untouched c t : untouched c t -> forall old, assigned c t old = old.
Proof.
  induction t as [|[b v] t IH]; intros H old; [reflexivity|]. cbn. rewrite (proj2 (Z.eqb_neq b c)) by (apply (H (b, v)); now left).
  apply IH. intros x Hx. apply H. now right.
Qed.
Lemma untouched_order c threads order : interleaving threads order -> (forall t, In t threads -> untouched c t) -> untouched c order.
Proof.
  intros H. induction H as [ts H|l a t r s H IH]; intros U; [intros x []|].
  intros x [<-|Hx].
  - apply (U (a :: t)); [apply in_elt|now left].
  - apply IH; [|exact Hx]. intros u Hu y Hy. apply in_app_iff in Hu. destruct Hu as [Hu|[<-|Hu]].
    + apply (U u); [apply in_app_iff; now left|exact Hy].
    + apply (U (a :: t)); [apply in_elt|now right].
    + apply (U u); [apply in_app_iff; right; now right|exact Hy].
Qed.
Lemma assigned_own c threads order : interleaving threads order -> forall l t r, threads = l ++ t :: r ->
  (forall u, In u (l ++ r) -> untouched c u) -> forall old, assigned c order old = assigned c t old.
Proof.
  intros H. induction H as [ts H|l0 a t0 r0 s H IH]; intros l t r E U old.
  - rewrite (H t); [reflexivity|]. subst ts. apply in_elt.
  - assert (K : (l0 = l /\ a :: t0 = t /\ r0 = r) \/
               (exists m, l = l0 ++ (a :: t0) :: m /\ r0 = m ++ t :: r) \/
               (exists m, r = m ++ (a :: t0) :: r0 /\ l0 = l ++ t :: m)).
    { clear - E. revert l E. induction l0 as [|x l0 IH]; intros [|y l] E; cbn in E; injection E as E1 E2.
      - left. auto.
      - right. left. exists l. subst. auto.
      - right. right. exists l0. subst. auto.
      - subst y. destruct (IH l E2) as [(-> & <- & ->)|[(m & -> & ->)|(m & -> & ->)]]; [left; auto|right; left; exists m; auto|right; right; exists m; auto]. }
    destruct K as [(-> & <- & ->)|[(m & -> & ->)|(m & -> & ->)]].
    + destruct a as [b v]. cbn [assigned]. apply (IH l t0 r eq_refl U).
    + assert (Ua : untouched c (a :: t0)) by (apply U; rewrite <- app_assoc; apply in_elt).
      destruct a as [b v]. cbn [assigned]. rewrite (proj2 (Z.eqb_neq b c)) by (apply (Ua (b, v)); now left).
      apply (IH (l0 ++ t0 :: m) t r).
      * now rewrite <- app_assoc.
      * intros u Hu. rewrite <- app_assoc in Hu. apply in_app_iff in Hu. destruct Hu as [Hu|[<-|Hu]].
        -- apply U. rewrite <- app_assoc. apply in_app_iff. now left.
        -- intros x Hx. apply Ua. now right.
        -- apply U. rewrite <- app_assoc. apply in_app_iff. right. now right.
    + assert (Ua : untouched c (a :: t0)) by (apply U; rewrite app_assoc; apply in_elt).
      destruct a as [b v]. cbn [assigned]. rewrite (proj2 (Z.eqb_neq b c)) by (apply (Ua (b, v)); now left).
      apply (IH l t (m ++ t0 :: r0)).
      * now rewrite <- app_assoc.
      * intros u Hu. rewrite app_assoc in Hu. apply in_app_iff in Hu. destruct Hu as [Hu|[<-|Hu]].
        -- apply U. rewrite app_assoc. apply in_app_iff. now left.
        -- intros x Hx. apply Ua. now right.
        -- apply U. rewrite app_assoc. apply in_app_iff. right. now right.
Qed.
Lemma assigned_same c v t : (forall x, In x t -> fst x = c -> snd x = v) -> (exists x, In x t /\ fst x = c) -> forall old, assigned c t old = v.
Proof.
  induction t as [|[b w] t IH]; intros H (x & Hx & Ex) old; [destruct Hx|]. cbn [assigned].
  destruct (existsb (fun y => fst y =? c) t) eqn:X.
  - apply IH; [intros y Hy; apply H; now right|]. apply existsb_exists in X. destruct X as (y & Hy & Ey). exists y. split; [exact Hy|now apply Z.eqb_eq].
  - assert (U : untouched c t).
    { intros y Hy Ey. assert (T : existsb (fun y => fst y =? c) t = true); [|congruence]. apply existsb_exists. exists y. split; [exact Hy|now apply Z.eqb_eq]. }
    rewrite assigned_untouched by exact U. destruct Hx as [<-|Hx].
    + cbn in Ex. subst b. rewrite Z.eqb_refl. apply (H (c, w)); [now left|reflexivity].
    + exfalso. apply (U x Hx Ex).
Qed.
Lemma order_in {A} (threads : list (list A)) order : interleaving threads order -> forall x, In x order <-> exists t, In t threads /\ In x t.
Proof.
  intros H. induction H as [ts H|l a t r s H IH]; intros x.
  - split; [intros []|]. intros (t & Ht & Hx). rewrite (H t Ht) in Hx. destruct Hx.
  - split.
    + intros [<-|Hx]; [exists (a :: t); split; [apply in_elt|now left]|]. apply IH in Hx. destruct Hx as (u & Hu & Hx).
      apply in_app_iff in Hu. destruct Hu as [Hu|[<-|Hu]].
      * exists u. split; [apply in_app_iff; now left|exact Hx].
      * exists (a :: t). split; [apply in_elt|now right].
      * exists u. split; [apply in_app_iff; right; now right|exact Hx].
    + intros (u & Hu & Hx). apply in_app_iff in Hu. destruct Hu as [Hu|[<-|Hu]].
      * right. apply IH. exists u. split; [apply in_app_iff; now left|exact Hx].
      * destruct Hx as [<-|Hx]; [now left|]. right. apply IH. exists t. split; [apply in_elt|exact Hx].
      * right. apply IH. exists u. split; [apply in_app_iff; right; now right|exact Hx].
Qed.
Lemma bitset_threads threads f s : interleaving (map calls threads) s ->
  (forall c, exists order, interleaving threads order /\ bitset_get (performed f s) c = assigned c order (bitset_get f c)) /\
  (forall c l t r, threads = l ++ t :: r -> (forall u x, In u (l ++ r) -> In x u -> fst x <> c) ->
     bitset_get (performed f s) c = assigned c t (bitset_get f c)) /\
  (forall c v, (forall t x, In t threads -> In x t -> fst x = c -> snd x = v) ->
     (exists t x, In t threads /\ In x t /\ fst x = c) -> bitset_get (performed f s) c = v).
Proof.
  intros H. destruct (calls_interleaved s threads H) as (order & O & ->). split; [|split].
  - intros c. exists order. split; [exact O|apply calls_get].
  - intros c l t r E U. rewrite calls_get. apply (assigned_own c threads order O l t r E). intros u Hu x Hx. now apply (U u x).
  - intros c v V (t & x & Ht & Hx & Ex). rewrite calls_get. apply assigned_same.
    + intros y Hy Ey. apply (order_in threads order O) in Hy. destruct Hy as (u & Hu & Hy). now apply (V u y).
    + exists x. split; [|exact Ex]. apply (order_in threads order O). eauto.
Qed.
Lemma element_count n : 0 <= n -> n + 32 < 2 ^ 64 -> u64 (u64 (n + 32) - 1) / 32 = (n + 31) / 32.
Proof.
  intros H1 H2. unfold u64. rewrite (Z.mod_small (n + 32)) by lia. rewrite Z.mod_small by lia. f_equal. lia.
Qed.
Lemma set_all_get f k : forall n c, 0 <= c / 32 < n ->
  bitset_get (performed f (map (fun i => Store i k) (zrange n))) c = Z.testbit k (c mod 32).
Proof.
  intros n c. rewrite get_testbit. revert n.
  apply (zrange_ind (fun n => 0 <= c / 32 < n -> Z.testbit (performed f (map (fun i => Store i k) (zrange n)) (c / 32)) (c mod 32) = Z.testbit k (c mod 32))).
  - intros n Hn H. lia.
  - intros n Hn IH H. rewrite zrange_succ, map_app, performed_app by lia. cbn [map]. unfold performed at 1. cbn [fold_left perform].
    unfold put. destruct (Z.eqb_spec (c / 32) n) as [E|E]; [reflexivity|]. apply IH. lia.
Qed.
Lemma bitset_all f n v c : 0 <= c < n -> n + 32 < 2 ^ 64 -> bitset_get (performed f (bitset_set_all n v)) c = v.
Proof.
  intros H1 H2. unfold bitset_set_all. rewrite element_count by lia.
  assert (M : 0 <= c mod 32 < 32) by (apply Z.mod_pos_bound; lia).
  assert (D : 0 <= c / 32 < (n + 31) / 32).
  { split; [apply Z.div_pos; lia|]. enough (c / 32 + 1 <= (n + 31) / 32) by lia. apply Z.div_le_lower_bound; [lia|].
    pose proof (Z_div_mod_eq_full c 32). lia. }
  rewrite (set_all_get f) by exact D. destruct v; [|apply Z.bits_0].
  rewrite u32_testbit by exact M. now apply Z.bits_m1.
Qed.
Lemma bitset_room_from stale contents n : 0 <= n -> n <= stale -> stale + 32 < 2 ^ 64 -> let s := bitset_new stale contents n in
  (forall b v a, 0 <= b < n -> In a (bitset_set b v) -> 0 <= accessed a < size s) /\
  (forall v a, In a (bitset_set_all n v) -> 0 <= accessed a < size s) /\
  (forall b, 0 <= b < n -> 0 <= b / 32 < size s).
Proof.
  intros H0 H1 H2 s. assert (R : forall b, 0 <= b < n -> 0 <= b / 32 < size s).
  { intros b Hb. cbn [s size bitset_new]. rewrite element_count by lia. split; [apply Z.div_pos; lia|].
    enough (b / 32 + 1 <= (stale + 31) / 32) by lia. apply Z.div_le_lower_bound; [lia|]. pose proof (Z_div_mod_eq_full b 32).
    pose proof (Z.mod_pos_bound b 32). lia. }
  split; [|split; [|exact R]].
  - intros b v a Hb Ha. specialize (R b Hb). destruct v; destruct Ha as [<-|[]]; exact R.
  - intros v a Ha. unfold bitset_set_all in Ha. rewrite element_count in Ha by lia. apply in_map_iff in Ha. destruct Ha as (i & <- & Hi).
    apply In_zrange in Hi. cbn [accessed s size bitset_new]. rewrite element_count by lia.
    pose proof (Z.div_le_mono (n + 31) (stale + 31) 32 ltac:(lia) ltac:(lia)). lia.
Qed.
