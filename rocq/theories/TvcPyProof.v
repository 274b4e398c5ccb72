(** Proofs about the script that computes transverse velocity correlation functions. *)
From Coq Require Import String Ascii List ZArith Bool Reals Lra Lia Sorting.Sorted.
From Verif Require Import PyBase StrBase VecModel VecSpec VtfModel VtfSpec VtfPyModel FourModel TvcModel TvcSpec TvcTextProof TvcProof TvcRunProof.
Import ListNotations.
Open Scope list_scope.
Open Scope R_scope.

(** * Reading *)
Definition increasing (l : list (R * cvec)) : Prop := StronglySorted Rlt (map fst l).
Lemma add_point_new t v : forall l, ~ In t (map fst l) -> add_point t v l = l ++ [(t, v)].
Proof.
  induction l as [|[t' v'] l IH]; intros N; [reflexivity|]. cbn [add_point app map fst In] in *. destruct (Req_EM_T t t') as [->|]; [tauto|]. rewrite IH by tauto. reflexivity.
Qed.
Lemma insert_last p : forall l, (forall q, In q l -> fst q < fst p) -> insert_sorted p l = l ++ [p].
Proof.
  induction l as [|q l IH]; intros H; [reflexivity|]. cbn [insert_sorted app]. pose proof (H q (or_introl eq_refl)). destruct (Rlt_dec (fst p) (fst q)); [lra|].
  rewrite IH by (intros; apply H; right; assumption). reflexivity.
Qed.
Lemma increasing_app l p r : increasing (l ++ p :: r) -> increasing ((l ++ [p]) ++ r) /\ forall q, In q l -> fst q < fst p.
Proof.
  intros H. split; [rewrite <- app_assoc; exact H|]. unfold increasing in H. induction l as [|q l IH]; intros q' I; [destruct I|]. cbn [app map fst] in H. inversion H as [|? ? A B]. subst.
  destruct I as [<-|I]; [|apply IH; assumption]. rewrite Forall_forall in B. apply B. rewrite map_app. apply in_app_iff. right. left. reflexivity.
Qed.
Lemma sort_id : forall l acc, increasing (acc ++ l) -> fold_left (fun l p => insert_sorted p l) l acc = acc ++ l.
Proof.
  induction l as [|p l IH]; intros acc H; [now rewrite app_nil_r|]. cbn [fold_left]. destruct (increasing_app _ _ _ H) as (A & B). rewrite insert_last by exact B. rewrite IH by exact A.
  rewrite <- app_assoc. reflexivity.
Qed.
Section Files.
Variables (F : Type) (value : F -> R) (show : F -> string) (read : string -> option F).
Hypothesis P : prints show read.
Definition item (k : vec) (s : F * (F * F * F * F * F * F)) : R * cvec := (time_of F value s, part_across k (velocity_of F value s)).
Lemma py_samples_read k : k <> Vec 0 0 0 -> forall l data, increasing (data ++ map (item k) l) ->
  py_samples F value read k (map (fun l => l ++ String newline "")%string (map (sample_line F show) l)) data = Ok (data ++ map (item k) l).
Proof.
  intros N. induction l as [|[t [[[[[a b] c] d] e] f]] l IH]; intros data H; [cbn [map py_samples]; now rewrite app_nil_r|]. cbn [map py_samples]. unfold sample_line at 1.
  rewrite words_tabs by (intros w W; apply (In_show F show read P) in W; exact W). rewrite (floats_show F value show read P). cbn [bind map].
  rewrite (velocity_components F value a b c d e f t), py_across by exact N. cbn [bind]. cbn [map] in H. destruct (increasing_app _ _ _ H) as (A & B).
  change (value t, part_across k (velocity_of F value (t, (a, b, c, d, e, f)))) with (item k (t, (a, b, c, d, e, f))).
  rewrite add_point_new.
  - change (value t) with (fst (item k (t, (a, b, c, d, e, f)))) at 1.
    change (fst (item k (t, (a, b, c, d, e, f))), part_across k (velocity_of F value (t, (a, b, c, d, e, f)))) with (item k (t, (a, b, c, d, e, f))).
    rewrite IH by exact A. rewrite <- app_assoc. reflexivity.
  - intros I. apply in_map_iff in I. destruct I as (q & E & I). apply B in I. cbn [fst item] in I. change (time_of F value (t, (a, b, c, d, e, f))) with (value t) in I. lra.
Qed.
Lemma process_read k_n k l : k <> Vec 0 0 0 -> increasing (map (item k) l) ->
  processFile F value read (saveFourierTransformedVelocities F show k_n l) k = Ok (map (item k) l).
Proof.
  intros N H. unfold processFile. rewrite (file_keep_lines F value show read P). cbn [map tl]. rewrite py_samples_read by assumption. cbn [bind app].
  f_equal. apply (sort_id (map (item k) l) []). exact H.
Qed.
End Files.

(** * Sums *)
Lemma cadd_assoc a b c : cadd (cadd a b) c = cadd a (cadd b c).
Proof. unfold cadd. f_equal; cbn [re im]; ring. Qed.
Lemma cadd_0_l a : cadd (cR 0) a = a.
Proof. destruct a as [a1 a2]. unfold cadd, cR. cbn [re im]. f_equal; ring. Qed.
Lemma cadd_0_r a : cadd a (cR 0) = a.
Proof. destruct a as [a1 a2]. unfold cadd, cR. cbn [re im]. f_equal; ring. Qed.
Definition csum (l : list cplx) : cplx := fold_right cadd (cR 0) l.
Lemma csum_app a b : csum (a ++ b) = cadd (csum a) (csum b).
Proof. induction a as [|x a IH]; cbn [app csum fold_right]; [now rewrite cadd_0_l|]. fold (csum (a ++ b)). rewrite IH. rewrite cadd_assoc. reflexivity. Qed.
Definition dots (s : nat) (items : list (R * cvec)) : list cplx := map (fun p => cvdot (snd (fst p)) (snd (snd p))) (lag_pairs s items).
Lemma dots_length s items : length (dots s items) = (length items - s)%nat.
Proof. unfold dots. rewrite map_length. apply lag_pairs_length. Qed.
Lemma dots_short s items : (length items <= s)%nat -> dots s items = [].
Proof. intros H. apply length_zero_iff_nil. rewrite dots_length. lia. Qed.
Lemma py_sum_from items s : forall n key sum_ c d, (length items - key <= n)%nat ->
  py_sum items s n key sum_ c d
  = (cadd sum_ (csum (map (fun p => cvdot (snd (fst p)) (snd (snd p))) (combine (skipn (key + s) items) (skipn key items)))), (c + (length items - (key + s)))%nat,
     match d with Some d => Some d | None => if (key + s <? length items)%nat then Some (fst (nth (key + s) items (0, CVec (cR 0) (cR 0) (cR 0))) - fst (nth key items (0, CVec (cR 0) (cR 0) (cR 0)))) else None end).
Proof.
  induction n as [|n IH]; intros key sum_ c d H; cbn [py_sum].
  - rewrite (skipn_all2 items (n := key)) by lia. rewrite combine_nil. cbn [map csum fold_right]. rewrite cadd_0_r. destruct (Nat.ltb_spec (key + s) (length items)); [lia|].
    replace (c + (length items - (key + s)))%nat with c by lia. destruct d; reflexivity.
  - destruct (Nat.leb_spec (length items) (key + s)) as [L|L].
    + rewrite (skipn_all2 items (n := key + s)) by lia. cbn [combine map csum fold_right]. rewrite cadd_0_r. destruct (Nat.ltb_spec (key + s) (length items)); [lia|].
      replace (c + (length items - (key + s)))%nat with c by lia. destruct d; reflexivity.
    + rewrite IH by lia. set (z := (0, CVec (cR 0) (cR 0) (cR 0))). rewrite (skipn_nth z (key + s)), (skipn_nth z key) by lia. cbn [combine map csum fold_right fst snd].
      rewrite cadd_assoc. destruct (Nat.ltb_spec (key + s) (length items)); [|lia]. f_equal; [|destruct d; reflexivity]. f_equal. lia.
Qed.
Lemma py_sum_all items s : py_sum items s (length items) 0 (cR 0) 0 None
  = (csum (dots s items), (length items - s)%nat, if (s <? length items)%nat then Some (fst (nth s items (0, CVec (cR 0) (cR 0) (cR 0))) - fst (nth 0 items (0, CVec (cR 0) (cR 0) (cR 0)))) else None).
Proof. rewrite py_sum_from by lia. cbn [skipn]. rewrite cadd_0_l. reflexivity. Qed.

(** * Strides *)
Definition evenly (dt : R) (items : list (R * cvec)) : Prop := regular dt (map fst items).
Lemma evenly_delta dt items s : evenly dt items -> (s < length items)%nat ->
  fst (nth s items (0, CVec (cR 0) (cR 0) (cR 0))) - fst (nth 0 items (0, CVec (cR 0) (cR 0) (cR 0))) = INR s * dt.
Proof.
  intros E L. set (z := (0, CVec (cR 0) (cR 0) (cR 0))). rewrite <- !(map_nth fst). rewrite (E s 0%nat) by (rewrite map_length; lia). cbn [INR]. ring.
Qed.
Definition entry (dt : R) (tot : nat -> cplx) (cnt : nat -> nat) (s : nat) : R * cplx * nat := (INR s * dt, tot s, cnt s).
Lemma py_strides_run dt items : evenly dt items -> forall n i m tot cnt, (forall s, (i + m <= s)%nat -> tot s = cR 0 /\ cnt s = 0%nat) ->
  py_strides items n i (map (entry dt tot cnt) (seq i m))
  = Ok (map (entry dt (fun s => if (s <? i + n)%nat then cadd (tot s) (csum (dots s items)) else tot s) (fun s => if (s <? i + n)%nat then cnt s + (length items - s) else cnt s)%nat)
        (seq i (Nat.max m (Nat.min n (length items - i))))).
Proof.
  intros E. induction n as [|n IH]; intros i m tot cnt H; cbn [py_strides].
  - rewrite Nat.min_0_l, Nat.max_0_r. f_equal. apply map_ext_in. intros s I. apply in_seq in I. unfold entry. destruct (Nat.ltb_spec s (i + 0)); [lia|]. reflexivity.
  - rewrite py_sum_all. destruct (Nat.ltb_spec i (length items)) as [L|L].
    + rewrite (evenly_delta dt) by assumption.
      assert (R : Nat.max m (Nat.min (Datatypes.S n) (length items - i)) = Datatypes.S (Nat.max (m - 1) (Nat.min n (length items - Datatypes.S i)))) by lia. rewrite R. clear R.
      cbn [seq map]. specialize (IH (Datatypes.S i) (m - 1)%nat tot cnt ltac:(intros; apply H; lia)).
      assert (X : forall l, map (entry dt (fun s => if (s <? Datatypes.S i + n)%nat then cadd (tot s) (csum (dots s items)) else tot s) (fun s => if (s <? Datatypes.S i + n)%nat then cnt s + (length items - s) else cnt s)%nat) l
         = map (entry dt (fun s => if (s <? i + Datatypes.S n)%nat then cadd (tot s) (csum (dots s items)) else tot s) (fun s => if (s <? i + Datatypes.S n)%nat then cnt s + (length items - s) else cnt s)%nat) l).
      { intros l. apply map_ext. intros s. replace (i + Datatypes.S n)%nat with (Datatypes.S i + n)%nat by lia. reflexivity. }
      rewrite X in IH. clear X.
      assert (HD : entry dt (fun s => if (s <? i + Datatypes.S n)%nat then cadd (tot s) (csum (dots s items)) else tot s) (fun s => if (s <? i + Datatypes.S n)%nat then cnt s + (length items - s) else cnt s)%nat i
         = (INR i * dt, cadd (tot i) (csum (dots i items)), (cnt i + (length items - i))%nat)).
      { unfold entry. destruct (Nat.ltb_spec i (i + Datatypes.S n)); [reflexivity|lia]. }
      rewrite HD. clear HD. destruct m as [|m].
      * cbn [seq map]. destruct (H i ltac:(lia)) as (-> & ->). cbn [Nat.sub seq map] in IH. rewrite IH. cbn [bind]. rewrite cadd_0_l. reflexivity.
      * cbn [seq map]. unfold entry at 1. destruct (Req_EM_T (INR i * dt) (INR i * dt)); [|congruence]. replace (Datatypes.S m - 1)%nat with m in * by lia. rewrite IH. reflexivity.
    + replace (Nat.max m (Nat.min (Datatypes.S n) (length items - i))) with m by lia. f_equal. apply map_ext_in. intros s I. apply in_seq in I. unfold entry.
      rewrite dots_short by lia. cbn [csum fold_right]. replace (length items - s)%nat with 0%nat by lia. rewrite Nat.add_0_r, cadd_0_r. destruct (s <? i + Datatypes.S n)%nat; reflexivity.
Qed.
Section Late.
Variables (F : Type) (value : F -> R).
Lemma regular_tl dt t l : regular dt (t :: l) -> regular dt l.
Proof. intros R i j d I J. specialize (R (Datatypes.S i) (Datatypes.S j) d). cbn [length nth] in R. rewrite R by lia. rewrite !S_INR. ring. Qed.
Lemma late_all m (l : list (F * (F * F * F * F * F * F))) : (forall x, In x l -> ~ time_of F value x < m) -> late F value m l = l.
Proof.
  intros H. induction l as [|x l IH]; [reflexivity|]. cbn [late filter]. destruct (Rlt_dec (time_of F value x) m) as [G|G]; [destruct (H x (or_introl eq_refl) G)|].
  unfold late in IH. rewrite IH by (intros; apply H; right; assumption). reflexivity.
Qed.
Lemma late_regular dt m (l : list (F * (F * F * F * F * F * F))) : 0 < dt -> regular dt (map (time_of F value) l) -> regular dt (map (time_of F value) (late F value m l)).
Proof.
  intros D. induction l as [|x l IH]; intros R; [exact R|]. cbn [late filter]. destruct (Rlt_dec (time_of F value x) m) as [G|G]; [apply IH, (regular_tl dt _ _ R)|].
  replace (filter _ l) with l; [exact R|]. symmetry. apply late_all. intros y I Y. cbn [map] in R.
  apply (In_nth _ _ x) in I. destruct I as (i & I & <-). specialize (R (Datatypes.S i) 0%nat (time_of F value x)). cbn [length nth] in R. rewrite map_length, map_nth in R.
  specialize (R ltac:(lia) ltac:(lia)). rewrite S_INR in R. cbn [INR] in R. pose proof (pos_INR i). nra.
Qed.
Lemma lag_times dt s (l : list (F * (F * F * F * F * F * F))) a b : regular dt (map (time_of F value) l) -> In (a, b) (lag_pairs s l) -> time_of F value a - time_of F value b = INR s * dt.
Proof.
  intros R I. destruct (lag_pairs_nth s l a b I) as (i & L & E). destruct (E a) as (A & B). rewrite <- A, <- B.
  pose proof (R (i + s)%nat i (time_of F value a)) as Q. rewrite !map_nth, map_length in Q. rewrite A, B in *. rewrite Q by lia. rewrite plus_INR. ring.
Qed.
End Late.
Section Runs.
Variables (F : Type) (value : F -> R) (show : F -> string) (read : string -> option F).
Hypothesis P : prints show read.
Definition all_dots (s : nat) (runs : list (list (R * cvec))) : list cplx := flat_map (dots s) runs.
Lemma entry_ext dt tot tot' cnt cnt' n : (forall s, (s < n)%nat -> tot s = tot' s /\ cnt s = cnt' s) -> map (entry dt tot cnt) (seq 0 n) = map (entry dt tot' cnt') (seq 0 n).
Proof. intros H. apply map_ext_in. intros s I. apply in_seq in I. unfold entry. destruct (H s) as (-> & ->); [lia|reflexivity]. Qed.
Lemma py_runs_all dt N k : 0 < dt -> k <> Vec 0 0 0 -> forall runs done,
  (forall r, In r runs -> regular dt (map (time_of F value) (snd r)) /\ increasing (map (item F value k) (snd r))) ->
  let its := fun r : F * F * F * list (F * (F * F * F * F * F * F)) => map (item F value k) (snd r) in
  py_runs F value read N k (map (saved F show) runs)
     (map (entry dt (fun s => csum (all_dots s done)) (fun s => length (all_dots s done))) (seq 0 (Nat.min N (longest done))))
  = Ok (map (entry dt (fun s => csum (all_dots s (done ++ map its runs))) (fun s => length (all_dots s (done ++ map its runs)))) (seq 0 (Nat.min N (longest (done ++ map its runs))))).
Proof.
  intros D K. induction runs as [|r runs IH]; intros done H its; [cbn [map py_runs]; rewrite app_nil_r; reflexivity|]. cbn [map py_runs].
  destruct (H r (or_introl eq_refl)) as (Rg & Inc). unfold saved at 1. rewrite (process_read F value show read P) by assumption. cbn [bind].
  assert (Ev : evenly dt (map (item F value k) (snd r))). { unfold evenly. rewrite map_map. exact Rg. }
  assert (Z : forall (d : list (list (R * cvec))) s, (longest d <= s)%nat -> all_dots s d = []).
  { clear. induction d as [|x d IH]; intros s L; [reflexivity|]. unfold longest in *. cbn [map fold_right all_dots flat_map] in *. rewrite dots_short by lia. apply IH. lia. }
  set (tot := fun s => if (s <? N)%nat then csum (all_dots s done) else cR 0). set (cnt := fun s => if (s <? N)%nat then length (all_dots s done) else 0%nat).
  rewrite (entry_ext dt (fun s => csum (all_dots s done)) tot (fun s => length (all_dots s done)) cnt).
  2:{ intros s L. subst tot cnt. cbn beta. destruct (Nat.ltb_spec s N); [auto|lia]. }
  rewrite (py_strides_run dt _ Ev N 0).
  2:{ intros s L. subst tot cnt. cbn beta. destruct (Nat.ltb_spec s N); [|auto]. rewrite Z by lia. auto. }
  cbn [bind]. rewrite Nat.sub_0_r.
  assert (LL : Nat.max (Nat.min N (longest done)) (Nat.min N (length (map (item F value k) (snd r)))) = Nat.min N (longest (done ++ [its r]))).
  { unfold longest. rewrite map_app, fold_right_app. cbn [map fold_right]. subst its. cbn beta. rewrite Nat.max_0_r. generalize (length (map (item F value k) (snd r))).
    clear. intros n. induction done as [|x d IH]; cbn [map fold_right]; lia. }
  rewrite LL.
  rewrite (entry_ext dt _ (fun s => csum (all_dots s (done ++ [its r]))) _ (fun s => length (all_dots s (done ++ [its r])))).
  2:{ intros s L. subst tot cnt. cbn beta. destruct (Nat.ltb_spec s (0 + N)) as [G|G]; [|lia]. destruct (Nat.ltb_spec s N); [|lia].
      unfold all_dots. rewrite flat_map_app. cbn [flat_map]. rewrite app_nil_r. rewrite csum_app, app_length. rewrite dots_length. auto. }
  rewrite (IH (done ++ [its r])) by (intros; apply H; right; assumption). rewrite <- app_assoc. reflexivity.
Qed.
Lemma re_csum l : re (csum l) = fold_right Rplus 0 (map re l).
Proof. induction l as [|a l IH]; [reflexivity|]. cbn [csum fold_right map]. rewrite <- IH. reflexivity. Qed.
Lemma im_csum l : (forall x, In x l -> im x = 0) -> im (csum l) = 0.
Proof. induction l as [|a l IH]; intros H; [reflexivity|]. cbn [csum fold_right cadd im]. fold (csum l). rewrite IH by (intros; apply H; right; assumption). rewrite (H a) by (left; reflexivity). ring. Qed.
Lemma re_dots s runs : map re (all_dots s runs) = lag_data s (map (map snd) runs).
Proof.
  unfold all_dots, lag_data. induction runs as [|r runs IH]; [reflexivity|]. cbn [flat_map map]. rewrite map_app, IH. f_equal. unfold dots. rewrite map_map, lag_pairs_map, map_map.
  apply map_ext. intros p. apply product_dot.
Qed.
Lemma dots_0_im runs x : In x (all_dots 0 runs) -> im x = 0.
Proof.
  unfold all_dots. intros H. apply in_flat_map in H. destruct H as (r & _ & H). unfold dots in H. apply in_map_iff in H. destruct H as ([a b] & <- & H). cbn [fst snd].
  unfold lag_pairs in H. cbn [skipn] in H. assert (a = b) as ->. { clear - H. induction r as [|y r IH]; [destruct H|]. cbn [combine In] in H. destruct H as [H|H]; [congruence|auto]. }
  apply self_dot_im.
Qed.
Lemma cdiv_real a n : n <> 0 -> cdiv a (cR n) = Cplx (re a / n) (im a / n).
Proof. intros N. unfold cdiv, cR. cbn [re im]. f_equal; field; exact N. Qed.
Lemma py_points_all dt n runs : (0 < n)%nat -> (n <= longest runs)%nat -> mean_of (lag_data 0 (map (map snd) runs)) <> 0 ->
  py_points (map (entry dt (fun s => csum (all_dots s runs)) (fun s => length (all_dots s runs))) (seq 0 n))
  = Ok (map (fun s => (INR s * dt, mean_of (lag_data s (map (map snd) runs)) / mean_of (lag_data 0 (map (map snd) runs)))) (seq 0 n)).
Proof.
  intros N L M. set (data := fun s => lag_data s (map (map snd) runs)). fold (data 0%nat) in M. fold (data 0%nat).
  assert (LN : forall s, length (all_dots s runs) = length (data s)). { intros s. unfold data. rewrite <- re_dots, map_length. reflexivity. }
  assert (PO : forall s, (s < n)%nat -> (0 < length (data s))%nat).
  { intros s Ls. rewrite <- LN. assert (G : forall rs : list (list (R * cvec)), (s < longest rs)%nat -> (0 < length (all_dots s rs))%nat).
    { clear. induction rs as [|r rs IH]; unfold longest; cbn [map fold_right]; intros G; [lia|]. unfold all_dots. cbn [flat_map]. rewrite app_length, dots_length.
      destruct (Nat.lt_ge_cases s (length r)); [lia|]. assert (s < longest rs)%nat by (unfold longest; lia). specialize (IH H0). unfold all_dots in IH. lia. }
    apply G. lia. }
  assert (AV : forall s, (s < n)%nat -> py_average (entry dt (fun s => csum (all_dots s runs)) (fun s => length (all_dots s runs)) s) = Cplx (mean_of (data s)) (im (csum (all_dots s runs)) / INR (length (data s)))).
  { intros s Ls. unfold py_average, entry. cbn [fst snd]. rewrite LN. rewrite cdiv_real by (apply not_0_INR; specialize (PO s Ls); lia). rewrite re_csum, re_dots. reflexivity. }
  destruct n as [|n]; [lia|]. cbn [seq map py_points]. rewrite AV by lia. rewrite im_csum by (intros x I; apply (dots_0_im runs x I)). cbn [re im].
  replace (0 / INR (length (data 0%nat))) with 0 by (unfold Rdiv; ring). set (m := mean_of (data 0%nat)) in *.
  destruct (Req_EM_T (m * m + 0 * 0) 0) as [Q|Q]; [exfalso; assert (m * m = 0) by lra; apply Rmult_integral in H; tauto|].
  assert (PT : forall s, (s < Datatypes.S n)%nat -> (fst (fst (entry dt (fun s => csum (all_dots s runs)) (fun s => length (all_dots s runs)) s)), re (cdiv (py_average (entry dt (fun s => csum (all_dots s runs)) (fun s => length (all_dots s runs)) s)) (Cplx m 0)))
     = (INR s * dt, mean_of (data s) / m)).
  { intros s Ls. rewrite AV by exact Ls. unfold entry. cbn [fst snd]. f_equal. unfold cdiv. cbn [re im]. generalize (im (csum (all_dots s runs)) / INR (length (data s))). intros q. field. exact M. }
  f_equal. f_equal; [change (mean_of (lag_data 0 (map (map snd) runs))) with m; unfold entry; cbn [fst snd]; f_equal; unfold cdiv; cbn [re im]; field; exact M|]. rewrite ?map_map. apply map_ext_in. intros s I. apply in_seq in I. apply (PT s). lia.
Qed.
Lemma regular_increasing dt k l : 0 < dt -> regular dt (map (time_of F value) l) -> increasing (map (item F value k) l).
Proof.
  intros D R. unfold increasing. rewrite map_map. change (fun x => fst (item F value k x)) with (time_of F value). revert R. generalize (map (time_of F value) l). clear l.
  induction l as [|t l IH]; intros R; constructor.
  - apply IH. intros i j d I J. specialize (R (Datatypes.S i) (Datatypes.S j) d). cbn [length nth] in R. rewrite R by lia. rewrite !S_INR. ring.
  - rewrite Forall_forall. intros u I. apply (In_nth _ _ 0) in I. destruct I as (i & I & <-). specialize (R (Datatypes.S i) 0%nat 0). cbn [length nth] in R.
    specialize (R ltac:(lia) ltac:(lia)). rewrite S_INR in R. cbn [INR] in R. pose proof (pos_INR i). nra.
Qed.
Lemma script dt N k runs : 0 < dt -> k <> Vec 0 0 0 -> (forall r, In r runs -> regular dt (map (time_of F value) (snd r))) -> (0 < N)%nat ->
  let data := fun s => lag_data s (map (fun r : F * F * F * list (F * (F * F * F * F * F * F)) => map (fun x => part_across k (velocity_of F value x)) (snd r)) runs) in
  mean_of (data 0%nat) <> 0 ->
  py_correlation F value read N k (map (saved F show) runs)
  = Ok (map (fun s => (INR s * dt, mean_of (data s) / mean_of (data 0%nat))) (seq 0 (Nat.min N (longest (map snd runs))))).
Proof.
  intros D K Rg NP data M. unfold py_correlation.
  pose proof (py_runs_all dt N k D K runs []) as H. cbv zeta in H. change (longest (@nil (list (R * cvec)))) with 0%nat in H. rewrite Nat.min_0_r in H. cbn [app seq] in H. change (map (entry dt (fun s => csum (all_dots s [])) (fun s' => length (all_dots s' []))) []) with (@nil (R * cplx * nat)) in H.
  rewrite H by (intros r I; split; [apply Rg, I|apply (regular_increasing dt); [exact D|apply Rg, I]]). clear H. cbn [bind].
  set (its := map (fun r : F * F * F * list (F * (F * F * F * F * F * F)) => map (item F value k) (snd r)) runs).
  assert (E : map (map snd) its = map (fun r : F * F * F * list (F * (F * F * F * F * F * F)) => map (fun x => part_across k (velocity_of F value x)) (snd r)) runs).
  { subst its. rewrite map_map. apply map_ext. intros r. rewrite map_map. reflexivity. }
  assert (LE : longest its = longest (map snd runs)). { unfold longest. subst its. rewrite !map_map. f_equal. apply map_ext. intros r. apply map_length. }
  rewrite LE. destruct (Nat.eq_dec (longest (map snd runs)) 0) as [Z|Z].
  - exfalso. apply M. rewrite <- LE in Z. unfold data. rewrite <- E. clear - Z. assert (length (lag_data 0 (map (map snd) its)) = 0%nat).
    { rewrite lag_data_length. unfold longest in Z. induction its as [|r i IH]; [reflexivity|]. cbn [map fold_right] in *. rewrite map_length. rewrite IH by lia. lia. }
    apply length_zero_iff_nil in H. rewrite H. unfold mean_of. cbn [fold_right]. unfold Rdiv. ring.
  - rewrite py_points_all by first [rewrite E; exact M | rewrite LE; lia | lia]. rewrite E. reflexivity.
Qed.
End Runs.
(** * Boxes with equal sides *)
Lemma across_scaled c k v : c <> 0 -> k <> Vec 0 0 0 -> part_across (times3 c k) v = part_across k v.
Proof.
  intros C N. unfold part_across. assert (G : forall x, minus3 x (times3 (dot3 (times3 c k) x / dot3 (times3 c k) (times3 c k)) (times3 c k)) = minus3 x (times3 (dot3 k x / dot3 k k) k)).
  { intros x. pose proof (dot3_pos k N) as Q. assert (E : dot3 (times3 c k) x / dot3 (times3 c k) (times3 c k) * c = dot3 k x / dot3 k k).
    { replace (dot3 (times3 c k) x) with (c * dot3 k x) by (destruct k, x; unfold dot3, times3; cbn; ring). replace (dot3 (times3 c k) (times3 c k)) with (c * c * dot3 k k) by (destruct k; unfold dot3, times3; cbn; ring). field. split; [lra|exact C]. }
    rewrite <- E. generalize (dot3 (times3 c k) x / dot3 (times3 c k) (times3 c k)). intros q. destruct k as [k1 k2 k3], x as [x1 x2 x3]. unfold minus3, times3. cbn [vx vy vz]. apply vec_ext; ring. }
  rewrite !G. reflexivity.
Qed.
Lemma across_cube L n v : (L <> 0)%Z -> n <> Vec 0 0 0 -> part_across (wave_vector (L, L, L) n) v = part_across n v.
Proof.
  intros B N. replace (wave_vector (L, L, L) n) with (times3 (2 * PI / IZR L) n).
  - apply across_scaled; [|exact N]. pose proof PI_neq0. apply not_0_IZR in B. intros Q. unfold Rdiv in Q. apply Rmult_integral in Q. destruct Q as [Q|Q]; [lra|]. apply Rinv_neq_0_compat in B. contradiction.
  - destruct n as [n1 n2 n3]. unfold wave_vector, times3. cbn [vx vy vz]. f_equal; unfold Rdiv; ring.
Qed.
