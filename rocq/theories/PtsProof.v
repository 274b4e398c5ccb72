(** Lemmas about collections of points with errors. *)
From Coq Require Import String Ascii Sorting Permutation Lia.
From Verif Require Import QcBase QcLra PyBase StrBase DictBase SortBase VtfModel VtfPyModel TvcModel EmpModel Data2DModel Data2DSpec Data2DProof EmpSpec EmpProof MsdSpec RelSpec RelProof PtsModel PtsSpec.
Open Scope string_scope.
Open Scope list_scope.
Open Scope Qc_scope.

(** * Histories *)
Lemma dget_perm (d e : data2d) x : NoDup (dkeys d) -> Permutation d e -> dget qeqb d x = dget qeqb e x.
Proof.
  intros N P. assert (N' : NoDup (dkeys e)) by (eapply Permutation_NoDup; [apply Permutation_map, P|exact N]).
  destruct (dget qeqb d x) as [y|] eqn:D; symmetry.
  - apply (in_dget qeqb qeqb_spec); [exact N'|]. eapply Permutation_in; [exact P|]. apply (dget_in qeqb qeqb_spec), D.
  - apply (dget_none qeqb qeqb_spec). apply (dget_none qeqb qeqb_spec) in D. intros H. apply D.
    eapply Permutation_in; [apply Permutation_map, Permutation_sym, P|exact H].
Qed.
Lemma last_value_app h k x : last_value (h ++ k) x = match last_value k x with Some y => Some y | None => last_value h x end.
Proof. induction h as [|[a b] h IH]; cbn; [destruct (last_value k x); reflexivity|]. rewrite IH. destruct (last_value k x); reflexivity. Qed.
Lemma sort_perm_d (d : data2d) : Permutation d (d2_sort d).
Proof. apply isort_perm. Qed.
Definition good (h : list request) (d : points) : Prop :=
  NoDup (dkeys (pdata d)) /\ NoDup (dkeys (perrors d))
  /\ (forall x, dget qeqb (pdata d) x = last_value (values_given h) x) /\ (forall x, dget qeqb (perrors d) x = last_value (errors_given h) x).
Lemma good_sort h d : good h d -> good h (pts_sort d).
Proof.
  intros (A & B & C & D). unfold good, pts_sort. cbn [pdata perrors].
  repeat split; [eapply Permutation_NoDup; [apply Permutation_map, sort_perm_d|exact A]|eapply Permutation_NoDup; [apply Permutation_map, sort_perm_d|exact B]| |];
  intros x; [rewrite <- (dget_perm _ _ x A (sort_perm_d _)); apply C|rewrite <- (dget_perm _ _ x B (sort_perm_d _)); apply D].
Qed.
Lemma given_snoc h r : values_given (h ++ [r]) = values_given h ++ (match r with Add x y _ => [(x, y)] | Sort => [] end)
  /\ errors_given (h ++ [r]) = errors_given h ++ (match r with Add x _ (Some e) => [(x, e)] | _ => [] end).
Proof. unfold values_given, errors_given. rewrite !flat_map_app. cbn [flat_map]. rewrite !app_nil_r. auto. Qed.
Lemma after_snoc h r : after (h ++ [r]) = carry_out (after h) r.
Proof. unfold after. rewrite fold_left_app. reflexivity. Qed.
Lemma after_good h : good h (after h).
Proof.
  induction h as [|r h IH] using rev_ind; [repeat split; cbn; constructor|]. rewrite after_snoc. destruct (given_snoc h r) as [GV GE].
  destruct r as [x y e|]; cbn [carry_out].
  - destruct IH as (A & B & C & D). unfold good, pts_add. cbn [pdata perrors]. rewrite GV, GE.
    split; [apply dset_nodup; [apply qeqb_spec|exact A]|]. split; [destruct e; [apply dset_nodup; [apply qeqb_spec|]|]; exact B|].
    split; intros z.
    + rewrite last_value_app, dget_dset by apply qeqb_spec. cbn [last_value]. destruct (qeqb z x); [reflexivity|]. apply C.
    + destruct e as [e|]; rewrite last_value_app; cbn [last_value]; [|apply D]. rewrite dget_dset by apply qeqb_spec. destruct (qeqb z x); [reflexivity|]. apply D.
  - unfold good. rewrite GV, GE, !app_nil_r. apply good_sort, IH.
Qed.
Lemma good_sort_if h s d : good h d -> good h (sort_if s d).
Proof. destruct s; [apply good_sort|auto]. Qed.
Lemma good_in h d x y : good h d -> (In (x, y) (pdata d) <-> last_value (values_given h) x = Some y).
Proof.
  intros (A & B & C & D). rewrite <- C. split; [apply in_dget; [apply qeqb_spec|exact A]|apply dget_in, qeqb_spec].
Qed.
Lemma sorted_if h s : s = true -> StronglySorted klt (pdata (sort_if s (after h))).
Proof. intros ->. cbn [sort_if pts_sort pdata]. apply isort_key_sorted, after_good. Qed.

(** * Tables *)
Definition row_of (errors : data2d) (p : Qc * Qc) : row := (fst p, snd p, dget qeqb errors (fst p)).
Lemma table_ok errors items : table_loop errors items = (map at_x (map (row_of errors) items), map at_y (map (row_of errors) items), map snd (map (row_of errors) items)).
Proof. induction items as [|[k v] r IH]; [reflexivity|]. cbn [table_loop map]. rewrite IH. reflexivity. Qed.
Lemma rows_keys errors items : map at_x (map (row_of errors) items) = dkeys items.
Proof. rewrite map_map. reflexivity. Qed.
Lemma rows_good h d : good h d -> rows_of h (map (row_of (perrors d)) (pdata d)).
Proof.
  intros G. split; [rewrite rows_keys; apply G|]. intros x y e. rewrite in_map_iff. split.
  - intros ([a b] & E & I). unfold row_of in E. cbn [fst snd] in E. injection E as <- <- <-. split; [apply (good_in h d); assumption|]. apply G.
  - intros [V E]. exists (x, y). split; [|apply (good_in h d); assumption]. unfold row_of. cbn [fst snd]. f_equal. rewrite E. apply G.
Qed.
Lemma dset_keys (d : data2d) x y : dkeys (dset qeqb d x y) = dkeys d ++ (if in_dec Qc_eq_dec x (dkeys d) then [] else [x]).
Proof.
  induction d as [|[a b] d IH]; [reflexivity|]. cbn [dset]. destruct (qeqb x a) eqn:E.
  - apply qeqb_spec in E. subst a. cbn [dkeys map fst]. destruct (in_dec Qc_eq_dec x (x :: map fst d)) as [_|N]; [rewrite app_nil_r; reflexivity|].
    exfalso. apply N. left. reflexivity.
  - unfold dkeys in *. cbn [map fst]. rewrite IH. cbn [app]. f_equal. f_equal.
    destruct (in_dec Qc_eq_dec x (map fst d)) as [i|n], (in_dec Qc_eq_dec x (a :: map fst d)) as [j|m]; try reflexivity.
    + exfalso. apply m. right. exact i.
    + exfalso. destruct j as [->|j]; [|apply n, j]. assert (X : qeqb x x = true) by (apply qeqb_spec; reflexivity). congruence.
Qed.
Lemma order_ok h : Forall (fun r => r <> Sort) h -> dkeys (pdata (after h)) = appearing (map fst (values_given h)).
Proof.
  induction h as [|r h IH] using rev_ind; intros F; [reflexivity|]. apply Forall_app in F. destruct F as [F L]. inversion L as [|? ? L1 L2]; subst.
  specialize (IH F). rewrite after_snoc. destruct (given_snoc h r) as [GV _]. rewrite GV. destruct r as [x y e|]; [|congruence].
  cbn [carry_out pts_add pdata]. rewrite dset_keys, IH, map_app. cbn [map fst]. rewrite appearing_snoc. f_equal.
  destruct (in_dec Qc_eq_dec x (appearing (map fst (values_given h)))) as [i|n], (in_dec Qc_eq_dec x (map fst (values_given h))) as [j|m]; try reflexivity; exfalso.
  - apply m, in_appearing, i.
  - apply n, in_appearing, j.
Qed.
Lemma klt_increasing (l : data2d) : StronglySorted klt l <-> increasing l.
Proof. reflexivity. Qed.
Lemma sorted_points_sort h : sorted_points h (d2_sort (pdata (after h))).
Proof.
  split; [apply (sorted_if h true eq_refl)|]. intros x y. apply (good_in h (pts_sort (after h))), good_sort, after_good.
Qed.
Lemma sorted_points_unique h l1 l2 : sorted_points h l1 -> sorted_points h l2 -> l1 = l2.
Proof.
  intros [A B] [C D]. apply klt_sorted_unique; [exact A|exact C|].
  assert (E : forall p, In p l1 <-> In p l2) by (intros [x y]; rewrite B, D; reflexivity).
  apply NoDup_Permutation; [| |exact E]; eapply NoDup_map_inv, klt_nodup; assumption.
Qed.

(** * Means *)
Lemma mean_values (l : data2d) : mean_of_values l = match l with [] => Err ZeroDivisionError | _ => Ok (mean (map snd l)) end.
Proof.
  unfold mean_of_values, mean. rewrite fold_sum_snd, fold_count, map_length. destruct l; [reflexivity|]. cbn [length Nat.add Nat.eqb]. f_equal. f_equal. ring.
Qed.
Lemma fold_square (l : data2d) m a : fold_left (fun s p => s + (snd p - m) * (snd p - m)) l a = a + qsum (map (fun y => sqr (y - m)) (map snd l)).
Proof.
  revert a. induction l as [|p l IH]; intros a; cbn [fold_left map qsum]; [ring|]. rewrite IH. unfold sqr. cbn [qsum fold_right]. ring.
Qed.
Lemma deviation_values sqrt d : getRootMeanSquaredDeviationFromArithmeticMean sqrt d
  = match pdata d with [] => Err ZeroDivisionError | l => Ok (sqrt (mean_square_deviation (map snd l))) end.
Proof.
  unfold getRootMeanSquaredDeviationFromArithmeticMean, getArithmeticMean. rewrite mean_values. destruct (pdata d) as [|p l] eqn:E; [reflexivity|].
  cbn [bind]. rewrite fold_square, fold_count. cbn [length Nat.add Nat.eqb]. f_equal. f_equal. unfold mean_square_deviation. set (m := mean (map snd (p :: l))).
  unfold mean. rewrite !map_length. cbn [length]. f_equal. ring.
Qed.
Lemma qsum_map_plus {A} (f g : A -> Qc) l : qsum (map (fun a => f a + g a) l) = qsum (map f l) + qsum (map g l).
Proof. induction l as [|a l IH]; cbn [map qsum fold_right]; [ring|]. unfold qsum in *. cbn [fold_right]. rewrite IH. ring. Qed.
Lemma qsum_map_scale {A} (f : A -> Qc) c l : qsum (map (fun a => c * f a) l) = c * qsum (map f l).
Proof. induction l as [|a l IH]; unfold qsum in *; cbn [map fold_right]; [ring|]. rewrite IH. ring. Qed.
Lemma qsum_const {A} c (l : list A) : qsum (map (fun _ => c) l) = qn (length l) * c.
Proof. induction l as [|a l IH]; unfold qsum in *; cbn [map fold_right length]; [rewrite qn_0; ring|]. rewrite IH, qn_S. ring. Qed.
Lemma deviation_formula l : l <> [] -> mean_square_deviation l = mean (map sqr l) - sqr (mean l).
Proof.
  intros N. assert (L : qn (length l) <> 0). { apply qn_neq0. destruct l; [congruence|discriminate]. }
  unfold mean_square_deviation. set (m := mean l). unfold mean at 1 2. rewrite !map_length.
  assert (E : qsum (map (fun y => sqr (y - m)) l) = qsum (map sqr l) - (1 + 1) * m * qsum l + qn (length l) * sqr m).
  { rewrite <- (qsum_const (sqr m) l). transitivity (qsum (map (fun y => sqr y + ((- ((1 + 1) * m)) * y + sqr m)) l)).
    - f_equal. apply map_ext. intros y. unfold sqr. ring.
    - rewrite qsum_map_plus, (qsum_map_plus (fun y => - ((1 + 1) * m) * y) (fun _ => sqr m)), (qsum_map_scale (fun y => y)), map_id. ring. }
  rewrite E. assert (S : qsum l = qn (length l) * m). { unfold m, mean. field. exact L. }
  rewrite S. unfold sqr. field. exact L.
Qed.
Lemma qsum_nonneg l : Forall (fun y => 0 <= y) l -> 0 <= qsum l.
Proof. induction 1 as [|y l H F IH]; unfold qsum in *; cbn [fold_right]; [apply Qcle_refl|]. qlra. Qed.
Lemma qsum_zero l : Forall (fun y => 0 <= y) l -> qsum l = 0 -> Forall (fun y => y = 0) l.
Proof.
  induction 1 as [|y l H F IH]; intros E; constructor; pose proof (qsum_nonneg l F) as N; unfold qsum in *; cbn [fold_right] in E.
  - apply Qcle_antisym; [|exact H]. qlra.
  - apply IH. apply Qcle_antisym; [|exact N]. qlra.
Qed.
Lemma sqr_nonneg y : 0 <= sqr y.
Proof. apply Qc_sq_nonneg. Qed.

Lemma mean_sum l : l <> [] -> qsum l = qn (length l) * mean l.
Proof. intros N. unfold mean. field. apply qn_neq0. destruct l; [congruence|discriminate]. Qed.

(** * Files *)
Section Text.
Variable str : Qc -> string.
Variable float : string -> option Qc.
Variable rd : Qc -> Qc.
Hypothesis P : prints_as str float rd.

(** A line without its end. *)
Definition bare (errors : data2d) (p : Qc * Qc) : string :=
  (str (fst p) ++ String "009" (str (snd p) ++ match dget qeqb errors (fst p) with Some e => String "009" (str e) | None => "" end))%string.
Lemma app_assoc_s a b c : ((a ++ b) ++ c = a ++ b ++ c)%string.
Proof. induction a as [|x a IH]; cbn; [reflexivity|]. rewrite IH. reflexivity. Qed.
Lemma text_ok errors items : fold_right append "" (map (point_line str errors) items) = text_of_lines (map (bare errors) items) "".
Proof.
  induction items as [|p r IH]; [reflexivity|]. cbn [map fold_right text_of_lines]. rewrite IH. unfold point_line, bare, text_of_lines.
  rewrite !app_assoc_s. cbn [append]. rewrite !app_assoc_s. reflexivity.
Qed.
Lemma str_word x : word (str x).
Proof. destruct (P x) as (_ & N & S). apply space_word; assumption. Qed.
Lemma str_line x : one_line (str x).
Proof. destruct (P x) as (_ & N & S). apply space_line, S. Qed.
Lemma bare_line errors p : one_line (bare errors p).
Proof.
  unfold bare. apply one_line_app. split; [apply str_line|]. split; [discriminate|]. apply one_line_app. split; [apply str_line|].
  destruct (dget qeqb errors (fst p)); [|exact Logic.I]. split; [discriminate|apply str_line].
Qed.
Lemma tab_blank : every_char blank (String "009" "").
Proof. split; [|exact Logic.I]. unfold blank. auto. Qed.
Lemma words_tab a t : word a -> words is_ws (a ++ String "009" t)%string = a :: words is_ws t.
Proof. intros W. apply (words_word a (String "009" "") W tab_blank ltac:(discriminate) t). Qed.
Lemma words_only a : word a -> words is_ws a = [a].
Proof. intros W. rewrite <- (append_nil_r a) at 1. apply words_last; [exact W|exact Logic.I]. Qed.
Lemma bare_words errors p : words is_ws (bare errors p)
  = str (fst p) :: str (snd p) :: match dget qeqb errors (fst p) with Some e => [str e] | None => [] end.
Proof.
  unfold bare. rewrite words_tab by apply str_word. f_equal. destruct (dget qeqb errors (fst p)) as [e|].
  - rewrite words_tab by apply str_word. rewrite words_only by apply str_word. reflexivity.
  - rewrite append_nil_r. rewrite words_only by apply str_word. reflexivity.
Qed.
Definition free (errors : data2d) (p : Qc * Qc) : bool := match dget qeqb errors (fst p) with Some _ => false | None => true end.
Definition read_back (p : Qc * Qc) : Qc * Qc := (rd (fst p), rd (snd p)).
Lemma bare_lists errors items : lists float (map (bare errors) items) (map read_back (filter (free errors) items)).
Proof.
  induction items as [|p r IH]; [constructor|]. cbn [map filter]. pose proof (bare_words errors p) as W. unfold free at 1. destruct (dget qeqb errors (fst p)) as [e|] eqn:E.
  - apply lists_skip; [|exact IH]. intros q H. apply line_has_words in H. destruct H as (a & b & X & _). rewrite W in X. discriminate X.
  - cbn [map]. apply lists_take; [|exact IH]. apply line_has_words. exists (str (fst p)), (str (snd p)). split; [exact W|]. split; apply P.
Qed.
Lemma read_written m s d : let qs := filter (at_least m) (map read_back (filter (free (perrors (sort_if s d))) (pdata (sort_if s d)))) in
  (NoDup (map fst qs) -> exists r, pts_read float m (writeTo str s d) = Ok r /\ Permutation (pdata r) qs /\ increasing (pdata r) /\ perrors r = [])
  /\ (~ NoDup (map fst qs) -> pts_read float m (writeTo str s d) = Err ValueError).
Proof.
  intros qs. unfold writeTo, pts_read. rewrite text_ok.
  assert (L : lists float (all_lines (map (bare (perrors (sort_if s d))) (pdata (sort_if s d))) "") (map read_back (filter (free (perrors (sort_if s d))) (pdata (sort_if s d))))) by apply bare_lists.
  assert (F : Forall one_line (map (bare (perrors (sort_if s d))) (pdata (sort_if s d)))).
  { apply Forall_forall. intros l H. apply in_map_iff in H. destruct H as (p & <- & _). apply bare_line. }
  destruct (read_ok float m _ "" _ F Logic.I L) as [A B]. fold qs in A, B. split; intros N.
  - destruct (A N) as (r & R & Q & I). rewrite R. cbn [bind]. exists (Points r []). auto.
  - rewrite (B N). reflexivity.
Qed.
End Text.

(** * Plots *)
Definition plot_line (str : Qc -> string) (p : Qc * Qc) : string := (str (fst p) ++ String "009" (str (snd p)))%string.
Lemma small_multiple m j q t c : (0 < j)%Z -> (j < m)%Z -> (c + j = q * m)%Z -> (c = t * m)%Z -> False.
Proof.
  intros A B E X. subst c. assert (Y : ((q - t) * m = j)%Z) by (rewrite Z.mul_sub_distr_r; lia). destruct (Z_le_gt_dec (q - t) 0) as [H|H]; [|]; nia.
Qed.
Lemma plot_ok str n items : (n <> 0)%Z -> forall c k q, (c + Z.of_nat k = q * Z.abs n)%Z -> (Z.of_nat k < Z.abs n)%Z ->
  plot_loop str n c items = Ok (text_of_lines (map (plot_line str) (thin (Z.abs_nat n) k items)) "").
Proof.
  intros N. induction items as [|[x y] r IH]; intros c k q E L; [reflexivity|]. cbn [plot_loop thin].
  destruct (Z.eqb_spec n 0) as [X|_]; [contradiction|].
  assert (M : (c mod n =? 0)%Z = match k with O => true | _ => false end).
  { destruct k as [|k].
    - apply Z.eqb_eq. apply Z.mod_divide; [exact N|]. apply Z.divide_abs_l. exists q. lia.
    - apply Z.eqb_neq. intros X. apply Z.mod_divide in X; [|exact N]. apply Z.divide_abs_l in X. destruct X as [t X].
      apply (small_multiple (Z.abs n) (Z.of_nat (S k)) q t c); [lia|exact L|exact E|exact X]. }
  rewrite M. destruct k as [|k].
  - rewrite (IH (c + 1)%Z (Z.abs_nat n - 1)%nat (q + 1)%Z) by lia. cbn [bind map text_of_lines fold_right]. unfold plot_line at 2. cbn [fst snd].
    rewrite app_assoc_s. reflexivity.
  - rewrite (IH (c + 1)%Z k q) by lia. reflexivity.
Qed.

(** * Static data *)
Lemma prefix_app d s : String.prefix d s = true <-> exists r, s = (d ++ r)%string.
Proof.
  revert s. induction d as [|a d IH]; intros s; [split; [exists s; reflexivity|destruct s; reflexivity]|]. cbn [String.prefix append]. destruct s as [|b s]; [split; [discriminate|intros [r E]; discriminate E]|].
  cbn [String.prefix append]. destruct (ascii_dec a b) as [->|N].
  - rewrite IH. split; intros [r E]; exists r; [rewrite E; reflexivity|injection E as ->; reflexivity].
  - split; [discriminate|]. intros [r E]. injection E as E _. congruence.
Qed.
Lemma index_spec d s : d <> "" ->
  match String.index 0 d s with
  | Some n => exists pre rest, s = (pre ++ d ++ rest)%string /\ String.length pre = n /\ forall pre' rest', s = (pre' ++ d ++ rest')%string -> (n <= String.length pre')%nat
  | None => ~ contains s d
  end.
Proof.
  intros D. induction s as [|a s IH].
  - cbn. destruct d; [congruence|]. intros ([|b pre] & rest & E); discriminate E.
  - cbn [String.index]. destruct (String.prefix d (String a s)) eqn:E.
    + apply prefix_app in E. destruct E as [r E]. exists "", r. split; [exact E|]. split; [reflexivity|]. intros. apply Nat.le_0_l.
    + assert (NE : forall r, String a s <> (d ++ r)%string). { intros r X. assert (T : String.prefix d (String a s) = true) by (apply prefix_app; exists r; exact X). congruence. }
      destruct (String.index 0 d s) as [n|].
      * destruct IH as (pre & rest & -> & L & M). exists (String a pre), rest. split; [reflexivity|]. split; [cbn; rewrite L; reflexivity|].
        intros [|b pre'] rest' X; [exfalso; apply (NE rest'), X|]. cbn [append] in X. injection X as _ X. apply M in X. cbn. lia.
      * intros ([|b pre] & rest & X); [apply (NE rest), X|]. cbn [append] in X. injection X as _ X. apply IH. exists pre, rest. exact X.
Qed.
Lemma length_app_s a b : String.length (a ++ b)%string = (String.length a + String.length b)%nat.
Proof. induction a as [|x a IH]; cbn; [reflexivity|]. rewrite IH. reflexivity. Qed.
Lemma sub_all b : String.substring 0 (String.length b) b = b.
Proof. induction b as [|x b IH]; cbn; [reflexivity|]. rewrite IH. reflexivity. Qed.
Lemma sub_app a b : String.substring (String.length a) (String.length b) (a ++ b)%string = b.
Proof. induction a as [|x a IH]; cbn [append String.length]; [apply sub_all|]. cbn [String.substring]. exact IH. Qed.
Lemma app_inj_len a b c d : String.length a = String.length c -> (a ++ b = c ++ d)%string -> b = d.
Proof.
  revert c. induction a as [|x a IH]; intros [|y c] L E; cbn in L, E; try discriminate; [exact E|]. injection E as _ E. injection L as L. exact (IH _ L E).
Qed.
Lemma first_unique d s r r' : first_at d s r -> first_at d s r' -> r = r'.
Proof.
  intros (p & E & M) (p' & E' & M'). pose proof (M _ _ E') as A. pose proof (M' _ _ E) as B.
  assert (L : String.length p = String.length p') by lia. rewrite E in E'. apply (app_inj_len p _ p' _ L) in E'.
  apply (app_inj_len d _ d _ eq_refl) in E'. exact E'.
Qed.
Lemma after_spec d s : d <> "" -> match after_first d s with Some r => first_at d s r | None => ~ contains s d end.
Proof.
  intros D. unfold after_first. pose proof (index_spec d s D) as H. destruct (String.index 0 d s) as [n|]; [|exact H].
  destruct H as (pre & rest & E & L & M). exists pre. split; [|rewrite L; exact M]. rewrite E at 1. f_equal. f_equal.
  assert (Q : String.length s = (n + String.length d + String.length rest)%nat) by (rewrite E, !length_app_s; lia).
  rewrite Q. replace (n + String.length d + String.length rest - (n + String.length d))%nat with (String.length rest) by lia.
  rewrite E. rewrite <- app_assoc_s. replace (n + String.length d)%nat with (String.length (pre ++ d)%string) by (rewrite length_app_s; lia). symmetry. apply sub_app.
Qed.
Lemma first_contains d s r : first_at d s r -> contains s d.
Proof. intros (p & E & _). exists p, r. exact E. Qed.
(** Stripping. *)
Lemma trim_right_ok s : exists b, s = (trim_right s ++ b)%string /\ every_char blank b /\ forall r c, trim_right s = (r ++ String c "")%string -> ~ blank c.
Proof.
  induction s as [|a s (b & E & B & N)]; [exists ""; repeat split; intros [|? ?] ? X; discriminate X|]. cbn [trim_right]. destruct (trim_right s) as [|c t] eqn:T.
  - destruct (is_ws a) eqn:W.
    + exists (String a s). split; [reflexivity|]. split; [split; [apply blank_ws, W|rewrite E; exact B]|]. intros [|? ?] ? X; discriminate X.
    + exists b. split; [cbn [append] in *; rewrite E; reflexivity|]. split; [exact B|]. intros [|? r] c X.
      * injection X as <-. apply blank_dec_false, W.
      * destruct r; discriminate X.
  - exists b. split; [cbn [append] in *; rewrite E at 1; reflexivity|]. split; [exact B|]. intros [|y r] z X; [discriminate X|].
    cbn [append] in X. injection X as _ X. apply (N r z X).
Qed.
Lemma trim_left_ok s : exists a, s = (a ++ trim_left s)%string /\ every_char blank a /\ forall c r, trim_left s = String c r -> ~ blank c.
Proof.
  induction s as [|a s (b & E & B & N)]; [exists ""; repeat split; discriminate|]. cbn [trim_left]. destruct (is_ws a) eqn:W.
  - exists (String a b). split; [cbn [append]; rewrite <- E; reflexivity|]. split; [split; [apply blank_ws, W|exact B]|exact N].
  - exists "". split; [reflexivity|]. split; [exact Logic.I|]. intros c r X. injection X as <- _. apply blank_dec_false, W.
Qed.
Lemma trim_stripped s : stripped s (trim_left (trim_right s)).
Proof.
  destruct (trim_right_ok s) as (b & E & B & N). destruct (trim_left_ok (trim_right s)) as (a & E' & A & M).
  exists a, b. split; [rewrite <- app_assoc_s, <- E'; exact E|]. split; [exact A|]. split; [exact B|]. split; [exact M|].
  intros r c X. apply (N (a ++ r)%string c). rewrite E', X, app_assoc_s. reflexivity.
Qed.
Lemma trim_right_blank b : every_char blank b -> trim_right b = "".
Proof. induction b as [|x b IH]; intros H; [reflexivity|]. destruct H as [H B]. cbn [trim_right]. rewrite (IH B). apply blank_ws in H. rewrite H. reflexivity. Qed.
Lemma trim_right_app x b : every_char blank b -> trim_right (x ++ b)%string = trim_right x.
Proof. intros B. induction x as [|y x IH]; cbn [append trim_right]; [apply trim_right_blank, B|]. rewrite IH. reflexivity. Qed.
Lemma trim_right_same x c : ~ blank c -> trim_right (x ++ String c "")%string = (x ++ String c "")%string.
Proof.
  intros N. induction x as [|y x IH]; cbn [append trim_right]; [apply blank_dec_false in N; rewrite N; reflexivity|]. rewrite IH. destruct x; reflexivity.
Qed.
Lemma trim_left_app a x : every_char blank a -> trim_left (a ++ x)%string = trim_left x.
Proof. induction a as [|y a IH]; intros H; [reflexivity|]. destruct H as [H B]. cbn [append trim_left]. apply blank_ws in H. rewrite H. apply IH, B. Qed.
Lemma string_last t : t = "" \/ exists r c, t = (r ++ String c "")%string.
Proof.
  induction t as [|x t [->|(r & c & ->)]]; [left; reflexivity|right; exists "", x; reflexivity|right; exists (String x r), c; reflexivity].
Qed.
Lemma stripped_trim s t : stripped s t -> t = trim_left (trim_right s).
Proof.
  intros (a & b & -> & A & B & F & L). rewrite <- app_assoc_s, trim_right_app by exact B. destruct (string_last t) as [->|(r & c & E)].
  - rewrite append_nil_r, trim_right_blank by exact A. reflexivity.
  - rewrite E at 2. rewrite <- app_assoc_s, trim_right_same by exact (L r c E). rewrite app_assoc_s, <- E, trim_left_app by exact A.
    destruct t as [|x t]; [reflexivity|]. cbn [trim_left]. assert (W : is_ws x = false) by exact (proj1 (blank_dec_false x) (F x t eq_refl)). rewrite W. reflexivity.
Qed.
Lemma stripped_iff s t : stripped s t <-> t = trim_left (trim_right s).
Proof. split; [apply stripped_trim|intros ->; apply trim_stripped]. Qed.

Section Static.
Variable float : string -> option Qc.
Definition meaning (line : string) : option (string * string) :=
  match after_first "dumbbell equilibrium length:" line with
  | Some r => Some ("dumbbellEquilibriumLength", r)
  | None => match after_first "Weissenberg number:" line with
    | Some r => Some ("weissenbergNumber", r)
    | None => match after_first "lagrangian multiplier ratio:" line with
      | Some r => Some ("lagrangianMultiplierRatio", r)
      | None => None
      end
    end
  end.
Lemma states_meaning line key r : states line key r <-> meaning line = Some (key, r).
Proof.
  unfold meaning.
  pose proof (after_spec "dumbbell equilibrium length:" line ltac:(discriminate)) as A.
  pose proof (after_spec "Weissenberg number:" line ltac:(discriminate)) as B.
  pose proof (after_spec "lagrangian multiplier ratio:" line ltac:(discriminate)) as C.
  split.
  - intros H. destruct H as [r H|r H N|r H N1 N2].
    + destruct (after_first "dumbbell equilibrium length:" line) as [r'|]; [rewrite (first_unique _ _ _ _ A H); reflexivity|]. exfalso. apply A. eapply first_contains, H.
    + destruct (after_first "dumbbell equilibrium length:" line) as [r'|]; [exfalso; apply N; eapply first_contains, A|].
      destruct (after_first "Weissenberg number:" line) as [r'|]; [rewrite (first_unique _ _ _ _ B H); reflexivity|]. exfalso. apply B. eapply first_contains, H.
    + destruct (after_first "dumbbell equilibrium length:" line) as [r'|]; [exfalso; apply N1; eapply first_contains, A|].
      destruct (after_first "Weissenberg number:" line) as [r'|]; [exfalso; apply N2; eapply first_contains, B|].
      destruct (after_first "lagrangian multiplier ratio:" line) as [r'|]; [rewrite (first_unique _ _ _ _ C H); reflexivity|]. exfalso. apply C. eapply first_contains, H.
  - destruct (after_first "dumbbell equilibrium length:" line) as [ra|]; [intros H; injection H as <- <-; apply states_length, A|].
    destruct (after_first "Weissenberg number:" line) as [rb|]; [intros H; injection H as <- <-; apply states_wi; assumption|].
    destruct (after_first "lagrangian multiplier ratio:" line) as [rc|]; [|discriminate]. intros H. injection H as <- <-. apply states_ratio; assumption.
Qed.
Lemma extract_meaning line data : extract_loop float floatKeys line data
  = match meaning line with
    | None => Ok data
    | Some (key, r) => match float (trim_left (trim_right r)) with Some x => Ok (dset String.eqb data key x) | None => Err ValueError end
    end.
Proof.
  unfold meaning. cbn [extract_loop floatKeys]. destruct (after_first "dumbbell equilibrium length:" line); [reflexivity|].
  destruct (after_first "Weissenberg number:" line); [reflexivity|]. destruct (after_first "lagrangian multiplier ratio:" line); reflexivity.
Qed.
Lemma number_meaning line key x : states_number float line key x <-> exists r, meaning line = Some (key, r) /\ float (trim_left (trim_right r)) = Some x.
Proof.
  unfold states_number. split.
  - intros (r & t & H & S & F). apply states_meaning in H. apply stripped_iff in S. subst t. exists r. auto.
  - intros (r & H & F). exists r, (trim_left (trim_right r)). rewrite states_meaning, stripped_iff. auto.
Qed.
Lemma nonsense_meaning line : states_nonsense float line <-> exists key r, meaning line = Some (key, r) /\ float (trim_left (trim_right r)) = None.
Proof.
  unfold states_nonsense. split.
  - intros (k & r & t & H & S & F). apply states_meaning in H. apply stripped_iff in S. subst t. exists k, r. auto.
  - intros (k & r & H & F). exists k, r, (trim_left (trim_right r)). rewrite states_meaning, stripped_iff. auto.
Qed.
(** The number that lines state last for a key. *)
Definition said (line key : string) : option Qc :=
  match meaning line with Some (k, r) => if String.eqb key k then float (trim_left (trim_right r)) else None | None => None end.
Fixpoint said_last (lines : list string) (key : string) : option Qc :=
  match lines with [] => None | l :: r => match said_last r key with Some x => Some x | None => said l key end end.
Lemma lines_ok lines : (forall l, In l lines -> ~ states_nonsense float l) -> forall data, exists d, static_lines float lines data = Ok d
  /\ forall key, dget String.eqb d key = match said_last lines key with Some x => Some x | None => dget String.eqb data key end.
Proof.
  induction lines as [|l lines IH]; intros N data; [exists data; auto|]. cbn [static_lines said_last]. rewrite extract_meaning.
  assert (N' : forall k, In k lines -> ~ states_nonsense float k) by (intros k H; apply N; right; exact H).
  pose proof (N l (or_introl eq_refl)) as NL. rewrite nonsense_meaning in NL. unfold said. destruct (meaning l) as [[k r]|].
  - destruct (float (trim_left (trim_right r))) as [x|] eqn:F; [|exfalso; apply NL; exists k, r; auto]. cbn [bind].
    destruct (IH N' (dset String.eqb data k x)) as (d & R & G). exists d. split; [exact R|]. intros key. rewrite G. destruct (said_last lines key); [reflexivity|].
    rewrite dget_dset by apply String.eqb_eq. destruct (String.eqb key k); reflexivity.
  - cbn [bind]. destruct (IH N' data) as (d & R & G). exists d. split; [exact R|]. intros key. rewrite G. destruct (said_last lines key); reflexivity.
Qed.
Lemma lines_bad lines : (exists l, In l lines /\ states_nonsense float l) -> forall data, static_lines float lines data = Err ValueError.
Proof.
  induction lines as [|l lines IH]; intros (k & H & N) data; [destruct H|]. cbn [static_lines]. rewrite extract_meaning. destruct H as [->|H].
  - apply nonsense_meaning in N. destruct N as (key & r & -> & ->). reflexivity.
  - destruct (meaning l) as [[key r]|]; [destruct (float (trim_left (trim_right r)))|]; cbn [bind]; try reflexivity; apply IH; exists k; auto.
Qed.
Lemma said_number line key x : said line key = Some x <-> states_number float line key x.
Proof.
  rewrite number_meaning. unfold said. split.
  - destruct (meaning line) as [[k r]|]; [|discriminate]. destruct (String.eqb_spec key k) as [->|]; [|discriminate]. intros F. exists r. auto.
  - intros (r & -> & F). rewrite String.eqb_refl. exact F.
Qed.
Lemma said_last_ok lines key x : said_last lines key = Some x <->
  exists l1 l l2, lines = l1 ++ l :: l2 /\ states_number float l key x /\ forall k z, In k l2 -> ~ states_number float k key z.
Proof.
  induction lines as [|l lines IH].
  - split; [discriminate|]. intros ([|? ?] & ? & ? & E & _); discriminate E.
  - cbn [said_last]. split.
    + destruct (said_last lines key) as [y|] eqn:E.
      * intros H. injection H as ->. destruct (proj1 IH eq_refl) as (l1 & k & l2 & -> & X & Y). exists (l :: l1), k, l2. auto.
      * intros H. exists [], l, lines. split; [reflexivity|]. split; [apply said_number, H|]. intros k z HI S.
        assert (T : forall ls, In k ls -> said_last ls key <> None).
        { apply said_number in S. induction ls as [|a ls IHl]; intros HJ; [destruct HJ|]. cbn [said_last]. destruct HJ as [->|HJ].
          - destruct (said_last ls key); [discriminate|]. rewrite S. discriminate.
          - specialize (IHl HJ). destruct (said_last ls key); [discriminate|]. congruence. }
        exact (T lines HI E).
    + intros (l1 & k & l2 & E & X & Y). destruct l1 as [|a l1].
      * injection E as <- <-. assert (Z : said_last lines key = None).
        { clear IH. induction lines as [|b ls IHl]; [reflexivity|]. cbn [said_last]. rewrite IHl; [|intros; apply Y; right; assumption].
          destruct (said b key) as [z|] eqn:W; [|reflexivity]. apply said_number in W. exfalso. apply (Y b z); [left; reflexivity|exact W]. }
        rewrite Z. apply said_number, X.
      * injection E as <- ->. assert (Z : said_last (l1 ++ k :: l2) key = Some x) by (apply IH; exists l1, k, l2; auto). rewrite Z. reflexivity.
Qed.
End Static.

(** * Queries that are about the points only *)
Lemma after_build h : Permutation (pdata (after h)) (build (values_given h)).
Proof.
  destruct (after_good h) as (A & _ & C & _). apply NoDup_Permutation.
  - eapply NoDup_map_inv, A.
  - eapply NoDup_map_inv, build_nodup.
  - intros [x y]. rewrite (good_in h (after h) x y (after_good h)), build_in. reflexivity.
Qed.
Lemma sort_same (d e : data2d) : NoDup (dkeys d) -> Permutation d e -> d2_sort d = d2_sort e.
Proof.
  intros N Q. apply sorted_perm.
  - apply isort_key_sorted. eapply Permutation_NoDup; [apply Permutation_map, Q|exact N].
  - etransitivity; [exact Q|apply isort_perm].
Qed.
Lemma after_sorted h : d2_sort (pdata (after h)) = d2_sort (build (values_given h)).
Proof. apply sort_same; [apply after_good|apply after_build]. Qed.
Lemma maxima_after h incl : getLocalMaxima incl (pdata (after h)) = getLocalMaxima incl (build (values_given h)).
Proof. unfold getLocalMaxima, getLocalExtremaByComparisonFunction. rewrite after_sorted. reflexivity. Qed.
Lemma minima_after h incl : getLocalMinima incl (pdata (after h)) = getLocalMinima incl (build (values_given h)).
Proof. unfold getLocalMinima, getLocalExtremaByComparisonFunction. rewrite after_sorted. reflexivity. Qed.
Lemma last_value_in l x y : last_value l x = Some y -> In (x, y) l.
Proof.
  induction l as [|[a b] l IH]; cbn [last_value]; [discriminate|]. destruct (last_value l x) as [z|].
  - intros H. right. apply IH, H.
  - destruct (qeqb x a) eqn:E; [|discriminate]. apply qeqb_spec in E. intros H. injection H as ->. left. congruence.
Qed.
Lemma in_last_value l x y : (forall z, In (x, z) l -> z = y) -> In (x, y) l -> last_value l x = Some y.
Proof.
  induction l as [|[a b] l IH]; cbn [last_value In]; intros F H; [destruct H|]. destruct (last_value l x) as [z|] eqn:E.
  - f_equal. apply F. right. apply last_value_in, E.
  - destruct H as [H|H].
    + injection H as -> ->. assert (X : qeqb x x = true) by (apply qeqb_spec; reflexivity). rewrite X. reflexivity.
    + exfalso. assert (X : None = Some y) by (apply IH; [intros z Z; apply F; right; exact Z|exact H]). discriminate X.
Qed.
Lemma sorted_snoc l (x : Qc) : StronglySorted Qclt l -> (forall a, In a l -> a < x) -> StronglySorted Qclt (l ++ [x]).
Proof.
  induction 1 as [|a l H IH F]; intros B; cbn [app]; [repeat constructor|]. constructor; [apply IH; intros; apply B; right; assumption|].
  apply Forall_app. split; [exact F|]. constructor; [apply B; left; reflexivity|constructor].
Qed.
Lemma merge_sorted (l : data2d) : StronglySorted (fun a b => key_le a b = true) l -> forall acc, StronglySorted Qclt (dkeys acc) ->
  (forall a b, In a (dkeys acc) -> In b l -> a <= fst b) -> StronglySorted Qclt (dkeys (fold_left (fun d p => addPoint d (fst p) (snd p)) l acc)).
Proof.
  induction 1 as [|[x y] l H IH F]; intros acc A B; cbn [fold_left]; [exact A|]. rewrite Forall_forall in F. cbn [fst snd].
  assert (K : dkeys (addPoint acc x y) = dkeys acc ++ (if in_dec Qc_eq_dec x (dkeys acc) then [] else [x])) by apply dset_keys.
  apply IH.
  - rewrite K. destruct (in_dec Qc_eq_dec x (dkeys acc)) as [i|n]; [rewrite app_nil_r; exact A|]. apply sorted_snoc; [exact A|].
    intros a I. pose proof (B a (x, y) I (or_introl eq_refl)) as L. cbn [fst] in L. apply Qcle_lt_or_eq in L. destruct L as [L|E]; [exact L|]. subst. contradiction.
  - intros a b I J. rewrite K in I. apply in_app_or in I. destruct I as [I|I]; [apply B; [exact I|right; exact J]|].
    destruct (in_dec Qc_eq_dec x (dkeys acc)); [destruct I|]. destruct I as [<-|[]]. apply F in J. apply qleb_spec in J. exact J.
Qed.
Lemma keys_increasing (l : data2d) : StronglySorted Qclt (dkeys l) -> increasing l.
Proof.
  induction l as [|p l IH]; intros H; [constructor|]. inversion H as [|? ? A B]; subst. constructor; [apply IH, A|].
  rewrite Forall_forall in *. intros q Q. apply B. apply in_map, Q.
Qed.
Lemma extrema_ok h incl : exists l, getLocalExtrema false incl (after h) = Ok l /\ increasing l
  /\ forall x y, In (x, y) l <-> is_extremum (fun a b => a < b) incl (values_given h) x y \/ is_extremum (fun a b => b < a) incl (values_given h) x y.
Proof.
  unfold getLocalExtrema. rewrite maxima_after, minima_after. set (u := _ ++ _).
  assert (U : forall x y, In (x, y) u <-> is_extremum (fun a b => a < b) incl (values_given h) x y \/ is_extremum (fun a b => b < a) incl (values_given h) x y).
  { intros x y. unfold u. rewrite in_app_iff, maxima_ok, minima_ok. reflexivity. }
  eexists. split; [reflexivity|]. split.
  - apply keys_increasing. apply merge_sorted; [apply isort_sorted; [apply key_le_total|apply key_le_trans]|constructor|intros a b []].
  - intros x y. rewrite <- U. change (fold_left _ _ _) with (build (d2_sort u)). rewrite build_in. unfold d2_sort. split.
    + intros L. apply last_value_in in L. rewrite isort_in in L. exact L.
    + intros I. apply in_last_value; [|apply isort_in, I]. intros z Z. rewrite isort_in in Z. apply U in Z. apply U in I.
      assert (A : last_value (values_given h) x = Some z) by (destruct Z as [[Z _]|[Z _]]; exact Z).
      assert (B : last_value (values_given h) x = Some y) by (destruct I as [[I _]|[I _]]; exact I). congruence.
Qed.
Lemma average_after h w : getAverageFromSimpleMovingAverage (after h) w = mean_of_values (getSimpleMovingAverageDict (build (values_given h)) w).
Proof. unfold getAverageFromSimpleMovingAverage, getSimpleMovingAverageDict. rewrite after_sorted. reflexivity. Qed.
