(** Fits of data, and program versions without known bugs. *)
From Coq Require Import String List ZArith Bool Lia.
From Verif Require Import QcBase PyBase StrBase VtfTextProof EmpProof FitModel FitSpec FitProof.
Import ListNotations.
Open Scope list_scope.

(** C68: with valid arguments, [curve_fit] gets the data, the errors as absolute errors if there are any, and the bounds; its results are stored. If it fails, previous results stay. *)
Theorem fit_called : forall V F curve_fit callable arguments self f xs ys errs lower upper,
  callable f = true -> length xs = length ys -> (forall e, errs = Some e -> length e = length ys) ->
  proper_bounds (arguments f - 1) lower -> proper_bounds (arguments f - 1) upper -> arguments f <> 0%nat ->
  exists lo up, (forall i, passed lo i = asked lower i) /\ (forall i, passed up i = asked upper i) /\
  let c := Call V F f xs ys errs (match errs with Some _ => true | None => false end) lo up in
  (forall r, curve_fit c = Ok r -> fit V F curve_fit callable arguments self f xs ys errs lower upper = (Some r, Ok tt))
  /\ (forall e, curve_fit c = Err e -> fit V F curve_fit callable arguments self f xs ys errs lower upper = (self, Err e)).
Proof.
  intros V F curve_fit callable arguments self f xs ys errs lower upper C L E BL BU A.
  exists (proper V lower), (proper V upper).
  assert (X : forall b, proper_bounds (arguments f - 1) b -> (forall i, passed (proper V b) i = asked b i) /\ bounds_check V F arguments f b = Ok tt).
  { intros b [->|(l & -> & Hl)]; split; try reflexivity. cbn. rewrite Hl. destruct (Z.eqb_spec (Z.of_nat (arguments f - 1)) (Z.of_nat (arguments f) - 1)); [reflexivity|lia]. }
  destruct (X _ BL) as [L1 L2], (X _ BU) as [U1 U2]. split; [exact L1|]. split; [exact U1|]. cbn zeta.
  assert (K : match errs with Some e => negb (Nat.eqb (length e) (length ys)) | None => false end = false).
  { destruct errs as [e|]; [|reflexivity]. rewrite (E e eq_refl), Nat.eqb_refl. reflexivity. }
  split; intros r H; unfold fit; rewrite C, L, Nat.eqb_refl, K, L2, U2, H; reflexivity.
Qed.
Print Assumptions fit_called.

(** C68: invalid arguments are rejected and leave previous results as they are. *)
Theorem fit_rejects : forall V F curve_fit callable arguments self f xs ys errs lower upper,
  let call := fit V F curve_fit callable arguments self f xs ys errs lower upper in
  (callable f = false -> call = (self, Err TypeError))
  /\ (callable f = true -> length xs <> length ys -> call = (self, Err ValueError))
  /\ (callable f = true -> length xs = length ys -> (exists e, errs = Some e /\ length e <> length ys) -> call = (self, Err ValueError))
  /\ (callable f = true -> length xs = length ys -> (forall e, errs = Some e -> length e = length ys) -> lower = Other V \/ (lower = NoBounds V /\ upper = Other V) -> call = (self, Err TypeError)).
Proof.
  intros V F curve_fit callable arguments self f xs ys errs lower upper. cbn zeta. unfold fit. repeat split.
  - intros ->. reflexivity.
  - intros -> H. destruct (Nat.eqb_spec (length xs) (length ys)); [contradiction|reflexivity].
  - intros -> -> (e & -> & H). rewrite Nat.eqb_refl. destruct (Nat.eqb_spec (length e) (length ys)); [contradiction|reflexivity].
  - intros -> -> E H. rewrite Nat.eqb_refl. 
    assert (K : match errs with Some e => negb (Nat.eqb (length e) (length ys)) | None => false end = false).
    { destruct errs as [e|]; [|reflexivity]. rewrite (E e eq_refl), Nat.eqb_refl. reflexivity. }
    rewrite K. destruct H as [->|[-> ->]]; reflexivity.
Qed.
Print Assumptions fit_rejects.

(** C68, refuted: bounds of the wrong length raise a [TypeError], whereas Fit.py l.33-35 documents a [ValueError]. *)
Theorem fit_bounds_refuted : forall V F curve_fit callable arguments self f xs ys errs l upper,
  callable f = true -> length xs = length ys -> (forall e, errs = Some e -> length e = length ys) -> S (length l) <> arguments f ->
  fit V F curve_fit callable arguments self f xs ys errs (Bounds V l) upper = (self, Err TypeError).
Proof.
  intros V F curve_fit callable arguments self f xs ys errs l upper C L E N. unfold fit. rewrite C, L, Nat.eqb_refl.
  assert (K : match errs with Some e => negb (Nat.eqb (length e) (length ys)) | None => false end = false).
  { destruct errs as [e|]; [|reflexivity]. rewrite (E e eq_refl), Nat.eqb_refl. reflexivity. }
  rewrite K. cbn. destruct (Z.eqb_spec (Z.of_nat (length l)) (Z.of_nat (arguments f) - 1)); [lia|reflexivity].
Qed.
Print Assumptions fit_bounds_refuted.

(** Fitting a constant: the mean, with zero variance; [true] stands for [lambda x, c: c]. *)
Definition example_fit (c : call Z bool) : result (results Z) :=
  match c_y Z bool c with [] => Err ValueError | y => Ok ([(fold_right Z.add 0 y / Z.of_nat (length y))%Z], [[0%Z]]) end.
Definition fit_example := fit Z bool example_fit (fun f => f) (fun _ => 2%nat).
Example fit_ex1 : fit_example None true [1; 2; 3]%Z [4; 6; 8]%Z None (NoBounds Z) (Bounds Z [None]) = (Some ([6]%Z, [[0]]%Z), Ok tt)
  /\ fit_example (Some ([6]%Z, [[0]]%Z)) true [] [] None (NoBounds Z) (NoBounds Z) = (Some ([6]%Z, [[0]]%Z), Err ValueError)
  /\ fit_example None true [1]%Z [2]%Z None (Bounds Z [Some 1%Z; None]) (NoBounds Z) = (None, Err TypeError)
  /\ fit_example None true [1]%Z [2]%Z (Some [1; 1]%Z) (NoBounds Z) (NoBounds Z) = (None, Err ValueError).
Proof. vm_compute. auto. Qed.

(** C68: the parameters and their covariances can be asked for once there has been a fit. *)
Theorem fit_parameters : forall V (self : fit_object V),
  (self = None -> getFitParameterCount V self = Err RuntimeError
     /\ forall i j, getFitParameter V self i = Err RuntimeError /\ getFitParameterVariance V self i = Err RuntimeError /\ getFitParameterCovariance V self i j = Err RuntimeError)
  /\ forall n r, self = Some r -> shaped n r -> getFitParameterCount V self = Ok n
     /\ (forall i, (i < n)%nat -> exists a row c, nth_error (fst r) i = Some a /\ nth_error (snd r) i = Some row /\ nth_error row i = Some c
          /\ getFitParameter V self (Some (Z.of_nat i)) = Ok a /\ getFitParameterVariance V self (Some (Z.of_nat i)) = Ok c)
     /\ (forall i j, (i < n)%nat -> (j < n)%nat -> exists row c, nth_error (snd r) i = Some row /\ nth_error row j = Some c
          /\ getFitParameterCovariance V self (Some (Z.of_nat i)) (Some (Z.of_nat j)) = Ok c)
     /\ (forall z, (z < 0 \/ Z.of_nat n <= z)%Z -> getFitParameter V self (Some z) = Err ValueError /\ getFitParameterVariance V self (Some z) = Err ValueError
          /\ forall y, getFitParameterCovariance V self (Some z) (Some y) = Err ValueError /\ getFitParameterCovariance V self (Some y) (Some z) = Err ValueError)
     /\ (forall i, getFitParameter V self None = Err TypeError /\ getFitParameterVariance V self None = Err TypeError
          /\ getFitParameterCovariance V self None i = Err TypeError /\ getFitParameterCovariance V self i None = Err TypeError).
Proof.
  intros V self. split; [intros ->; repeat split|]. intros n r -> (A1 & A2 & A3). rewrite Forall_forall in A3.
  assert (G : forall i, (i < n)%nat -> index_check n (Some (Z.of_nat i)) = Ok i).
  { intros i Hi. unfold index_check. destruct (Z.ltb_spec (Z.of_nat i) 0); [lia|]. destruct (Z.leb_spec (Z.of_nat n) (Z.of_nat i)); [lia|]. cbn. rewrite Nat2Z.id. reflexivity. }
  assert (B : forall z, (z < 0 \/ Z.of_nat n <= z)%Z -> index_check n (Some z) = Err ValueError).
  { intros z H. unfold index_check. destruct (Z.ltb_spec z 0); [reflexivity|]. destruct (Z.leb_spec (Z.of_nat n) z); [reflexivity|lia]. }
  assert (NE : forall A (l : list A) i, (i < length l)%nat -> exists x, nth_error l i = Some x).
  { intros A l i H. destruct (nth_error l i) as [x|] eqn:E; [eauto|]. apply nth_error_None in E. lia. }
  split; [cbn; congruence|]. split; [|split; [|split]].
  - intros i Hi. destruct (NE _ (fst r) i ltac:(lia)) as [a Ea]. destruct (NE _ (snd r) i ltac:(lia)) as [row Er].
    pose proof (A3 _ (nth_error_In _ _ Er)) as Hr. destruct (NE _ row i ltac:(lia)) as [c Ec]. exists a, row, c.
    unfold getFitParameter, getFitParameterVariance. rewrite A1, G by exact Hi. cbn [bind]. unfold item. rewrite Ea, Er. cbn [bind]. rewrite Ec. auto.
  - intros i j Hi Hj. destruct (NE _ (snd r) i ltac:(lia)) as [row Er].
    pose proof (A3 _ (nth_error_In _ _ Er)) as Hr. destruct (NE _ row j ltac:(lia)) as [c Ec]. exists row, c.
    unfold getFitParameterCovariance. rewrite A1, !G by assumption. cbn [bind]. unfold item. rewrite Er. cbn [bind]. rewrite Ec. auto.
  - intros z H. unfold getFitParameter, getFitParameterVariance, getFitParameterCovariance. rewrite A1, (B z H). split; [reflexivity|]. split; [reflexivity|].
    intros y. split; [reflexivity|]. destruct (index_check n (Some y)) eqn:E; [reflexivity|]. cbn [bind].
    unfold index_check in E. destruct (_ || _); congruence.
  - intros i. repeat split. destruct i; reflexivity.
Qed.
Print Assumptions fit_parameters.
Example fit_parameters_ex : shaped 2 ([1; 2]%Z, [[3; 4]; [4; 5]]%Z) /\ getFitParameterCovariance Z (Some ([1; 2]%Z, [[3; 4]; [4; 5]]%Z)) (Some 0%Z) (Some 1%Z) = Ok 4%Z
  /\ getFitParameterVariance Z (Some ([1; 2]%Z, [[3; 4]; [4; 5]]%Z)) (Some 1%Z) = Ok 5%Z.
Proof. repeat split; repeat constructor. Qed.

(** C68: many fits are as many single fits, in order; the first failure is the failure of all. *)
Theorem many_fits : forall V F curve_fit callable arguments f ds,
  (forall l, multipleIndependentDataFits V F curve_fit callable arguments f ds = Ok l <-> map fst l = ds /\ Forall (fun p => fit_datum V F curve_fit callable arguments f (fst p) = Ok (snd p)) l)
  /\ (forall e, multipleIndependentDataFits V F curve_fit callable arguments f ds = Err e ->
      exists l1 d l2, ds = l1 ++ d :: l2 /\ fit_datum V F curve_fit callable arguments f d = Err e /\ Forall (fun x => is_ok (fit_datum V F curve_fit callable arguments f x) = true) l1).
Proof.
  intros V F curve_fit callable arguments f ds. induction ds as [|d ds [IH1 IH2]]; split.
  - intros l. split; [intros H; injection H as <-; split; [reflexivity|constructor]|]. intros [H _]. destruct l; [reflexivity|discriminate].
  - discriminate.
  - intros l. cbn [multipleIndependentDataFits]. split.
    + destruct (fit_datum V F curve_fit callable arguments f d) as [o|] eqn:E; [|discriminate]. cbn [bind].
      destruct (multipleIndependentDataFits V F curve_fit callable arguments f ds) as [r|] eqn:M; [|discriminate]. cbn [bind]. intros H. injection H as <-.
      destruct (proj1 (IH1 r) eq_refl) as [A B]. cbn. split; [congruence|]. constructor; [exact E|exact B].
    + intros [A B]. destruct l as [|[d' o] l]; [discriminate|]. cbn in A. injection A as -> A. inversion B; subst. cbn [fst snd] in *.
      rewrite H1. cbn [bind]. rewrite (proj2 (IH1 l)) by auto. reflexivity.
  - intros e. cbn [multipleIndependentDataFits]. destruct (fit_datum V F curve_fit callable arguments f d) as [o|e'] eqn:E; cbn [bind].
    + destruct (multipleIndependentDataFits V F curve_fit callable arguments f ds) as [r|e'] eqn:M; cbn [bind]; [discriminate|]. intros H. injection H as ->.
      destruct (IH2 e eq_refl) as (l1 & x & l2 & -> & X & Y). exists (d :: l1), x, l2. split; [reflexivity|]. split; [exact X|]. constructor; [rewrite E; reflexivity|exact Y].
    + intros H. injection H as ->. exists [], d, ds. auto.
Qed.
Print Assumptions many_fits.
(** C68: each of them is a fit by itself, with a new object. *)
Theorem single_fit : forall V F curve_fit callable arguments f x y e r rest,
  fit V F curve_fit callable arguments None f x y e (NoBounds V) (NoBounds V) = r ->
  fit_datum V F curve_fit callable arguments f (Some x :: Some y :: e :: rest) = match snd r with Ok _ => Ok (fst r) | Err ex => Err ex end.
Proof.
  intros V F curve_fit callable arguments f x y e r rest <-. unfold fit_datum. cbn [item nth_error bind].
  destruct (callable f) eqn:C; cbn [negb]; [|unfold fit; rewrite C; reflexivity].
  destruct (fit _ _ _ _ _ _ _ _ _ _ _ _) as [o [[]|ex]]; reflexivity.
Qed.
Print Assumptions single_fit.
(** C68: the best fit is [None] if there are none, and found by the documented procedure; if the comparison is by some measure, it is the first one for which the measure is smallest. *)
Theorem best_fit : forall V F curve_fit callable arguments f ds comparator,
  (forall e, multipleIndependentDataFits V F curve_fit callable arguments f ds = Err e -> getBestOutOfMultipleIndependentDataFits V F curve_fit callable arguments f ds comparator = Err e)
  /\ (ds = [] -> getBestOutOfMultipleIndependentDataFits V F curve_fit callable arguments f ds comparator = Ok None)
  /\ (forall x l, multipleIndependentDataFits V F curve_fit callable arguments f ds = Ok (x :: l) ->
      exists b, getBestOutOfMultipleIndependentDataFits V F curve_fit callable arguments f ds comparator = Ok (Some b)
      /\ b = fold_left (fun best current => if comparator best current then current else best) l x
      /\ forall m : _ -> Qc, (forall b x, comparator b x = true <-> (m x < m b)%Qc) -> first_smallest m (x :: l) b).
Proof.
  intros V F curve_fit callable arguments f ds comparator. unfold getBestOutOfMultipleIndependentDataFits. split; [|split].
  - intros e ->. reflexivity.
  - intros ->. reflexivity.
  - intros x l ->. cbn [bind best_loop]. eexists. split; [rewrite best_fold; reflexivity|]. split; [reflexivity|].
    intros m H. apply (fold_smallest _ m comparator H l [] [] x); constructor.
Qed.
Print Assumptions best_fit.
Definition parameter (p : datum Z * fit_object Z) : Z := match snd p with Some r => hd 0%Z (fst r) | None => 0%Z end.
Example best_fit_ex : getBestOutOfMultipleIndependentDataFits Z bool example_fit (fun f => f) (fun _ => 2%nat) true
    [[Some [1; 2]; Some [7; 7]; None]; [Some [1]; Some [4]; None]; [Some [2]; Some [4]; Some [1]]]%Z (fun b x => Z.ltb (parameter x) (parameter b))
  = Ok (Some ([Some [1]; Some [4]; None], Some ([4], [[0]])))%Z
  /\ getBestOutOfMultipleIndependentDataFits Z bool example_fit (fun f => f) (fun _ => 2%nat) true [[Some [1]; Some [4]; None]; [Some [1]; Some [4]]]%Z (fun _ _ => true) = Err IndexError.
Proof. vm_compute. auto. Qed.

(** C68: two fits with the same number of parameters are equal exactly if their states are; also if neither has been fitted. (No results are "not a number".) *)
Theorem fits_equal : forall V (differ : V -> V -> bool) mismatch, (forall x y, differ x y = false <-> x = y) ->
  fit_eq V differ mismatch None None = Ok true /\ (forall w, fit_eq V differ mismatch None (Some w) = Ok false)
  /\ forall n v w, shaped n v -> shaped n w -> exists b, fit_eq V differ mismatch (Some v) (Some w) = Ok b /\ (b = true <-> v = w).
Proof. intros V differ mismatch D. split; [reflexivity|]. split; [reflexivity|]. apply eq_same, D. Qed.
Print Assumptions fits_equal.
(** C68, refuted: comparing a fitted object with one that has not been fitted raises a [TypeError]. *)
Theorem fits_unfitted_refuted : forall V (differ : V -> V -> bool) mismatch v,
  fit_eq V differ mismatch (Some v) None = Err TypeError /\ fit_eq V differ mismatch None (Some v) = Ok false.
Proof. intros. split; reflexivity. Qed.
Print Assumptions fits_unfitted_refuted.
(** C68, refuted: a fit with one parameter equals every fit with several parameters if all of these, and all covariances, are the same; [curve_fit] makes all covariances infinite if it cannot estimate them. *)
Theorem fits_broadcast_refuted : forall V (differ : V -> V -> bool) mismatch, (forall x y, differ x y = false <-> x = y) ->
  (forall n a c w, shaped n w -> n <> 1%nat -> exists b, fit_eq V differ mismatch (Some ([a], [[c]])) (Some w) = Ok b /\ (b = true <-> constant a c w))
  /\ (forall n a c w, shaped n w -> n <> 1%nat -> exists b, fit_eq V differ mismatch (Some w) (Some ([a], [[c]])) = Ok b /\ (b = true <-> constant a c w))
  /\ (forall a c, fit_eq V differ mismatch (Some ([a], [[c]])) (Some ([a; a], [[c; c]; [c; c]])) = Ok true).
Proof.
  intros V differ mismatch D. split; [|split].
  - intros n a c w. apply eq_one_left, D.
  - intros n a c w. apply eq_one_right, D.
  - intros a c. destruct (eq_one_left V differ mismatch D 2 a c ([a; a], [[c; c]; [c; c]])) as (b & E & H); [repeat constructor|discriminate|].
    assert (b = true) as -> by (apply H; split; cbn; repeat constructor). exact E.
Qed.
Print Assumptions fits_broadcast_refuted.
(** C68: fits with different numbers of parameters, none of them one, are different; with versions of numpy that raise an exception if arrays have different shapes, so does the comparison. *)
Theorem fits_mixed : forall V (differ : V -> V -> bool) n m v w, shaped n v -> shaped m w -> n <> m -> n <> 1%nat -> m <> 1%nat ->
  fit_eq V differ (Ok true) (Some v) (Some w) = Ok false /\ forall e, fit_eq V differ (Err e) (Some v) (Some w) = Err e.
Proof. intros V differ n m v w A B N N1 N2. split; [|intros e]; rewrite (eq_mixed V differ _ n m v w A B N N1 N2); reflexivity. Qed.
Print Assumptions fits_mixed.
Example fits_equal_ex : let d := fun x y => negb (Z.eqb x y) in
  fit_eq Z d (Ok true) (Some ([1; 2], [[3; 4]; [4; 5]])%Z) (Some ([1; 2], [[3; 4]; [4; 5]])%Z) = Ok true
  /\ fit_eq Z d (Ok true) (Some ([1; 2], [[3; 4]; [4; 5]])%Z) (Some ([1; 2], [[3; 4]; [4; 6]])%Z) = Ok false
  /\ fit_eq Z d (Ok true) (Some ([7], [[9]])%Z) (Some ([7; 7], [[9; 9]; [9; 9]])%Z) = Ok true.
Proof. vm_compute. auto. Qed.

(** C67: a version is reported to be without known bugs exactly if for each known bug, the commit that fixes it is known and is the version itself or one of its ancestors. *)
Theorem known_bugs : forall walk parents, (forall a c, In c (walk a) <-> history parents a c) ->
  (forall bugs commit, containsNoKnownBugs walk bugs commit = true <-> forall bug fixing, In (bug, fixing) bugs -> exists c, fixing = Some c /\ history parents commit c)
  /\ (forall commit, commitContainsNoKnownBugs walk commit = true <-> forall bug c, In (bug, Some c) knownBugs -> history parents commit c).
Proof.
  intros walk parents W.
  assert (G : forall bugs commit, containsNoKnownBugs walk bugs commit = true <-> forall bug fixing, In (bug, fixing) bugs -> exists c, fixing = Some c /\ history parents commit c).
  { intros bugs commit. induction bugs as [|[b [c|]] bugs IH]; cbn [containsNoKnownBugs].
    - split; [intros _ ? ? []|reflexivity].
    - unfold gitCommitAContainsCommitB. destruct (existsb _ (walk commit)) eqn:E.
      + apply existsb_exists in E. destruct E as (x & I & E). apply String.eqb_eq in E. subst x. apply W in I. rewrite IH. split.
        * intros H bug fixing [X|X]; [injection X as <- <-; eauto|eauto].
        * intros H bug fixing X. apply (H bug fixing). right. exact X.
      + split; [discriminate|]. intros H. destruct (H b (Some c) (or_introl eq_refl)) as (x & X & Y). injection X as <-. apply W in Y.
        assert (true = false); [|discriminate]. rewrite <- E. symmetry. apply existsb_exists. exists c. split; [exact Y|apply String.eqb_refl].
    - split; [discriminate|]. intros H. destruct (H b None (or_introl eq_refl)) as (x & X & _). discriminate. }
  split; [exact G|]. intros commit. unfold commitContainsNoKnownBugs. rewrite G. split.
  - intros H bug c X. destruct (H _ _ X) as (c' & E & Y). injection E as ->. exact Y.
  - intros H bug fixing X. assert (N : fixing <> None). { intros ->. repeat destruct X as [X|X]; try discriminate X. destruct X. }
    destruct fixing as [c|]; [|congruence]. exists c. split; [reflexivity|apply (H bug c X)].
Qed.
Print Assumptions known_bugs.
(** C67: versions built on one without known bugs have none either. *)
Theorem known_bugs_later : forall walk parents, (forall a c, In c (walk a) <-> history parents a c) ->
  forall bugs old new, history parents new old -> containsNoKnownBugs walk bugs old = true -> containsNoKnownBugs walk bugs new = true.
Proof.
  intros walk parents W bugs old new H. destruct (known_bugs walk parents W) as [K _]. rewrite !K. intros A bug fixing I.
  destruct (A bug fixing I) as (c & E & X). exists c. split; [exact E|]. clear - H X. induction X; [exact H|]. econstructor; eassumption.
Qed.
Print Assumptions known_bugs_later.
(** Two branches after a common commit. *)
Definition example_parents (c : string) : list string :=
  if String.eqb c "c" then ["a"]%string else if String.eqb c "d" then ["b"; "c"]%string else if String.eqb c "b" then ["a"]%string else [].
Definition example_walk (c : string) : list string :=
  if String.eqb c "d" then ["d"; "b"; "c"; "a"]%string else if String.eqb c "c" then ["c"; "a"]%string else if String.eqb c "b" then ["b"; "a"]%string else [c].
Example known_bugs_ex : (forall a c, In c (example_walk a) <-> history example_parents a c)
  /\ containsNoKnownBugs example_walk [(1%nat, Some "a"); (2%nat, Some "c")]%string "d" = true
  /\ containsNoKnownBugs example_walk [(1%nat, Some "a"); (2%nat, Some "c")]%string "b" = false
  /\ containsNoKnownBugs example_walk [(1%nat, None)]%string "d" = false.
Proof.
  split; [|vm_compute; auto]. intros a c. unfold example_walk.
  destruct (String.eqb_spec a "d") as [->|D]; [|destruct (String.eqb_spec a "c") as [->|C]; [|destruct (String.eqb_spec a "b") as [->|B]]]; split.
  - intros [<-|[<-|[<-|[<-|[]]]]]; [constructor|apply (history_parent _ _ "d"); [constructor|cbn; auto]..|].
    apply (history_parent _ _ "b"); [apply (history_parent _ _ "d"); [constructor|cbn; auto]|cbn; auto].
  - induction 1 as [|x y H IH I]; [cbn; auto|]. destruct IH as [<-|[<-|[<-|[<-|[]]]]]; cbn in I |- *; tauto.
  - intros [<-|[<-|[]]]; [constructor|apply (history_parent _ _ "c"); [constructor|cbn; auto]].
  - induction 1 as [|x y H IH I]; [cbn; auto|]. destruct IH as [<-|[<-|[]]]; cbn in I |- *; tauto.
  - intros [<-|[<-|[]]]; [constructor|apply (history_parent _ _ "b"); [constructor|cbn; auto]].
  - induction 1 as [|x y H IH I]; [cbn; auto|]. destruct IH as [<-|[<-|[]]]; cbn in I |- *; tauto.
  - intros [<-|[]]. constructor.
  - induction 1 as [|x y H IH I]; [cbn; auto|]. destruct IH as [<-|[]]. unfold example_parents in I.
    destruct (String.eqb_spec a "c"); [contradiction|]. destruct (String.eqb_spec a "d"); [contradiction|]. destruct (String.eqb_spec a "b"); [contradiction|]. destruct I.
Qed.

(** C67: the description of the repository is the current commit, and says whether files are modified or untracked, provided that the name by which git describes the commit does not end in the suffix itself. *)
Theorem repository_description : forall r commit, revparse r (describe r) = Some commit -> ~ ends_in (describe r) "+MODIFICATIONS" ->
  exists modified untracked, returnCurrentRepositoryDescription r = Ok (commit ++ (if modified : bool then "+MODIFICATIONS" else "") ++ (if untracked : bool then "+UNTRACKED" else ""))%string
  /\ modified = dirty r /\ (untracked = true <-> exists p, In (p, true) (status r) /\ path_is_ignored r p = false)
  /\ getCurrentGitCommit r = Ok commit.
Proof.
  intros r commit H N. exists (dirty r), (existsb (fun p => snd p && negb (path_is_ignored r (fst p))) (status r)).
  split; [|split; [reflexivity|split]].
  - unfold returnCurrentRepositoryDescription. cbn zeta.
    assert (E : endswith (if dirty r then describe r ++ modificationsString else describe r)%string modificationsString = dirty r).
    { destruct (dirty r); [apply endswith_spec; eexists; reflexivity|]. destruct (endswith _ _) eqn:E; [|reflexivity]. apply endswith_spec in E. contradiction. }
    rewrite E. clear E. destruct (dirty r).
    + rewrite chop_app, H. f_equal. destruct (existsb _ _); [rewrite <- append_assoc'; reflexivity|reflexivity].
    + rewrite H. f_equal. destruct (existsb _ _); [reflexivity|]. cbn. rewrite append_nil_r. reflexivity.
  - rewrite existsb_exists. split.
    + intros ([p b] & I & X). cbn in X. apply andb_true_iff in X. destruct X as [-> X]. exists p. split; [exact I|]. destruct (path_is_ignored r p); [discriminate|reflexivity].
    + intros (p & I & X). exists (p, true). split; [exact I|]. cbn. rewrite X. reflexivity.
  - unfold getCurrentGitCommit. rewrite H. reflexivity.
Qed.
Print Assumptions repository_description.
(** C67, refuted: on a branch whose name ends in "+MODIFICATIONS", an unmodified repository is said to be modified, and to be at the commit of another branch. *)
Theorem repository_description_refuted : exists r commit, revparse r (describe r) = Some commit /\ dirty r = false
  /\ exists other, other <> commit /\ returnCurrentRepositoryDescription r = Ok (other ++ "+MODIFICATIONS")%string.
Proof.
  exists (Repository "heads/x+MODIFICATIONS" false (fun s => if String.eqb s "heads/x+MODIFICATIONS" then Some "c1"%string else if String.eqb s "heads/x" then Some "c2"%string else None) [] (fun _ => false)), "c1"%string.
  split; [reflexivity|]. split; [reflexivity|]. exists "c2"%string. split; [discriminate|]. vm_compute. reflexivity.
Qed.
Print Assumptions repository_description_refuted.
Example repository_description_ex :
  returnCurrentRepositoryDescription (Repository "heads/x" true (fun s => if String.eqb s "heads/x" then Some "c2"%string else None) [("a", false); ("b", true)]%string (fun _ => false)) = Ok "c2+MODIFICATIONS+UNTRACKED"%string.
Proof. vm_compute. reflexivity. Qed.
