(** Theorems on the configuration of the simulation program (C92, C93). *)
From Verif Require Import StrBase CuModel CfgModel CfgSpec CfgProof CfgSetProof CfgReadProof CfgNameProof.
From Coq Require Import Lia.
Open Scope list_scope.
Open Scope Z_scope.

(** For the examples. *)
Definition no_negative (z : Z) : option Z := None.
Definition sample : setting string :=
  Group [("mpc", Group [("timestep", Scalar (VFloat "0.1")); ("sweepSize", Scalar (VInt 5)); ("box", Listing [Scalar (VInt 1); Arr [Scalar (VInt 2)]])]); ("name", Scalar (VString "run"))]%string.
Lemma proper_by s : valid_name s = true -> proper_name s.
Proof. apply proper_valid. Qed.
Ltac proper := split; [discriminate|]; intros ? H; cbn in H; repeat (destruct H as [<-|H]; [apply proper_by; vm_compute; reflexivity|]); contradiction.
Lemma free_way {D} (root : setting D) p : way_free root p -> free root p.
Proof.
  intros F q r u E N W. apply (F q u); [exists r; assumption| |now apply walk_reaches].
  intros ->. rewrite <- (app_nil_r p) in E at 1. apply app_inv_head in E. congruence.
Qed.
Lemma put_unchanged {D} (root : setting D) p leaf : free root p -> unchanged_outside root (put root p leaf) p.
Proof.
  intros F. split.
  - intros q s B1 B2. rewrite <- !walk_reaches, put_other by assumption. tauto.
  - intros q [r E] N. assert (R : r <> []) by (intros ->; apply N; rewrite E; symmetry; apply app_nil_r). subst p.
    destruct (put_above root q r leaf F R) as (m' & W & K). exists m'. split; [now apply walk_reaches|].
    intros m M. apply walk_reaches in M. destruct (K m M) as [A|(n & A & [x B] & C)]; [now left|]. right. exists n. repeat split; [assumption| |now apply walk_absent].
    exists x. rewrite B. now rewrite <- app_assoc.
Qed.

(** C92: a value is set where there is none yet or one of the same type; groups are made as needed, and nothing else changes. *)
Theorem configuration_set : forall D debug (m : list (string * setting D)) p v, proper_path p -> way_free (Group m) p ->
  (forall s, reaches (Group m) p s -> exists w, s = Scalar w /\ same_type w v) ->
  exists root', set D debug (Group m) (dotted p) v = (root', None) /\ reaches root' p (Scalar v) /\ unchanged_outside (Group m) root' p.
Proof.
  intros D debug m p v P F T. apply free_way in F. exists (put (Group m) p (Scalar v)). split; [|split].
  - unfold set. rewrite split_dotted by assumption. apply set_loop_ok with (c := Group m) (cur := []).
    + apply P.
    + intros k [[]|K]. now apply P.
    + reflexivity.
    + assumption.
    + intros s W. apply T. now apply walk_reaches.
  - apply walk_reaches. now apply put_at.
  - now apply put_unchanged.
Qed.
Print Assumptions configuration_set.
Example configuration_set_ex :
  set string true sample "mpc.fluid.density" (VInt 10) =
    (Group [("mpc", Group [("timestep", Scalar (VFloat "0.1")); ("sweepSize", Scalar (VInt 5)); ("box", Listing [Scalar (VInt 1); Arr [Scalar (VInt 2)]]);
                           ("fluid", Group [("density", Scalar (VInt 10))])]); ("name", Scalar (VString "run"))]%string, None)
  /\ set string true sample "mpc.sweepSize" (VInt 7) =
    (Group [("mpc", Group [("timestep", Scalar (VFloat "0.1")); ("sweepSize", Scalar (VInt 7)); ("box", Listing [Scalar (VInt 1); Arr [Scalar (VInt 2)]])]);
            ("name", Scalar (VString "run"))]%string, None)
  /\ proper_path ["mpc"; "fluid"; "density"]%string.
Proof. split; [vm_compute; reflexivity|split; [vm_compute; reflexivity|proper]]. Qed.

(** C92: values of another type, and groups, are not replaced; nothing can be set in something that is not a group. Nothing changes then. *)
Theorem configuration_set_rejected : forall D debug (m : list (string * setting D)) p v, proper_path p ->
  (forall s, reaches (Group m) p s -> (forall w, s = Scalar w -> ~ same_type w v) -> set D debug (Group m) (dotted p) v = (Group m, Some InvalidArgument))
  /\ (forall q s, begins q p -> q <> p -> reaches (Group m) q s -> (forall n, s <> Group n) ->
      set D debug (Group m) (dotted p) v = (Group m, Some (match s with Scalar _ => if debug then GeneralException else SettingTypeException | _ => SettingTypeException end))).
Proof.
  intros D debug m p v P. unfold set. rewrite split_dotted by assumption. split.
  - intros s R T. apply walk_reaches in R. eapply set_loop_wrong with (c := Group m) (cur := []); try eassumption; [apply P| |reflexivity].
    intros k [[]|K]. now apply P.
  - intros q s [r E] N R G. apply walk_reaches in R. subst p.
    assert (Q : q <> []) by (intros ->; cbn in R; injection R as <-; eapply G; reflexivity).
    assert (X : r <> []) by (intros ->; rewrite app_nil_r in N; congruence).
    rewrite (set_loop_blocked debug v q r (Group m) [] (Group m) s Q X); [|intros k [[]|K]; apply P, in_or_app; now left|reflexivity|assumption|assumption].
    destruct s as [x|n|l|l]; cbn [isAggregate negb]; destruct debug; reflexivity.
Qed.
Print Assumptions configuration_set_rejected.
Example configuration_set_rejected_ex :
  set string true sample "mpc.timestep" (VInt 1) = (sample, Some InvalidArgument) /\ set string true sample "mpc" (VInt 1) = (sample, Some InvalidArgument)
  /\ set string true sample "name.a.b" (VInt 1) = (sample, Some GeneralException) /\ set string false sample "mpc.box.x" (VInt 1) = (sample, Some SettingTypeException).
Proof. vm_compute. auto. Qed.

(** C92: a name with a component that is not a name of a setting is never accepted. *)
Theorem configuration_set_illegal : forall D debug (root : setting D) name v n, well_named root -> In n (split "." name) -> ~ proper_name n ->
  snd (set D debug root name v) <> None.
Proof. intros D debug root name v n H I N. unfold set. apply set_loop_improper with (c := root); [now apply named_well|reflexivity|eauto]. Qed.
Print Assumptions configuration_set_illegal.
Example configuration_set_illegal_ex : split "." "mpc..x" = ["mpc"; ""; "x"]%string /\ ~ proper_name "" /\ set string true sample "mpc..x" (VInt 1) = (sample, Some SettingNameException).
Proof. split; [reflexivity|split; [|vm_compute; reflexivity]]. intros (a & r & E & _). discriminate. Qed.

(** C92: what has been set is read again. *)
Theorem configuration_set_read : forall D neg debug (m : list (string * setting D)) p v t root', proper_path p -> has_type v t ->
  set D debug (Group m) (dotted p) v = (root', None) -> read D neg t root' (dotted p) = Done v.
Proof.
  intros D neg debug m p v t root' P T E.
  assert (R : reaches root' p (Scalar v)).
  { assert (C : (exists s, reaches (Group m) p s /\ forall w, s = Scalar w -> ~ same_type w v) \/ (forall s, reaches (Group m) p s -> exists w, s = Scalar w /\ same_type w v)).
    { destruct (walk D (Group m) p) as [s|] eqn:W.
      - assert (Q : (forall w, s = Scalar w -> ~ same_type w v) \/ exists w, s = Scalar w /\ same_type w v).
        { destruct s as [w| | |]; try (left; discriminate). destruct w, v; try (right; eexists; split; [reflexivity|constructor]); left; intros w [= <-] X; inversion X. }
        destruct Q as [Q|Q]; [left; exists s; split; [now apply walk_reaches|assumption]|].
        right. intros s' R'. apply walk_reaches in R'. rewrite W in R'. injection R' as <-. assumption.
      - right. intros s R. apply walk_reaches in R. congruence. }
    destruct C as [(s & R & C)|C].
    - rewrite (proj1 (configuration_set_rejected D debug m p v P) s R C) in E. discriminate.
    - assert (F : (exists q s, begins q p /\ q <> p /\ reaches (Group m) q s /\ forall n, s <> Group n) \/ way_free (Group m) p).
      { clear - P. cut (forall k, (k <= length p)%nat -> (exists q s, begins q p /\ q <> p /\ reaches (Group m) q s /\ forall n, s <> Group n)
          \/ forall q s, begins q p -> (length q < k)%nat -> reaches (Group m) q s -> exists n, s = Group n).
        { intros H. destruct (H (length p) (Nat.le_refl _)) as [A|A]; [now left|]. right. intros q s [r B] N R. apply (A q s); [exists r; assumption| |assumption].
          rewrite B, app_length. destruct r; [rewrite app_nil_r in B; congruence|cbn; lia]. }
        induction k as [|k IH]; intros L; [right; intros; lia|]. destruct IH as [A|A]; [lia|now left|].
        assert (FB : begins (firstn k p) p) by (exists (skipn k p); symmetry; apply firstn_skipn).
        assert (UQ : forall q, begins q p -> length q = k -> q = firstn k p).
        { intros q [r ->] <-. now rewrite firstn_app, Nat.sub_diag, firstn_all, app_nil_r. }
        destruct (walk D (Group m) (firstn k p)) as [s|] eqn:W.
        - assert (G : (exists n, s = Group n) \/ forall n, s <> Group n) by (destruct s; eauto; right; discriminate).
          destruct G as [[n ->]|G].
          + right. intros q s B Lq R. destruct (Nat.eq_dec (length q) k) as [K|K]; [|apply (A q s); [assumption|lia|assumption]].
            rewrite (UQ q B K) in R. apply walk_reaches in R. exists n. congruence.
          + left. exists (firstn k p), s. repeat split; [assumption| |now apply walk_reaches|assumption]. intros Q. pose proof (firstn_le_length k p). assert (length (firstn k p) = k) by (rewrite firstn_length; lia). rewrite Q in H0. lia.
        - right. intros q s B Lq R. destruct (Nat.eq_dec (length q) k) as [K|K]; [|apply (A q s); [assumption|lia|assumption]].
          rewrite (UQ q B K) in R. apply walk_reaches in R. congruence. }
      destruct F as [(q & s & B & N & R & G)|F].
      + rewrite (proj2 (configuration_set_rejected D debug m p v P) q s B N R G) in E. discriminate.
      + destruct (configuration_set D debug m p v P F C) as (r & E' & R & _). congruence. }
  unfold read. rewrite read_value_proper by assumption. apply walk_reaches in R. rewrite R.
  assert (X : convert D neg t (Scalar v) = Some v) by (destruct T; try reflexivity; cbn [convert]; destruct (Z.ltb_spec z 0); [lia|reflexivity]).
  now rewrite X.
Qed.
Print Assumptions configuration_set_read.
Example configuration_set_read_ex : read string no_negative TInt (fst (set string true sample "mpc.fluid.density" (VInt 10))) "mpc.fluid.density" = Done (VInt 10)
  /\ read string no_negative TFloat (fst (set string true sample "mpc.fluid.density" (VInt 10))) "mpc.timestep" = Done (VFloat "0.1"%string).
Proof. vm_compute. auto. Qed.

(** C92: groups and lists are made, with the groups they are in; a name that is in use is rejected. *)
Theorem configuration_create : forall D (m : list (string * setting D)) p, proper_path p -> forall make kind, (make = createGroup D /\ kind = Group [] \/ make = createList D /\ kind = Listing []) ->
  (absent (Group m) p -> way_free (Group m) p ->
    exists root', make (Group m) (dotted p) = (root', None) /\ reaches root' p kind /\ unchanged_outside (Group m) root' p)
  /\ (forall s, reaches (Group m) p s -> make (Group m) (dotted p) = (Group m, Some GeneralException))
  /\ (forall q s, begins q p -> q <> p -> reaches (Group m) q s -> (forall n, s <> Group n) -> make (Group m) (dotted p) = (Group m, Some SettingTypeException)).
Proof.
  intros D m p P make kind K.
  assert (E : make (Group m) (dotted p) = createAggregateSetting D (Group m) (dotted p) kind) by (destruct K as [[-> ->]|[-> ->]]; reflexivity).
  rewrite E. clear make K E. unfold createAggregateSetting, has. rewrite lookup_proper, split_dotted by assumption. split; [|split].
  - intros A F. apply free_way in F. apply walk_absent in A. rewrite A. exists (put (Group m) p kind). split; [|split].
    + apply aggregate_loop_ok with (c := Group m) (cur := []); try assumption; [apply P| |reflexivity]. intros k [[]|K]. now apply P.
    + apply walk_reaches. now apply put_at.
    + now apply put_unchanged.
  - intros s R. apply walk_reaches in R. now rewrite R.
  - intros q s [r B] N R G. apply walk_reaches in R. subst p.
    assert (X : r <> []) by (intros ->; rewrite app_nil_r in N; congruence).
    destruct (walk D (Group m) (q ++ r)) as [u|] eqn:U.
    + rewrite walk_app, R in U. destruct r as [|n r]; [congruence|]. apply walk_group in U. destruct U as [mm ->]. exfalso. eapply G. reflexivity.
    + eapply aggregate_loop_blocked with (c := Group m) (cur := []); try eassumption; [|reflexivity]. intros k [[]|K]. apply P, in_or_app. now left.
Qed.
Print Assumptions configuration_create.
Example configuration_create_ex :
  createGroup string sample "mpc.fluid.simple" =
    (Group [("mpc", Group [("timestep", Scalar (VFloat "0.1")); ("sweepSize", Scalar (VInt 5)); ("box", Listing [Scalar (VInt 1); Arr [Scalar (VInt 2)]]);
                           ("fluid", Group [("simple", Group [])])]); ("name", Scalar (VString "run"))]%string, None)
  /\ createList string (Group []) "a" = (Group [("a"%string, Listing [])], None) /\ createGroup string sample "mpc.box" = (sample, Some GeneralException)
  /\ createGroup string sample "name.x" = (sample, Some SettingTypeException).
Proof. vm_compute. auto. Qed.

(** C92: an [unsigned int] is stored as the number it is, if it is less than 2^31. *)
Theorem configuration_set_unsigned : forall D debug (root : setting D) name z, 0 <= z < 2 ^ 31 -> set_unsigned D debug root name z = set D debug root name (VInt z).
Proof.
  intros D debug root name z H. unfold set_unsigned, to_int, u32. rewrite (Z.mod_small z) by lia.
  destruct (Z.ltb_spec z (2 ^ 31)); [|lia]. rewrite Z.mod_small by lia. now rewrite Z.eqb_refl.
Qed.
Print Assumptions configuration_set_unsigned.
Example configuration_set_unsigned_ex : set_unsigned string true (Group []) "a" 2147483647 = (Group [("a"%string, Scalar (VInt 2147483647))], None).
Proof. vm_compute. reflexivity. Qed.
(** C92: a greater one is not stored as a [long long int], as the comparison that is to decide this is one of [unsigned int]: it becomes negative. *)
Theorem configuration_set_unsigned_refuted : forall D debug (m : list (string * setting D)) p z root', proper_path p -> 2 ^ 31 <= z < 2 ^ 32 ->
  set_unsigned D debug (Group m) (dotted p) z = (root', None) ->
  forall neg, read D neg TInt root' (dotted p) = Done (VInt (z - 2 ^ 32)) /\ z - 2 ^ 32 < 0 /\ read D neg TInt64 root' (dotted p) = Fails InvalidConfiguration.
Proof.
  intros D debug m p z root' P H E neg. unfold set_unsigned, to_int, u32 in E. rewrite (Z.mod_small z) in E by lia.
  destruct (Z.ltb_spec z (2 ^ 31)); [lia|].
  replace ((z - 2 ^ 32) mod 2 ^ 32) with z in E by (symmetry; replace (z - 2 ^ 32) with (z + (-1) * 2 ^ 32) by lia; rewrite Z.mod_add by lia; apply Z.mod_small; lia).
  rewrite Z.eqb_refl in E.
  pose proof (configuration_set_read D neg debug m p (VInt (z - 2 ^ 32)) TInt root' P (has_int _) E) as R.
  split; [assumption|split; [lia|]]. unfold read in *. rewrite read_value_proper in R |- * by assumption.
  destruct (walk D root' p) as [[[]| | |]|]; cbn [convert] in *; congruence.
Qed.
Print Assumptions configuration_set_unsigned_refuted.
Example configuration_set_unsigned_refuted_ex : set_unsigned string true (Group []) "a" 3000000000 = (Group [("a"%string, Scalar (VInt (-1294967296)))], None).
Proof. vm_compute. reflexivity. Qed.

(** C93: what exists is found, and what is read is the value of the setting, if that has the type. *)
Theorem configuration_read : forall D neg (root : setting D) p, proper_path p ->
  (has D root (dotted p) = true <-> exists s, reaches root p s)
  /\ (forall s, reaches root p s -> getSetting D root (dotted p) = Done s)
  /\ (absent root p -> getSetting D root (dotted p) = Fails InvalidConfiguration)
  /\ (forall t, (forall s, reaches root p s -> ~ negative_read t s) ->
      (forall v, reaches root p (Scalar v) -> has_type v t -> read D neg t root (dotted p) = Done v)
      /\ ((forall v, reaches root p (Scalar v) -> ~ has_type v t) -> read D neg t root (dotted p) = Fails InvalidConfiguration)).
Proof.
  intros D neg root p P. unfold getSetting, has, read. rewrite lookup_proper by assumption. split; [|split; [|split]].
  - destruct (walk D root p) as [s|] eqn:W.
    + split; [intros _; exists s; now apply walk_reaches|reflexivity].
    + split; [discriminate|]. intros [s R]. apply walk_reaches in R. congruence.
  - intros s R. apply walk_reaches in R. now rewrite R.
  - intros A. apply walk_absent in A. now rewrite A.
  - intros t N. rewrite read_value_proper by assumption. split.
    + intros v R T. pose proof (N _ R) as Q. apply walk_reaches in R. rewrite R. rewrite (proj2 (convert_iff neg t (Scalar v) v Q)); auto.
    + intros H. destruct (walk D root p) as [s|] eqn:W; [|reflexivity]. apply walk_reaches in W. destruct (convert D neg t s) as [v|] eqn:C; [|reflexivity].
      apply convert_iff in C; [|auto]. destruct C as [-> T]. exfalso. eapply H; eassumption.
Qed.
Print Assumptions configuration_read.
Example configuration_read_ex : read string no_negative TUnsigned sample "mpc.sweepSize" = Done (VInt 5) /\ read string no_negative TFloat sample "mpc.sweepSize" = Fails InvalidConfiguration
  /\ has string sample "mpc.box" = true /\ has string sample "mpc.boxes" = false /\ reaches sample ["mpc"; "sweepSize"]%string (Scalar (VInt 5)).
Proof. repeat split; try (vm_compute; reflexivity). apply walk_reaches. vm_compute. reflexivity. Qed.

(** C93: it makes no difference whether a setting is found from the configuration or from a group in it. *)
Theorem configuration_relative : forall D neg (root s : setting D) p q, proper_path p -> proper_path q -> reaches root p s ->
  setting_has D s (dotted q) = Done (has D root (dotted (p ++ q)))
  /\ setting_getSetting D s (dotted q) = getSetting D root (dotted (p ++ q))
  /\ (forall t, setting_read D neg t s (dotted q) = read D neg t root (dotted (p ++ q)))
  /\ (forall debug u, reaches s q u -> isArrayOrList D u = true -> setting_getList D debug s (dotted q) = getList D root (dotted (p ++ q))).
Proof.
  intros D neg root s p q P Q R. apply walk_reaches in R.
  assert (PQ : proper_path (p ++ q)).
  { destruct P as [N P], Q as [_ Q]. split; [destruct p; [congruence|discriminate]|]. intros n I. apply in_app_or in I. destruct I; auto. }
  assert (W : walk D root (p ++ q) = walk D s q) by (rewrite walk_app, R; reflexivity).
  unfold setting_getList, setting_getSetting, getSetting, getList, has, read. rewrite setting_has_proper, !lookup_proper, W by assumption. split; [reflexivity|split; [|split]].
  - destruct (walk D s q); reflexivity.
  - intros t. rewrite setting_read_proper, !read_value_proper, W by assumption. reflexivity.
  - intros debug u U A. apply walk_reaches in U. rewrite U. cbn [negb]. rewrite A. cbn [negb]. rewrite andb_false_r. reflexivity.
Qed.
Print Assumptions configuration_relative.
Example configuration_relative_ex : exists s, getSetting string sample "mpc" = Done s /\ setting_read string no_negative TInt s "sweepSize" = Done (VInt 5) /\ setting_has string s "fluid.simple" = Done false.
Proof. eexists. split; [reflexivity|]. vm_compute. auto. Qed.

(** C93: in a group, a name that begins or ends with a dot is rejected, wherever it is asked for. *)
Theorem configuration_illegal : forall D neg (s : setting D) r t, has_char "." r = false ->
  (forall x, setting_has D s (String "." x) = Fails InvalidArgument /\ setting_read D neg t s (String "." x) = Fails InvalidArgument
    /\ setting_getSetting D s (String "." x) = Fails InvalidArgument)
  /\ setting_has D s (r ++ ".") = Fails InvalidArgument /\ setting_read D neg t s (r ++ ".") = Fails InvalidArgument
  /\ setting_getSetting D s (r ++ ".") = Fails InvalidArgument.
Proof.
  intros D neg s r t H.
  assert (A : forall x, setting_has D s (String "." x) = Fails InvalidArgument) by reflexivity.
  assert (E : String.eqb r "" || String.eqb "" "" = true) by (cbn; apply orb_true_r).
  assert (B : setting_has D s (r ++ ".") = Fails InvalidArgument).
  { unfold setting_has. destruct (String.length (r ++ ".")); cbn [has_loop]; rewrite (at_dot_some r "" H), E; reflexivity. }
  split; [|split; [exact B|split]].
  - intros x. split; [apply A|split; [reflexivity|]]. unfold setting_getSetting. now rewrite A.
  - unfold setting_read. destruct (String.length (r ++ ".")); cbn [setting_read_loop]; rewrite (at_dot_some r "" H), E; reflexivity.
  - unfold setting_getSetting. now rewrite B.
Qed.
Print Assumptions configuration_illegal.
(** C93: elsewhere in a name, an empty component is only noticed if the group before it exists, which the documentation does not say. *)
Theorem configuration_illegal_refuted : forall D (s : setting D) n x, proper_name n -> absent s [n] ->
  setting_has D s (n ++ ".." ++ String x "") = Done false
  /\ forall m, setting_has D (Group ((n, s) :: m)) (n ++ ".." ++ String x "") = Fails InvalidArgument.
Proof.
  intros D s n x P A. apply walk_absent in A. cbn [walk] in A.
  assert (M : exists_ D s n = false) by (unfold exists_; destruct (member D s n); [discriminate|reflexivity]).
  assert (E : at_dot (n ++ ".." ++ String x "") = Some (n, String "." (String x ""))) by (change (".." ++ String x "")%string with (String "." (String "." (String x ""))); apply at_dot_some, proper_dotless, P).
  assert (L : exists f, String.length (n ++ ".." ++ String x "") = Datatypes.S f) by (destruct P as (a & r & -> & _); cbn; eauto).
  destruct L as [f L].
  assert (N : String.eqb n "" = false) by (destruct (String.eqb_spec n ""); [now apply proper_nonempty in P|reflexivity]).
  unfold setting_has. rewrite L. cbn [has_loop]. rewrite E, N. cbn [orb String.eqb]. rewrite M. split; [reflexivity|].
  intros m. unfold exists_. rewrite (lookup_one _ _ P). cbn [member find_member]. rewrite String.eqb_refl. cbn [negb].
  destruct f; reflexivity.
Qed.
Print Assumptions configuration_illegal_refuted.
Example configuration_illegal_ex : setting_has string sample "mpc..x" = Fails InvalidArgument /\ setting_has string sample "md..x" = Done false /\ setting_has string sample "mpc." = Fails InvalidArgument.
Proof. vm_compute. auto. Qed.

(** C93: the children of a group, their names, and the first one whose name is not among some names. *)
Theorem configuration_children : forall D (m : list (string * setting D)),
  getChildCount D (Group m) = length m
  /\ (forall i n s, nth_error m i = Some (n, s) -> getChild D (Group m) i = Done (Some n, s))
  /\ (forall i, (length m <= i)%nat -> getChild D (Group m) i = Fails InvalidArgument)
  /\ forall names offender,
    ((forall n, In n (map fst m) -> In n names) -> childrenHaveNamesInCollection D (Group m) names offender = Done (true, offender))
    /\ (forall n, first_not_in names (map fst m) n -> childrenHaveNamesInCollection D (Group m) names offender = Done (false, n)).
Proof.
  intros D m. split; [reflexivity|split; [|split]].
  - intros i n s E. rewrite getChild_nth. cbn [children]. rewrite (map_nth_error (fun p => (Some (fst p), snd p)) i m E). reflexivity.
  - intros i L. rewrite getChild_nth. cbn [children]. rewrite (proj2 (nth_error_None (map (fun p => (Some (fst p), snd p)) m) i)); [reflexivity|]. now rewrite map_length.
  - intros names offender.
    assert (IN : forall x, existsb (String.eqb x) names = true <-> In x names).
    { intros x. rewrite existsb_exists. split; [intros (y & I & E); apply String.eqb_eq in E; now subst|intros I; exists x; split; [assumption|apply String.eqb_refl]]. }
    pose proof (names_loop_ok names offender m (getChildCount D (Group m)) [] m eq_refl eq_refl) as NL. cbn [length] in NL. unfold childrenHaveNamesInCollection. rewrite NL. clear NL. split.
    + intros H. destruct (find _ (map fst m)) as [x|] eqn:F; [|reflexivity]. apply find_some in F. destruct F as [I F]. apply H, IN in I. rewrite I in F. discriminate.
    + intros n F. induction F as [n r N|k r n K F IH].
      * cbn [find]. destruct (existsb (String.eqb n) names) eqn:E; [apply IN in E; contradiction|reflexivity].
      * cbn [find]. apply IN in K. rewrite K. cbn [negb]. exact IH.
Qed.
Print Assumptions configuration_children.
Example configuration_children_ex : childrenHaveNamesInCollection string sample ["name"; "mpc"; "x"]%string "?" = Done (true, "?"%string)
  /\ childrenHaveNamesInCollection string sample ["mpc"; "x"]%string "?" = Done (false, "name"%string) /\ first_not_in ["mpc"; "x"]%string ["mpc"; "name"]%string "name".
Proof. repeat split; try (vm_compute; reflexivity). apply first_later; [now left|]. apply first_here. cbn. intuition discriminate. Qed.

(** C93: the elements of lists and arrays. *)
Theorem configuration_lists : forall D neg (l : list (setting D)) list', (list' = Listing l \/ list' = Arr l) ->
  list_getSize D list' = Z.of_nat (length l)
  /\ (forall i s, nth_error l i = Some s ->
      list_getSetting D list' (Z.of_nat i) = Done s
      /\ (forall t v, s = Scalar v -> has_type v t -> list_read D neg t list' (Z.of_nat i) = Done v)
      /\ (forall t, ~ negative_read t s -> (forall v, s = Scalar v -> ~ has_type v t) -> list_read D neg t list' (Z.of_nat i) = Fails InvalidConfiguration)
      /\ (forall k, s = Listing k \/ s = Arr k -> list_getList D list' (Z.of_nat i) = Done s))
  /\ (forall i, Z.of_nat (length l) <= i -> list_getSetting D list' i = Fails InvalidConfiguration /\ list_getList D list' i = Fails InvalidConfiguration
      /\ forall t, list_read D neg t list' i = Fails InvalidConfiguration).
Proof.
  intros D neg l list' H.
  assert (S : list_getSize D list' = Z.of_nat (length l)) by (destruct H as [-> | ->]; reflexivity).
  assert (C : children D list' = map (fun t => (None, t)) l) by (destruct H as [-> | ->]; reflexivity).
  split; [assumption|split].
  - intros i s E. assert (L : (i < length l)%nat) by (apply nth_error_Some; congruence).
    assert (X : element D list' (Z.of_nat i) = Some s).
    { unfold element. destruct (Z.ltb_spec (Z.of_nat i) 0); [lia|]. rewrite Nat2Z.id, C. rewrite (map_nth_error (fun t => (None, t)) i l E). reflexivity. }
    unfold list_getSetting, list_read, list_getList. rewrite S, X. destruct (Z.leb_spec (Z.of_nat (length l)) (Z.of_nat i)); [lia|].
    split; [reflexivity|split; [|split]].
    + intros t v -> T. assert (Y : convert D neg t (Scalar v) = Some v) by (destruct T; try reflexivity; cbn [convert]; destruct (Z.ltb_spec z 0); [lia|reflexivity]). now rewrite Y.
    + intros t N T. destruct (convert D neg t s) as [v|] eqn:Y; [|reflexivity]. apply convert_iff in Y; [|assumption]. destruct Y as [Y1 Y2]. exfalso. eapply T; eassumption.
    + intros k [-> | ->]; reflexivity.
  - intros i L. unfold list_getSetting, list_read, list_getList. rewrite S. destruct (Z.leb_spec (Z.of_nat (length l)) i); [|lia].
    repeat split. intros t. unfold element. destruct (Z.ltb_spec i 0); [reflexivity|]. rewrite C.
    rewrite (proj2 (nth_error_None (map (fun t => (None, t)) l) (Z.to_nat i))); [reflexivity|]. rewrite map_length. lia.
Qed.
Print Assumptions configuration_lists.
Example configuration_lists_ex : exists s, getList string sample "mpc.box" = Done s /\ list_read string no_negative TInt s 0 = Done (VInt 1) /\ list_read string no_negative TInt s 1 = Fails InvalidConfiguration
  /\ list_getList string s 1 = Done (Arr [Scalar (VInt 2)]).
Proof. eexists. split; [reflexivity|]. vm_compute. auto. Qed.
(** C93: for something else than a list, the exception is not the documented [InvalidConfigurationException]; without [OPENMPCD_DEBUG], a group in the
    configuration does not even notice. *)
Theorem configuration_lists_refuted : forall D (root s : setting D) p, proper_path p -> reaches root p s -> isArrayOrList D s = false ->
  getList D root (dotted p) = Fails GeneralException
  /\ (forall q n, p = q ++ [n] -> forall g, reaches root q g -> setting_getList D false g n = Done s /\ setting_getList D true g n = Fails GeneralException).
Proof.
  intros D root s p P R A. split.
  - unfold getList, has. rewrite lookup_proper by assumption. apply walk_reaches in R. rewrite R. cbn [negb]. now rewrite A.
  - intros q n -> g G. apply walk_reaches in R, G. rewrite walk_snoc, G in R.
    assert (PN : proper_path [n]) by (apply proper_app with (p := q); [assumption|discriminate]).
    unfold setting_getList, setting_getSetting. change n with (dotted [n]). rewrite setting_has_proper, lookup_proper by assumption.
    cbn [walk]. rewrite R. rewrite A. split; reflexivity.
Qed.
Print Assumptions configuration_lists_refuted.
Example configuration_lists_refuted_ex : getList string sample "mpc.timestep" = Fails GeneralException.
Proof. reflexivity. Qed.

(** C93: several settings are read in order up to the first that cannot be read; a value that is asserted is the one of the setting. *)
Theorem configuration_read_all : forall D neg t (root : setting D) names,
  (forall l, (length l = length names -> (forall i n, nth_error names i = Some n -> exists v, nth_error l i = Some v /\ read D neg t root n = Done v) -> read_all D neg t root names = (l, None)))
  /\ (forall before n after f l, names = before ++ n :: after -> read D neg t root n = Fails f -> read_all D neg t root before = (l, None) -> read_all D neg t root names = (l, Some f)).
Proof.
  intros D neg t root names. split.
  - induction names as [|n names IH]; intros l L H.
    + destruct l; [reflexivity|discriminate].
    + destruct l as [|v l]; [discriminate|]. cbn [read_all]. destruct (H 0%nat n eq_refl) as (v' & E & R). cbn in E. injection E as <-. rewrite R.
      rewrite (IH l); [reflexivity|now injection L|]. intros i k K. exact (H (Datatypes.S i) k K).
  - intros before n after f. revert names. induction before as [|k before IH]; intros names l -> R B; cbn [read_all app] in *.
    + injection B as <-. now rewrite R.
    + destruct (read D neg t root k) as [v|]; [|discriminate]. destruct (read_all D neg t root before) as [l' f'] eqn:E. injection B as <- ->.
      now rewrite (IH _ l' eq_refl R eq_refl).
Qed.
Print Assumptions configuration_read_all.
Example configuration_read_all_ex : read_all string no_negative TInt sample ["mpc.sweepSize"; "mpc.timestep"; "mpc.sweepSize"]%string = ([VInt 5], Some InvalidConfiguration).
Proof. vm_compute. reflexivity. Qed.
Theorem configuration_assert : forall D neg same t (root : setting D) p v, proper_path p -> (forall s, reaches root p s -> ~ negative_read t s) ->
  (assertValue D neg same t root (dotted p) v = None <-> exists w, reaches root p (Scalar w) /\ has_type w t /\ same w v = true)
  /\ (assertValue D neg same t root (dotted p) v <> None -> assertValue D neg same t root (dotted p) v = Some InvalidConfiguration).
Proof.
  intros D neg same t root p v P N. unfold assertValue. rewrite lookup_proper by assumption. destruct (walk D root p) as [s|] eqn:W.
  - pose proof (proj1 (walk_reaches _ _ _) W) as R. destruct (convert D neg t s) as [w|] eqn:C.
    + apply convert_iff in C; [|auto]. destruct C as [-> T]. destruct (same w v) eqn:Q; cbn [negb]; (split; [split|]); try discriminate; try congruence; try reflexivity.
      * intros _. exists w. auto.
      * intros (w' & R' & _ & Q'). apply walk_reaches in R'. congruence.
    + split; [split; [discriminate|]|reflexivity]. intros (w & R' & T & _). apply walk_reaches in R'. rewrite W in R'. injection R' as ->.
      rewrite (proj2 (convert_iff neg t (Scalar w) w (N _ R))) in C; [discriminate|auto].
  - split; [split; [discriminate|]|reflexivity]. intros (w & R' & _). apply walk_reaches in R'. congruence.
Qed.
Print Assumptions configuration_assert.
Example configuration_assert_ex : assertValue string no_negative (fun a b => match a, b with VInt x, VInt y => x =? y | _, _ => false end) TInt sample "mpc.sweepSize" (VInt 5) = None
  /\ assertValue string no_negative (fun a b => match a, b with VInt x, VInt y => x =? y | _, _ => false end) TInt sample "mpc.sweepSize" (VInt 6) = Some InvalidConfiguration.
Proof. vm_compute. auto. Qed.
