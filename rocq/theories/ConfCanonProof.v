(** Proofs about deleting and about the translation of deprecated settings. *)
From Coq Require Import List ZArith String Ascii Bool Lia Qcanon Permutation.
From Verif Require Import QcBase PyBase DictBase StrBase ConfModel ConfSpec ConfProof.
Import ListNotations.
Close Scope string_scope.
Close Scope Qc_scope.
Open Scope nat_scope.

(** The shape of a deletion. *)
Lemma delitem_shape H l key : good H l -> plain key -> contains H l key = Ok true ->
  exists a c j w H', split dot key = a ++ [c] /\ follow H (Ref l) (names a) = Some (Ref j) /\
    child H (Ref j) (SName c) = Some w /\ getitem H l key = Ok w /\
    delitem H l key = (H', Ok tt) /\ one_entry H H' j c None /\ length H' = length H.
Proof.
  intros Hg P EC. unfold contains in EC.
  assert (G : is_group H l) by apply Hg.
  pose proof (plain_Forall _ P) as PF.
  destruct (contains_plain_follow _ _ _ G PF EC) as (w & F).
  pose proof (follow_get _ _ _ _ G F) as GET.
  pose proof (split_nonempty dot key) as NE.
  pose proof (app_removelast_last ""%string NE) as AL.
  remember (removelast (split dot key)) as a eqn:Ea.
  remember (last (split dot key) ""%string) as c eqn:Ecl.
  rewrite AL, names_app, follow_app in F.
  destruct (follow H (Ref l) (names a)) as [u|] eqn:Fa; [|discriminate].
  cbn [names map follow] in F.
  destruct (child H u (SName c)) as [w0|] eqn:Ec; [|discriminate]. injection F as ->.
  destruct u as [x|j]; [discriminate|].
  assert (Gj : is_group H j).
  { cbn in Ec. destruct (node_at H j) as [k d|xs|xs] eqn:E; try discriminate. exists k, d. exact E. }
  destruct Hg as (L & _ & U & C & K).
  assert (Lj : j < length H) by (eapply follow_lt; eauto).
  destruct (del_entry_one H j c Lj K) as (H2 & D1 & O & LEN & CL & K'); [congruence|].
  exists a, c, j, w, H2. split; [assumption|]. split; [assumption|]. split; [assumption|].
  split; [exact GET|]. split; [|auto].
  unfold delitem. rewrite EC.
  destruct (split dot key) as [|c0 [|c1 r]] eqn:ES; [congruence| |].
  - cbn in Ea, Ecl. subst a c. cbn in Fa. injection Fa as <-. exact D1.
  - rewrite <- Ea, <- Ecl. rewrite (follow_get _ _ _ _ G Fa).
    rewrite (contains_one _ _ _ Gj), Ec. exact D1.
Qed.

Theorem delitem_ok H l key d : good H l -> node_at H l = NGroup true d -> plain key ->
  exists H', delitem H l key = (H', Ok tt).
Proof.
  intros Hg E P. destruct (contains H l key) as [[]|e] eqn:EC.
  - destruct (delitem_shape _ _ _ Hg P EC) as (a & c & j & w & H' & _ & _ & _ & _ & D & _). eauto.
  - unfold contains in EC. unfold delitem. rewrite EC. eauto.
  - unfold contains, contains_comps in EC. rewrite E in EC. discriminate.
Qed.

(** A deleted object is separate from what is left. *)
Theorem delitem_separate H l key w H' : good H l -> plain key -> getitem H l key = Ok w ->
  contains H l key = Ok true -> delitem H l key = (H', Ok tt) -> separate H' l w.
Proof.
  intros Hg P GET EC D.
  destruct (delitem_shape _ _ _ Hg P EC) as (a & c & j & w' & H2 & ES & Fa & Ec & GET' & D' & O & LEN).
  rewrite D in D'. injection D' as <-. rewrite GET in GET'. injection GET' as <-.
  destruct Hg as (L & G & U & C & K). intros r ->.
  assert (FK : follow H (Ref l) (names (a ++ [c])) = Some (Ref r)).
  { rewrite names_app, follow_app, Fa. cbn [names map follow]. rewrite Ec. reflexivity. }
  assert (Lr : r < length H) by (eapply follow_lt; [exact C|exact L|exact FK]).
  assert (AW : forall q, follow H' (Ref r) q = follow H (Ref r) q).
  { intros q. apply (follow_away _ _ _ _ _ O C).
    - intros r0 E0. injection E0 as <-. assumption.
    - intros q' Fq. assert (X : names (a ++ [c]) ++ q' = names a).
      { eapply U; [|exact Fa]. rewrite follow_app, FK. exact Fq. }
      apply (f_equal (@length _)) in X. rewrite names_app, !app_length in X. cbn in X. lia. }
  split; [lia|]. split.
  - intros p q x. rewrite !AW. intros Fp Fq.
    assert (X : names (a ++ [c]) ++ p = names (a ++ [c]) ++ q).
    { eapply U; rewrite follow_app, FK; eassumption. }
    apply app_inv_head in X. exact X.
  - intros p q x Fp. rewrite AW. intros Fq.
    destruct (follow_one_inv _ _ _ _ _ _ _ O L C U Fa p) as [Ep|(s0 & Es & Ep)]; [|congruence].
    assert (X : p = names (a ++ [c]) ++ q).
    { eapply U; [rewrite <- Ep; exact Fp|]. rewrite follow_app, FK. exact Fq. }
    assert (FF := follow_changed H H' l j c None (names a) O L C U Fa q).
    rewrite <- names_app with (b := [c]) in FF. rewrite <- X, Fp in FF. discriminate.
Qed.

Ltac plain_tac :=
  let c := fresh in let HI := fresh in
  intros c HI; vm_compute in HI;
  repeat (destruct HI as [HI|HI]; [subst c; split; [discriminate|reflexivity]|]); destruct HI.
Ltac noext := let r := fresh in let E := fresh in
  intros [E|(r & E)]; [discriminate E|cbn in E; discriminate E].

Local Open Scope string_scope.
Lemma root_kept H l H' key v d : node_at H l = NGroup true d -> good H l -> plain key -> setitem H l key v = (H', Ok tt) ->
  exists d', node_at H' l = NGroup true d'.
Proof.
  intros E Hg P S.
  assert (G : is_group H l) by apply Hg.
  destruct (setitem_shape _ _ _ _ _ P G S) as (a & c & H1 & j & ES & W & Gj & ->).
  assert (Pa : Forall plainc a).
  { pose proof (plain_Forall _ P) as PF. rewrite ES in PF. apply Forall_app in PF. apply PF. }
  assert (KW : forall comps H j, l < length H -> (exists d, node_at H l = NGroup true d) -> j < length H -> closed H ->
     Forall plainc comps -> forall H1 m, walk H j comps = (H1, Ok m) -> exists d', node_at H1 l = NGroup true d').
  { clear. induction comps as [|c r IH]; intros H j L (d & E) Lj C P H1 m W; [cbn in W; injection W as <- <-; eauto|].
    inversion P as [|? ? Pc Pr]; subst. cbn [walk] in W.
    destruct (node_at H j) as [k d0|xs|xs] eqn:Ej;
      try (unfold contains_comps in W; rewrite Ej, (numeral_plain c Pc) in W; discriminate).
    assert (Gj : is_group H j) by (exists k, d0; assumption).
    rewrite (contains_one _ _ _ Gj) in W. destruct (child H (Ref j) (SName c)) as [u|] eqn:Ec.
    - rewrite (get_one _ _ _ Gj), Ec in W. destruct u as [x|j2]; [discriminate|].
      apply child_ref in Ec. destruct Ec as (i & Q & HI). injection Q as <-.
      apply (IH H j2 L (ex_intro _ d E) (C _ _ Lj HI) C Pr H1 m W).
    - assert (FB : first_is "[" c = false) by apply Pc. rewrite FB in W.
      pose proof (create_group_one H j c Lj Gj) as O.
      eapply IH; [| | | | |exact W].
      + rewrite create_group_length. lia.
      + destruct O as (O1 & O2 & O3 & k1 & d1 & d1' & E1 & E2 & E3).
        destruct (Nat.eq_dec l j) as [->|N].
        * rewrite E in E1. injection E1 as <- <-. eauto.
        * exists d. rewrite O1; auto.
      + rewrite create_group_length. lia.
      + unfold create_group. apply closed_set; [apply closed_app, C|].
        intros x Q. injection Q as <-. rewrite app_length. cbn. lia.
      + assumption. }
  assert (HL : l < length H) by apply Hg.
  destruct (KW a H l HL (ex_intro _ d E) HL) with (H1 := H1) (m := j) as (d' & E'); auto; [apply Hg|].
  unfold set_entry. destruct Gj as (k & dj & Ej). rewrite Ej, node_upd.
  destruct (Nat.eqb_spec l j) as [<-|N]; cbn [andb].
  - rewrite E' in Ej. injection Ej as <- <-. destruct (Nat.ltb l (List.length H1)); eauto.
  - eauto.
Qed.
Lemma root_kept_del H l H' key d : node_at H l = NGroup true d -> good H l -> plain key -> delitem H l key = (H', Ok tt) ->
  exists d', node_at H' l = NGroup true d'.
Proof.
  intros E Hg P S. destruct (contains H l key) as [[]|e] eqn:EC.
  - destruct (delitem_shape _ _ _ Hg P EC) as (a & c & j & w & H2 & _ & _ & _ & _ & D & O & _).
    rewrite S in D. injection D as <-.
    destruct O as (O1 & O2 & O3 & k1 & d1 & d1' & E1 & E2 & E3).
    destruct (Nat.eq_dec l j) as [->|N].
    + rewrite E in E1. injection E1 as <- <-. eauto.
    + exists d. rewrite O1; auto. apply Hg.
  - unfold contains in EC. unfold delitem in S. rewrite EC in S. injection S as <-. eauto.
  - unfold contains, contains_comps in EC. rewrite E in EC. discriminate.
Qed.

Lemma andthen_ok r k H' : andthen r k = (H', Ok tt) -> exists H1, r = (H1, Ok tt) /\ k H1 = (H', Ok tt).
Proof. destruct r as [H1 [[]|e]]; cbn; [eauto|discriminate]. Qed.

Lemma shear_correct H l d H' : good H l -> node_at H l = NGroup true d ->
  canonicalize_shear H l = (H', Ok tt) ->
  contains H' l bt = Ok false /\
  (contains H l bt = Ok true -> contains H' l bs = Ok false /\ getitem H' l bl = getitem H l bs) /\
  (contains H l bt = Ok false -> H' = H) /\
  (forall key, unrelated key [bt; bs; bl] -> getitem H' l key = getitem H l key /\ contains H' l key = contains H l key) /\
  good H' l /\ exists d', node_at H' l = NGroup true d'.
Proof.
  intros Hg E Q. unfold canonicalize_shear in Q. fold bt bs bl in Q.
  destruct (contains H l bt) as [[]|e] eqn:EC; [| |discriminate].
  2:{ injection Q as <-. split; [assumption|]. split; [discriminate|]. split; [reflexivity|]. split; [auto|]. split; [assumption|eauto]. }
  destruct (getitem H l bt) as [ty|e] eqn:ET; [|discriminate].
  destruct (leaf_is_str ty "Lees-Edwards"); [|discriminate].
  destruct (getitem H l bs) as [rate|e] eqn:ER; [|discriminate].
  apply andthen_ok in Q. destruct Q as (H1 & Q1 & Q).
  apply andthen_ok in Q. destruct Q as (H2 & Q2 & Q3).
  assert (Pt : plain bt) by plain_tac. assert (Ps : plain bs) by plain_tac. assert (Pl : plain bl) by plain_tac.
  destruct (delitem_correct _ _ _ _ Hg Pt Q1) as (A1 & A2 & A3 & Hg1).
  destruct (root_kept_del _ _ _ _ _ E Hg Pt Q1) as (d1 & E1).
  destruct (delitem_correct _ _ _ _ Hg1 Ps Q2) as (B1 & B2 & B3 & Hg2).
  destruct (root_kept_del _ _ _ _ _ E1 Hg1 Ps Q2) as (d2 & E2).
  destruct (setitem_correct _ _ _ _ _ Hg2 Pl Q3) as (C1 & C2 & C3 & C4).
  destruct (root_kept _ _ _ _ _ _ E2 Hg2 Pl Q3) as (d3 & E3).
  assert (ER1 : getitem H1 l bs = Ok rate). { destruct (A3 bs) as (-> & _); [noext|assumption]. }
  assert (EC1 : contains H1 l bs = Ok true). { apply (contains_config H1 l bs d1 E1). eauto. }
  assert (SEP : separate H2 l rate) by exact (delitem_separate _ _ _ _ _ Hg1 Ps ER1 EC1 Q2).
  split; [|split; [|split; [|split; [|split]]]].
  - destruct (C3 bt) as (_ & ->); [noext|noext|]. destruct (B3 bt) as (_ & ->); [noext|]. exact A1.
  - intros _. split; [|exact C1]. destruct (C3 bs) as (_ & ->); [noext|noext|]. exact B1.
  - discriminate.
  - intros key U. destruct (U bt) as (U1 & _); [cbn; auto|]. destruct (U bs) as (U2 & _); [cbn; auto|].
    destruct (U bl) as (U3 & U4); [cbn; auto|].
    destruct (A3 key U1) as (X1 & X2). destruct (B3 key U2) as (Y1 & Y2). destruct (C3 key U3 U4) as (Z1 & Z2).
    split; congruence.
  - apply C4, SEP.
  - eauto.
Qed.

Lemma subdivision_correct H l d H' : good H l -> node_at H l = NGroup true d ->
  canonicalize_subdivision H l = (H', Ok tt) ->
  contains H' l ic = Ok false /\
  (contains H l ic = Ok true -> getitem H' l ifp = getitem H l ic /\ getitem H' l idp = getitem H l ic) /\
  (contains H l ic = Ok false -> H' = H) /\
  (forall key, unrelated key [ic; ifp; idp] -> getitem H' l key = getitem H l key /\ contains H' l key = contains H l key).
Proof.
  intros Hg E Q. unfold canonicalize_subdivision in Q. fold ic ifp idp in Q.
  destruct (contains H l ic) as [[]|e] eqn:EC; [| |discriminate].
  2:{ injection Q as <-. split; [assumption|]. split; [discriminate|]. split; [reflexivity|]. auto. }
  destruct (contains H l "instrumentation.flowProfile") as [[]|e]; try discriminate.
  destruct (contains H l "instrumentation.densityProfile") as [[]|e]; try discriminate.
  destruct (getitem H l ic) as [sub|e] eqn:ES; [|discriminate].
  apply andthen_ok in Q. destruct Q as (H1 & Q1 & Q).
  apply andthen_ok in Q. destruct Q as (H2 & Q2 & Q3).
  assert (Pc : plain ic) by plain_tac. assert (Pf : plain ifp) by plain_tac. assert (Pd : plain idp) by plain_tac.
  destruct (delitem_correct _ _ _ _ Hg Pc Q1) as (A1 & A2 & A3 & Hg1).
  destruct (setitem_correct _ _ _ _ _ Hg1 Pf Q2) as (B1 & B2 & B3 & B4).
  assert (SEP : separate H1 l sub) by exact (delitem_separate _ _ _ _ _ Hg Pc ES EC Q1).
  specialize (B4 SEP).
  destruct (setitem_correct _ _ _ _ _ B4 Pd Q3) as (C1 & C2 & C3 & _).
  split; [|split; [|split]].
  - destruct (C3 ic) as (_ & ->); [noext|noext|]. destruct (B3 ic) as (_ & ->); [noext|noext|]. exact A1.
  - intros _. split; [|exact C1]. destruct (C3 ifp) as (-> & _); [noext|noext|]. exact B1.
  - discriminate.
  - intros key U. destruct (U ic) as (U1 & _); [cbn; auto|]. destruct (U ifp) as (U2 & U3); [cbn; auto|].
    destruct (U idp) as (U4 & U5); [cbn; auto|].
    destruct (A3 key U1) as (X1 & X2). destruct (B3 key U2 U3) as (Y1 & Y2). destruct (C3 key U4 U5) as (Z1 & Z2).
    split; congruence.
Qed.

Theorem canonicalize_correct H l d H' : good H l -> node_at H l = NGroup true d ->
  canonicalize H l = (H', Ok tt) ->
  contains H' l bt = Ok false /\ contains H' l ic = Ok false /\
  (contains H l bt = Ok true -> contains H' l bs = Ok false /\ getitem H' l bl = getitem H l bs) /\
  (contains H l ic = Ok true -> getitem H' l ifp = getitem H l ic /\ getitem H' l idp = getitem H l ic) /\
  (contains H l bt = Ok false -> contains H l ic = Ok false -> H' = H) /\
  (forall key, unrelated key [bt; bs; bl; ic; ifp; idp] ->
     getitem H' l key = getitem H l key /\ contains H' l key = contains H l key) /\
  canonicalize H' l = (H', Ok tt).
Proof.
  intros Hg E Q. unfold canonicalize in Q. apply andthen_ok in Q. destruct Q as (H1 & Q1 & Q2).
  destruct (shear_correct _ _ _ _ Hg E Q1) as (A1 & A2 & A3 & A4 & Hg1 & d1 & E1).
  destruct (subdivision_correct _ _ _ _ Hg1 E1 Q2) as (B1 & B2 & B3 & B4).
  assert (U1 : forall k, In k [ic; ifp; idp] -> getitem H1 l k = getitem H l k /\ contains H1 l k = contains H l k).
  { intros k HI. apply A4. intros k' HI'. cbn in HI, HI'.
    repeat (destruct HI as [<-|HI]; [repeat (destruct HI' as [<-|HI']; [split; noext|]); destruct HI'|]). destruct HI. }
  assert (U2 : forall k, In k [bt; bs; bl] -> getitem H' l k = getitem H1 l k /\ contains H' l k = contains H1 l k).
  { intros k HI. apply B4. intros k' HI'. cbn in HI, HI'.
    repeat (destruct HI as [<-|HI]; [repeat (destruct HI' as [<-|HI']; [split; noext|]); destruct HI'|]). destruct HI. }
  destruct (U1 ic) as (I1 & I2); [cbn; auto|].
  destruct (U2 bt) as (T1 & T2); [cbn; auto|]. destruct (U2 bs) as (S1 & S2); [cbn; auto|].
  destruct (U2 bl) as (L1 & L2); [cbn; auto|].
  assert (R1 : contains H' l bt = Ok false) by congruence.
  split; [exact R1|]. split; [exact B1|]. split; [|split; [|split; [|split]]].
  - intros Q. destruct (A2 Q) as (X1 & X2). split; congruence.
  - intros Q. rewrite <- I2 in Q. destruct (B2 Q) as (X1 & X2). split; congruence.
  - intros Q1' Q2'. specialize (A3 Q1'). subst H1. apply B3. exact Q2'.
  - intros key U. destruct (A4 key) as (X1 & X2).
    { intros k HI. apply U. cbn in *. tauto. }
    destruct (B4 key) as (Y1 & Y2).
    { intros k HI. apply U. cbn in *. tauto. }
    split; congruence.
  - unfold canonicalize, canonicalize_shear, canonicalize_subdivision. fold bt ic.
    rewrite R1. cbn [andthen]. rewrite B1. reflexivity.
Qed.

Lemma empty_good : good [NGroup true []] 0.
Proof.
  split; [cbn; lia|]. split; [exists true, []; reflexivity|]. split; [|split].
  - assert (A : forall p m, follow [NGroup true []] (Ref 0) p = Some (Ref m) -> p = []%list).
    { intros [|s p] m; [reflexivity|]. cbn. destruct s; discriminate. }
    intros p q m Fp Fq. apply A in Fp, Fq. congruence.
  - intros l m L. cbn in L. assert (l = 0) as -> by lia. intros [].
  - intros [|[|l]] k d E; cbn in E; injection E as <- <-; constructor.
Qed.
