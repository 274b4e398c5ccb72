(** Proofs about the construction of the instruments. *)
From Verif Require Import QcBase StrBase PyBase CuModel CfgModel CfgSpec CfgProof CfgReadProof CfgSimModel CfgSimSpec CfgSimProof OtfsModel FlowModel MeasModel InsModel InsSpec InsProof.
Open Scope list_scope.

Ltac prop := apply proper_check; [discriminate|vm_compute; reflexivity].

Section Below.
Context {D : Type}.
Variables (root s : setting D) (p : list string).
Hypothesis R : reaches root p s.
Lemma below_reaches q t : reaches root (p ++ q) t <-> reaches s q t.
Proof. rewrite <- !walk_reaches, walk_app. apply walk_reaches in R. rewrite R. reflexivity. Qed.
Lemma below_absent q : absent root (p ++ q) <-> absent s q.
Proof. unfold absent. split; intros H t; specialize (H t); rewrite below_reaches in *; exact H. Qed.
Lemma below_present q : present root (p ++ q) <-> present s q.
Proof. unfold present. split; intros (t & H); exists t; apply below_reaches; exact H. Qed.
Lemma below_unsigned neg q n : unsigned_at neg root (p ++ q) n <-> unsigned_at neg s q n.
Proof. unfold unsigned_at. split; intros (z & H & X); exists z; (split; [apply below_reaches; exact H|exact X]). Qed.
End Below.

Lemma present_or_absent {D} (s : setting D) p : present s p \/ absent s p.
Proof.
  destruct (walk D s p) as [t|] eqn:E; [left; exists t; apply walk_reaches; exact E|right; apply walk_absent; exact E].
Qed.
Lemma setting_has_iff {D} (s : setting D) p : proper_path p -> exists b, setting_has D s (dotted p) = Done b /\ if b : bool then present s p else absent s p.
Proof.
  intros P. rewrite (setting_has_proper s p P). destruct (walk D s p) as [t|] eqn:E; eexists; (split; [reflexivity|]).
  - exists t. apply walk_reaches. exact E.
  - apply walk_absent. exact E.
Qed.
Section Construct.
Variable neg : Z -> option Z.
Lemma read_unsigned_iff (s : setting Qc) p n : proper_path p ->
  (setting_read_unsigned neg s (dotted p) = Done n <-> exists z, unsigned_at neg s p z /\ n = Z.to_nat z).
Proof.
  intros P. unfold setting_read_unsigned. rewrite (setting_read_proper neg TUnsigned s p P).
  pose proof (fun z => unsigned_iff neg s p z P) as U. unfold read_unsigned, read in U.
  destruct (read_value Qc neg TUnsigned s (dotted p)) as [v|f]; cbn [next] in *.
  - destruct v as [b|z|z|d|x]; [|split|..].
    1, 4, 5, 6: split; [discriminate|intros (y & X & _); apply U in X; discriminate].
    + intros [= <-]. exists z. split; [apply U; reflexivity|reflexivity].
    + intros (z' & X & ->). apply U in X. injection X as ->. reflexivity.
  - split; [discriminate|]. intros (z & X & _). apply U in X. discriminate.
Qed.
Lemma unsigned_present (s : setting Qc) p q n : unsigned_at neg s (p ++ q) n -> present s p.
Proof.
  intros (z & H & _). apply walk_reaches in H. rewrite walk_app in H. destruct (walk Qc s p) as [t|] eqn:E; [|discriminate]. exists t. apply walk_reaches. exact E.
Qed.
Lemma present_absent (s : setting Qc) p : present s p -> absent s p -> False.
Proof. intros (t & H) A. apply (A t H). Qed.
Lemma subdivisions_iff (s : setting Qc) subs : subdivisions neg s = Done subs <->
  absent s ["cellSubdivision"]%string /\ subs = (1, 1, 1)%nat \/
  exists a b c, unsigned_at neg s ["cellSubdivision"; "x"]%string a /\ unsigned_at neg s ["cellSubdivision"; "y"]%string b
     /\ unsigned_at neg s ["cellSubdivision"; "z"]%string c /\ subs = (Z.to_nat a, Z.to_nat b, Z.to_nat c).
Proof.
  unfold subdivisions. destruct (setting_has_iff s ["cellSubdivision"]%string) as (b & E & H); [prop|].
  change (dotted ["cellSubdivision"]%string) with "cellSubdivision"%string in E. rewrite E. cbn [next].
  pose proof (fun n => read_unsigned_iff s ["cellSubdivision"; "x"]%string n ltac:(prop)) as X.
  pose proof (fun n => read_unsigned_iff s ["cellSubdivision"; "y"]%string n ltac:(prop)) as Y.
  pose proof (fun n => read_unsigned_iff s ["cellSubdivision"; "z"]%string n ltac:(prop)) as Z.
  change (dotted ["cellSubdivision"; "x"]%string) with "cellSubdivision.x"%string in X.
  change (dotted ["cellSubdivision"; "y"]%string) with "cellSubdivision.y"%string in Y.
  change (dotted ["cellSubdivision"; "z"]%string) with "cellSubdivision.z"%string in Z.
  destruct b.
  - split.
    + intros K. right. apply next_done in K. destruct K as (x & Kx & K). apply next_done in K. destruct K as (y & Ky & K). apply next_done in K. destruct K as (z & Kz & K).
      apply X in Kx. apply Y in Ky. apply Z in Kz. destruct Kx as (a & A & ->), Ky as (b & B & ->), Kz as (c & C & ->). injection K as <-. exists a, b, c. auto.
    + intros [(A & _)|(a & b & c & A & B & C & ->)]; [exfalso; exact (present_absent _ _ H A)|].
      apply next_done. exists (Z.to_nat a). split; [apply X; eauto|]. apply next_done. exists (Z.to_nat b). split; [apply Y; eauto|].
      apply next_done. exists (Z.to_nat c). split; [apply Z; eauto|]. reflexivity.
  - split.
    + intros [= <-]. left. auto.
    + intros [(_ & ->)|(a & b & c & A & _)]; [reflexivity|]. exfalso. apply (present_absent s ["cellSubdivision"]%string); [|exact H].
      exact (unsigned_present s ["cellSubdivision"]%string ["x"]%string a A).
Qed.
Lemma thrown_iff {A} (r : result A) a : thrown r = Done a <-> r = Ok a.
Proof. destruct r; cbn [thrown]; split; intros [= <-]; reflexivity. Qed.
Lemma subdivided_iff root p s subs : reaches root p s -> (positive subs /\ subdivisions neg s = Done subs <-> subdivided neg root p subs).
Proof.
  intros R. rewrite subdivisions_iff. unfold subdivided. destruct subs as [[x y] z]. cbn [positive].
  rewrite (below_absent root s p R).
  assert (X : (0 < x /\ 0 < y /\ 0 < z)%nat <-> (x <> 0 /\ y <> 0 /\ z <> 0)%nat) by lia. rewrite X.
  split; (intros [A K]; split; [exact A|]; destruct K as [K|(a & b & c & K1 & K2 & K3 & K4)]; [left; exact K|right; exists a, b, c]);
    (split; [apply (below_unsigned root s p R); exact K1|]); (split; [apply (below_unsigned root s p R); exact K2|]); (split; [apply (below_unsigned root s p R); exact K3|exact K4]).
Qed.
Lemma density_from_iff root p s box d : reaches root p s -> (density_from neg box s = Done d <-> exists subs, subdivided neg root p subs /\ dens_new box subs = Ok d).
Proof.
  intros R. unfold density_from. rewrite next_done. split.
  - intros (subs & S & K). rewrite thrown_iff in K. exists subs. split; [|exact K]. apply (subdivided_iff root p s subs R). split; [apply (dens_new_ok _ _ _ K)|exact S].
  - intros (subs & S & K). exists subs. apply (subdivided_iff root p s subs R) in S. split; [apply S|]. rewrite thrown_iff. exact K.
Qed.
Lemma flow_from_iff root p s box f : reaches root p s -> (flow_from neg box s = Done f <-> exists subs per, subdivided neg root p subs
      /\ (absent root (p ++ ["sweepCountPerOutput"]%string) /\ per = 0%nat \/
          exists n, unsigned_at neg root (p ++ ["sweepCountPerOutput"]%string) n /\ per = Z.to_nat n)
      /\ cfp_new box subs per = Ok f).
Proof.
  intros R. unfold flow_from.
  destruct (setting_has_iff s ["sweepCountPerOutput"]%string) as (b & E & H); [prop|]. change (dotted ["sweepCountPerOutput"]%string) with "sweepCountPerOutput"%string in E.
  pose proof (fun n => read_unsigned_iff s ["sweepCountPerOutput"]%string n ltac:(prop)) as U. change (dotted ["sweepCountPerOutput"]%string) with "sweepCountPerOutput"%string in U.
  rewrite next_done. split.
  - intros (subs & S & K). rewrite E in K. cbn [next] in K. apply next_done in K. destruct K as (per & P & K). rewrite thrown_iff in K. exists subs, per.
    split; [apply (subdivided_iff root p s subs R); split; [apply (cfp_new_ok _ _ _ _ K)|exact S]|]. split; [|exact K].
    destruct b.
    + right. apply U in P. destruct P as (n & N & ->). exists n. split; [|reflexivity]. apply (below_unsigned root s p R). exact N.
    + left. injection P as <-. split; [|reflexivity]. apply (below_absent root s p R). exact H.
  - intros (subs & per & S & P & K). exists subs. apply (subdivided_iff root p s subs R) in S. split; [apply S|]. rewrite E. cbn [next]. apply next_done. exists per.
    split; [|rewrite thrown_iff; exact K]. destruct P as [(A & ->)|(n & N & ->)].
    + apply (below_absent root s p R) in A. destruct b; [exfalso; exact (present_absent _ _ H A)|reflexivity].
    + apply (below_unsigned root s p R) in N. destruct b; [apply U; eauto|]. exfalso. apply (present_absent s ["sweepCountPerOutput"]%string); [|exact H].
      apply (unsigned_present s ["sweepCountPerOutput"]%string [] n). exact N.
Qed.
Lemma histogram_from_iff root h : histogram_from neg "velocityMagnitudeHistogram" root = Done h <-> histogram_given neg root (Some h).
Proof.
  unfold histogram_from, histogram_given.
  pose proof (fun n => unsigned_iff neg root ["instrumentation"; "velocityMagnitudeHistogram"; "binCount"]%string n ltac:(prop)) as U.
  pose proof (fun n => float_iff neg root ["instrumentation"; "velocityMagnitudeHistogram"; "low"]%string n ltac:(prop)) as L.
  pose proof (fun n => float_iff neg root ["instrumentation"; "velocityMagnitudeHistogram"; "high"]%string n ltac:(prop)) as H.
  change (dotted ["instrumentation"; "velocityMagnitudeHistogram"; "binCount"]%string) with ("instrumentation." ++ "velocityMagnitudeHistogram" ++ ".binCount")%string in U.
  change (dotted ["instrumentation"; "velocityMagnitudeHistogram"; "low"]%string) with ("instrumentation." ++ "velocityMagnitudeHistogram" ++ ".low")%string in L.
  change (dotted ["instrumentation"; "velocityMagnitudeHistogram"; "high"]%string) with ("instrumentation." ++ "velocityMagnitudeHistogram" ++ ".high")%string in H.
  split.
  - intros K. apply next_done in K. destruct K as (n & Kn & K). apply next_done in K. destruct K as (low & Kl & K). apply next_done in K. destruct K as (high & Kh & K).
    injection K as <-. exists n, low, high. split; [apply U; exact Kn|]. split; [apply L; exact Kl|]. split; [apply H; exact Kh|reflexivity].
  - intros (n & low & high & Kn & Kl & Kh & ->). apply next_done. exists n. split; [apply U; exact Kn|]. apply next_done. exists low. split; [apply L; exact Kl|].
    apply next_done. exists high. split; [apply H; exact Kh|reflexivity].
Qed.
Lemma if_set_iff {A} (s : setting Qc) name (make : outcome A) (P : A -> Prop) (o : option A) : proper_path [name] ->
  (forall a, make = Done a <-> P a) -> (forall a, P a -> present s [name]) ->
  (if_set s name make = Done o <-> match o with None => absent s [name] | Some a => P a end).
Proof.
  intros N M Q. unfold if_set. destruct (setting_has_iff s [name] N) as (b & E & H). change (dotted [name]) with name in E. rewrite E. cbn [next]. destruct b.
  - rewrite next_done. split.
    + intros (a & X & [= <-]). apply M. exact X.
    + destruct o as [a|]; [intros X; exists a; split; [apply M; exact X|reflexivity]|]. intros X. exfalso. exact (present_absent _ _ H X).
  - split; [intros [= <-]; exact H|]. destruct o as [a|]; [|reflexivity]. intros X. exfalso. exact (present_absent _ _ (Q a X) H).
Qed.
Lemma names_ok (s : setting Qc) names off : (exists r, childrenHaveNamesInCollection Qc s names off = Done r /\ fst r = true) <->
  (forall n t, In (n, t) (children Qc s) -> exists name, n = Some name /\ In name names).
Proof.
  unfold childrenHaveNamesInCollection, getChildCount. rewrite <- length_children.
  assert (G : forall n i, (n + i = length (children Qc s))%nat ->
    ((exists r, names_loop Qc n i s names off = Done r /\ fst r = true) <-> forall k t, In (k, t) (skipn i (children Qc s)) -> exists name, k = Some name /\ In name names)).
  { induction n as [|n IH]; intros i L.
    - cbn [names_loop]. rewrite skipn_all2 by lia. split; [intros _ k t []|]. intros _. exists (true, off). auto.
    - cbn [names_loop]. rewrite getChild_nth. destruct (nth_error (children Qc s) i) as [[k t]|] eqn:E.
      2:{ apply nth_error_None in E. lia. }
      assert (SK : skipn i (children Qc s) = (k, t) :: skipn (Datatypes.S i) (children Qc s)).
      { apply nth_error_split in E. destruct E as (l1 & l2 & -> & <-). rewrite skipn_app, skipn_all, Nat.sub_diag. cbn [skipn app].
        f_equal. clear. induction l1 as [|x l1 IH]; [reflexivity|exact IH]. }
      rewrite SK. destruct k as [name|].
      + destruct (existsb (String.eqb name) names) eqn:X.
        * rewrite IH by lia. apply existsb_exists in X. destruct X as (x & I & Q). apply String.eqb_eq in Q. subst x. split.
          -- intros H k t' [Y|Y]; [injection Y as <- <-; exists name; auto|apply (H k t' Y)].
          -- intros H k t' Y. apply (H k t'). right. exact Y.
        * split; [intros (r & [= <-] & Y); discriminate|]. intros H. exfalso. destruct (H (Some name) t (or_introl eq_refl)) as (x & [= <-] & I).
          assert (Y : existsb (String.eqb name) names = true) by (apply existsb_exists; exists name; split; [exact I|apply String.eqb_refl]). congruence.
      + split; [intros (r & [=] & _)|]. intros H. exfalso. destruct (H None t (or_introl eq_refl)) as (x & [=] & _). }
  rewrite (G (length (children Qc s)) 0%nat) by lia. reflexivity.
Qed.
Lemma known_names n : In n knownSettings <-> In n instrument_names.
Proof. unfold knownSettings, instrument_names. cbn [In]. tauto. Qed.
Lemma construct_iff root hasFluid box m : construct neg root hasFluid box = Done m <-> instruments_given neg root hasFluid box m.
Proof.
  unfold construct, instruments_given, no_instruments.
  pose proof (has_iff root ["instrumentation"]%string ltac:(prop)) as HI. pose proof (has_not_iff root ["instrumentation"]%string ltac:(prop)) as HN.
  pose proof (fun s => getSetting_iff root ["instrumentation"]%string s ltac:(prop)) as GS. change (dotted ["instrumentation"]%string) with "instrumentation"%string in *.
  destruct (has Qc root "instrumentation") eqn:EH; cbn [negb].
  2:{ split; [intros [= <-]; left; split; [apply HN; reflexivity|reflexivity]|]. intros [(_ & ->)|(s & R & _)]; [reflexivity|].
      exfalso. apply (proj1 HN eq_refl s). exact R. }
  destruct (proj1 HI eq_refl) as (s & R). rewrite (proj2 (GS s) R). cbn [next].
  assert (U : forall s', reaches root ["instrumentation"]%string s' -> s' = s).
  { intros s' R'. apply walk_reaches in R, R'. congruence. }
  pose proof (names_ok s knownSettings ""%string) as NK.
  set (good := forall n t, In (n, t) (children Qc s) -> exists name, n = Some name /\ In name instrument_names).
  assert (NG : (exists r, childrenHaveNamesInCollection Qc s knownSettings "" = Done r /\ fst r = true) <-> good).
  { rewrite NK. unfold good. split; intros H n t I; destruct (H n t I) as (x & -> & J); exists x; (split; [reflexivity|]); apply known_names; exact J. }
  clear NK.
  pose proof (if_set_iff s "velocityMagnitudeHistogram" (histogram_from neg "velocityMagnitudeHistogram" root) (fun h => histogram_given neg root (Some h))) as IH.
  pose proof (fun o => IH o ltac:(prop) (histogram_from_iff root)) as IH1. clear IH.
  assert (IH : forall o, if_set s "velocityMagnitudeHistogram" (histogram_from neg "velocityMagnitudeHistogram" root) = Done o <-> histogram_given neg root o).
  { intros o. rewrite IH1.
    - destruct o as [h|]; [reflexivity|]. cbn [histogram_given]. symmetry. exact (below_absent root s ["instrumentation"]%string R ["velocityMagnitudeHistogram"]%string).
    - intros a (n & low & high & X & _). apply (below_present root s ["instrumentation"]%string R).
      exact (unsigned_present root ["instrumentation"; "velocityMagnitudeHistogram"]%string ["binCount"]%string n X). }
  clear IH1.
  assert (ID : forall o, if_set s "densityProfile" (next (setting_getSetting Qc s "densityProfile") (density_from neg box)) = Done o <-> density_given neg root box o).
  { intros o. rewrite (if_set_iff s "densityProfile" _ (fun d => density_given neg root box (Some d)) o); [|prop| |].
    - destruct o as [d|]; [reflexivity|]. cbn [density_given]. symmetry. exact (below_absent root s ["instrumentation"]%string R ["densityProfile"]%string).
    - intros d. cbn [density_given]. rewrite next_done. split.
      + intros (t & T & K). unfold setting_getSetting in T.
        destruct (setting_has_iff s ["densityProfile"]%string ltac:(prop)) as (b & E & H). change (dotted ["densityProfile"]%string) with "densityProfile"%string in E.
        rewrite E in T. destruct b; [|discriminate]. destruct (lookup Qc s "densityProfile") as [t'|] eqn:LK; [|discriminate]. injection T as ->.
        change "densityProfile"%string with (dotted ["densityProfile"]%string) in LK. rewrite lookup_proper in LK by prop. apply walk_reaches in LK.
        pose proof (proj2 (below_reaches root s ["instrumentation"]%string R ["densityProfile"]%string t) LK) as RT. split; [exists t; exact RT|].
        apply (density_from_iff root _ t box d RT). exact K.
      + intros ((t & RT) & K). exists t. assert (LK := proj1 (below_reaches root s ["instrumentation"]%string R ["densityProfile"]%string t) RT). split.
        * unfold setting_getSetting. destruct (setting_has_iff s ["densityProfile"]%string ltac:(prop)) as (b & E & H). change (dotted ["densityProfile"]%string) with "densityProfile"%string in E.
          rewrite E. destruct b; [|exfalso; apply (H t LK)]. apply walk_reaches in LK.
          change "densityProfile"%string with (dotted ["densityProfile"]%string). rewrite lookup_proper by prop. rewrite LK. reflexivity.
        * apply (density_from_iff root _ t box d RT). exact K.
    - intros d (P & _). apply (below_present root s ["instrumentation"]%string R). exact P. }
  assert (IF : forall o, if_set s "flowProfile" (next (setting_getSetting Qc s "flowProfile") (flow_from neg box)) = Done o <-> flow_given neg root box o).
  { intros o. rewrite (if_set_iff s "flowProfile" _ (fun d => flow_given neg root box (Some d)) o); [|prop| |].
    - destruct o as [d|]; [reflexivity|]. cbn [flow_given]. symmetry. exact (below_absent root s ["instrumentation"]%string R ["flowProfile"]%string).
    - intros d. cbn [flow_given]. rewrite next_done. split.
      + intros (t & T & K). unfold setting_getSetting in T.
        destruct (setting_has_iff s ["flowProfile"]%string ltac:(prop)) as (b & E & H). change (dotted ["flowProfile"]%string) with "flowProfile"%string in E.
        rewrite E in T. destruct b; [|discriminate]. destruct (lookup Qc s "flowProfile") as [t'|] eqn:LK; [|discriminate]. injection T as ->.
        change "flowProfile"%string with (dotted ["flowProfile"]%string) in LK. rewrite lookup_proper in LK by prop. apply walk_reaches in LK.
        pose proof (proj2 (below_reaches root s ["instrumentation"]%string R ["flowProfile"]%string t) LK) as RT. split; [exists t; exact RT|].
        apply (flow_from_iff root _ t box d RT). exact K.
      + intros ((t & RT) & K). exists t. assert (LK := proj1 (below_reaches root s ["instrumentation"]%string R ["flowProfile"]%string t) RT). split.
        * unfold setting_getSetting. destruct (setting_has_iff s ["flowProfile"]%string ltac:(prop)) as (b & E & H). change (dotted ["flowProfile"]%string) with "flowProfile"%string in E.
          rewrite E. destruct b; [|exfalso; apply (H t LK)]. apply walk_reaches in LK.
          change "flowProfile"%string with (dotted ["flowProfile"]%string). rewrite lookup_proper by prop. rewrite LK. reflexivity.
        * apply (flow_from_iff root _ t box d RT). exact K.
    - intros d (P & _). apply (below_present root s ["instrumentation"]%string R). exact P. }
  split.
  - intros K. right. exists s. split; [exact R|]. apply next_done in K. destruct K as (r & Kr & K). destruct (fst r) eqn:Er; cbn [negb] in K; [|discriminate].
    split; [apply NG; exists r; auto|]. destruct hasFluid; cbn [negb] in K; [|injection K as <-; left; auto]. right. split; [reflexivity|].
    apply next_done in K. destruct K as (h & Kh & K). apply next_done in K. destruct K as (d & Kd & K). apply next_done in K. destruct K as (f & Kf & K).
    injection K as <-. cbn [velocityMagnitudeHistogram densityProfile flowProfile fluidMeasurements soluteMeasurements measurementCount].
    split; [apply IH; exact Kh|]. split; [apply ID; exact Kd|]. split; [apply IF; exact Kf|]. auto.
  - intros [(A & _)|(s' & R' & G & K)]; [exfalso; apply (A s R)|]. rewrite (U s' R') in *. clear s' R'.
    destruct (proj2 NG G) as (r & Er & Fr). rewrite Er. cbn [next]. rewrite Fr. cbn [negb].
    destruct K as [(-> & ->)|(-> & Kh & Kd & Kf & K1 & K2 & K3)]; [reflexivity|]. cbn [negb].
    rewrite (proj2 (IH _) Kh). cbn [next]. rewrite (proj2 (ID _) Kd). cbn [next]. rewrite (proj2 (IF _) Kf). cbn [next].
    destruct m as [h d f a b c]. cbn in K1, K2, K3. subst a b c. reflexivity.
Qed.
End Construct.
