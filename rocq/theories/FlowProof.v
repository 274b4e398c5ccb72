From Verif Require Import QcBase QcLra PyBase DictBase OtfsModel OtfsSpec OtfsProof
  FlowModel FlowSpec.
Set Implicit Arguments.
Open Scope Qc_scope.

(** * Samples of three components *)
Definition rep3 (s : otfs3) (D : lists3) : Prop := forall i, (i < 3)%nat -> rep (comp i s) (comp i D).
Definition app3 (a b : lists3) : lists3 :=
  let '(a0, a1, a2) := a in let '(b0, b1, b2) := b in (a0 ++ b0, a1 ++ b1, a2 ++ b2).
Definition nil3 : lists3 := ([], [], []).

Lemma comp_app3 i a b : comp i (app3 a b) = comp i a ++ comp i b.
Proof. destruct a as [[a0 a1] a2], b as [[b0 b1] b2], i as [|[|i]]; reflexivity. Qed.
Lemma comp_nil3 i : comp i nil3 = [].
Proof. destruct i as [|[|i]]; reflexivity. Qed.
Lemma comp_new i : comp i otfs3_new = otfs_new.
Proof. destruct i as [|[|i]]; reflexivity. Qed.
Lemma rep3_new : rep3 otfs3_new nil3.
Proof. intros i _. rewrite comp_new, comp_nil3. apply rep_new. Qed.

Lemma merge3_rep a A b B : rep3 a A -> rep3 b B -> exists c, merge3 a b = Ok c /\ rep3 c (app3 A B).
Proof.
  intros HA HB. destruct a as [[a0 a1] a2], b as [[b0 b1] b2], A as [[A0 A1] A2], B as [[B0 B1] B2].
  destruct (rep_merge (HA 0%nat ltac:(lia)) (HB 0%nat ltac:(lia))) as (c0 & E0 & R0).
  destruct (rep_merge (HA 1%nat ltac:(lia)) (HB 1%nat ltac:(lia))) as (c1 & E1 & R1).
  destruct (rep_merge (HA 2%nat ltac:(lia)) (HB 2%nat ltac:(lia))) as (c2 & E2 & R2).
  cbn [comp] in *. exists (c0, c1, c2). cbn [merge3]. rewrite E0, E1, E2. split; [reflexivity|].
  intros [|[|[|i]]] Hi; try lia; assumption.
Qed.

Lemma devsq_single x : devsq [x] = 0.
Proof.
  unfold devsq, mean. cbn [map qsum length]. rewrite qn_1.
  replace (x - (x + 0) / 1) with 0 by (field; discriminate). ring.
Qed.

Lemma init_rep l m v :
  m = match l with [] => 0 | k => mean k end ->
  v = match l with [] | [_] => 0 | k => variance k end ->
  exists s, otfs_init (Some m) (Some v) (Some (length l)) = Ok s /\ rep s l.
Proof.
  intros -> ->. eexists. split; [reflexivity|]. unfold rep. cbn [o_n o_M o_S]. split; [reflexivity|].
  split; [destruct l; [symmetry; apply mean_nil|reflexivity]|].
  destruct l as [|x [|y l]].
  - cbn [length]. rewrite qn_0. unfold devsq. cbn. ring.
  - rewrite devsq_single. ring.
  - unfold variance. set (k := length (x :: y :: l)).
    assert (N : qn k - 1 <> 0).
    { intros E. assert (H : qn k = qn 1) by (rewrite qn_1; transitivity (qn k - 1 + 1); [ring|rewrite E; ring]).
      apply qn_inj in H. discriminate. }
    set (d := devsq (x :: y :: l)). unfold Qcdiv. rewrite <- Qcmult_assoc, (Qcmult_comm (/ _)).
    rewrite Qcmult_inv_r by exact N. ring.
Qed.

Lemma row_sample_rep r D : row_describes r D -> exists s, row_sample r = Ok s /\ rep3 s D.
Proof.
  intros H. destruct r as [x y z [[m0 m1] m2] [[v0 v1] v2] n], D as [[D0 D1] D2].
  destruct (H 0%nat ltac:(lia)) as (N0 & M0 & V0). destruct (H 1%nat ltac:(lia)) as (N1 & M1 & V1).
  destruct (H 2%nat ltac:(lia)) as (N2 & M2 & V2). cbn [comp r_mean r_var r_n] in *.
  destruct (@init_rep D0 m0 v0 ltac:(destruct D0; exact M0) ltac:(destruct D0 as [|? [|? ?]]; exact V0)) as (s0 & E0 & R0).
  destruct (@init_rep D1 m1 v1 ltac:(destruct D1; exact M1) ltac:(destruct D1 as [|? [|? ?]]; exact V1)) as (s1 & E1 & R1).
  destruct (@init_rep D2 m2 v2 ltac:(destruct D2; exact M2) ltac:(destruct D2 as [|? [|? ?]]; exact V2)) as (s2 & E2 & R2).
  exists (s0, s1, s2). unfold row_sample. cbn [r_mean r_var r_n].
  rewrite <- N0 in E0. rewrite <- N1 in E1. rewrite <- N2 in E2. rewrite E0, E1, E2.
  split; [reflexivity|]. intros [|[|[|i]]] Hi; try lia; assumption.
Qed.

(** * Related dictionaries *)
Section Rel.
Variables (K V W : Type) (eqb : K -> K -> bool).
Hypothesis eqb_spec : forall a b, eqb a b = true <-> a = b.
Variable R : V -> W -> Prop.
Definition drel (d : list (K * V)) (e : list (K * W)) : Prop :=
  Forall2 (fun a b => fst a = fst b /\ R (snd a) (snd b)) d e.
Lemma drel_nil : drel [] [].
Proof. constructor. Qed.
Lemma drel_get d e k v w : drel d e -> R v w -> R (odflt v (dget eqb d k)) (odflt w (dget eqb e k)).
Proof.
  induction 1 as [|[k1 a] [k2 b] d e [E H] F IH]; intros HR; cbn; [exact HR|].
  cbn in E, H. subst k2. destruct (eqb k k1); cbn; auto.
Qed.
Lemma drel_set d e k v w : drel d e -> R v w -> drel (dset eqb d k v) (dset eqb e k w).
Proof.
  induction 1 as [|[k1 a] [k2 b] d e [E H] F IH]; intros HR; cbn.
  - constructor; [auto|constructor].
  - cbn in E, H. subst k2. destruct (eqb k k1); constructor; cbn; auto. apply IH, HR.
Qed.
End Rel.

(** * The ghost dictionary *)
Notation gpoints := (points lists3).
Definition prel : points otfs3 -> gpoints -> Prop := drel (drel (drel rep3)).

Definition gadd (p : gpoints) (x y z : Z) (D : lists3) : gpoints :=
  let px := odflt [] (dget Z.eqb p x) in
  let py := odflt [] (dget Z.eqb px y) in
  let v := odflt nil3 (dget Z.eqb py z) in
  dset Z.eqb p x (dset Z.eqb px y (dset Z.eqb py z (app3 v D))).

Lemma add_rel p g r D : prel p g -> row_describes r D ->
  exists p', addSampleToPoint p r = Ok p' /\ prel p' (gadd g (r_x r) (r_y r) (r_z r) D).
Proof.
  intros H HD. destruct (row_sample_rep HD) as (s & E & Rs).
  unfold addSampleToPoint. rewrite E. cbn [bind]. unfold upd3, gadd.
  set (px := odflt [] (dget Z.eqb p (r_x r))). set (gx := odflt [] (dget Z.eqb g (r_x r))).
  assert (Hx : drel (drel rep3) px gx) by (apply drel_get; [exact H|constructor]).
  set (py := odflt [] (dget Z.eqb px (r_y r))). set (gy := odflt [] (dget Z.eqb gx (r_y r))).
  assert (Hy : drel rep3 py gy) by (apply drel_get; [exact Hx|constructor]).
  set (v := odflt otfs3_new (dget Z.eqb py (r_z r))). set (gv := odflt nil3 (dget Z.eqb gy (r_z r))).
  assert (Hv : rep3 v gv) by (apply drel_get; [exact Hy|apply rep3_new]).
  destruct (merge3_rep Hv Rs) as (c & E2 & Rc). rewrite E2. cbn [bind].
  eexists. split; [reflexivity|].
  apply drel_set; [exact H|]. apply drel_set; [exact Hx|]. apply drel_set; [exact Hy|exact Rc].
Qed.

(** Everything stored at the selected [y] indices. *)
Definition fz (i : nat) (zv : Z * lists3) : list Qc := comp i (snd zv).
Definition fy (i : nat) (sel : Z -> bool) (yv : Z * list (Z * lists3)) : list Qc :=
  if sel (fst yv) then flat_map (fz i) (snd yv) else [].
Definition fx (i : nat) (sel : Z -> bool) (xv : Z * list (Z * list (Z * lists3))) : list Qc :=
  flat_map (fy i sel) (snd xv).
Definition gall (i : nat) (sel : Z -> bool) (p : gpoints) : list Qc := flat_map (fx i sel) p.
Definition ghas {V} (sel : Z -> bool) (p : points V) : bool :=
  existsb (fun xv => existsb (fun yv => sel (fst yv)) (snd xv)) p.

Lemma flat_map_dset {V W} (f : Z * V -> list W) d k v' dft l :
  f (k, dft) = [] -> Permutation (f (k, v')) (l ++ f (k, odflt dft (dget Z.eqb d k))) ->
  Permutation (flat_map f (dset Z.eqb d k v')) (l ++ flat_map f d).
Proof.
  intros H0. induction d as [|[k1 a] d IH]; cbn; intros HP.
  - rewrite H0 in HP. rewrite !app_nil_r in *. exact HP.
  - destruct (Z.eqb_spec k k1) as [->|N]; cbn in *.
    + rewrite app_assoc. apply Permutation_app_tail. exact HP.
    + etransitivity; [apply Permutation_app_head, IH, HP|].
      rewrite !app_assoc. apply Permutation_app_tail, Permutation_app_comm.
Qed.
Lemma existsb_dset {V} (f : Z * V -> bool) d k v' :
  (forall v, dget Z.eqb d k = Some v -> f (k, v) = true -> f (k, v') = true) ->
  existsb f (dset Z.eqb d k v') = f (k, v') || existsb f d.
Proof.
  induction d as [|[k1 a] d IH]; cbn; intros H; [reflexivity|].
  destruct (Z.eqb_spec k k1) as [->|N]; cbn.
  - specialize (H a eq_refl). destruct (f (k1, v')); [reflexivity|].
    destruct (f (k1, a)); [specialize (H eq_refl); discriminate|reflexivity].
  - rewrite IH by assumption. destruct (f (k1, a)), (f (k, v')); reflexivity.
Qed.

Lemma gadd_all i sel p x y z D :
  Permutation (gall i sel (gadd p x y z D)) ((if sel y then comp i D else []) ++ gall i sel p).
Proof.
  unfold gadd, gall. apply flat_map_dset with (dft := []); [reflexivity|].
  unfold fx at 1 2. cbn [snd].
  apply flat_map_dset with (dft := []); [unfold fy; cbn; destruct (sel y); reflexivity|].
  unfold fy. cbn [fst snd]. destruct (sel y); [|constructor].
  apply flat_map_dset with (dft := nil3); [apply comp_nil3|].
  unfold fz. cbn [snd]. rewrite comp_app3. apply Permutation_app_comm.
Qed.
Lemma gadd_has sel p x y z D : ghas sel (gadd p x y z D) = sel y || ghas sel p.
Proof.
  unfold gadd, ghas. rewrite existsb_dset.
  - cbn [snd]. rewrite existsb_dset by (cbn; auto). cbn [fst].
    destruct (sel y); cbn [orb]; [reflexivity|].
    destruct (dget Z.eqb p x) as [px|] eqn:E; cbn [odflt]; [|reflexivity].
    apply dget_in in E; [|apply Z.eqb_eq].
    destruct (existsb (fun yv => sel (fst yv)) px) eqn:E2; [|reflexivity].
    symmetry. apply existsb_exists. exists (x, px). auto.
  - intros px E. cbn [snd]. rewrite E. cbn [odflt]. intros H.
    rewrite existsb_dset by (cbn; auto). rewrite H. apply orb_true_r.
Qed.

Lemma gadd_rel_has sel (p : points otfs3) g : prel p g -> ghas sel p = ghas sel g.
Proof.
  unfold ghas. induction 1 as [|[k1 a] [k2 b] d e [E H] F IH]; [reflexivity|].
  cbn [existsb snd fst] in *. subst. rewrite IH. f_equal. clear -H.
  cbn [snd] in H.
  induction H as [|[k1 a'] [k2 b'] d e [E H] F IH]; [reflexivity|]. cbn [existsb fst snd] in *.
  subst. rewrite IH. reflexivity.
Qed.

(** * Reading runs *)
Lemma read_lines_rel dat ls p g : prel p g -> ~ In LBlank ls -> ~ In (LRow None) ls ->
  (forall r, In (LRow (Some r)) ls -> row_describes r (dat r)) ->
  exists p', read_lines ls p [] = Ok (p', []) /\
    prel p' (fold_left (fun g r => gadd g (r_x r) (r_y r) (r_z r) (dat r)) (flat_map rows_of_line ls) g).
Proof.
  revert p g. induction ls as [|l ls IH]; intros p g H HB HN HD.
  - exists p. split; [reflexivity|exact H].
  - assert (HB' : ~ In LBlank ls) by (intros X; apply HB; right; exact X).
    assert (HN' : ~ In (LRow None) ls) by (intros X; apply HN; right; exact X).
    assert (HD' : forall r, In (LRow (Some r)) ls -> row_describes r (dat r))
      by (intros r X; apply HD; right; exact X).
    destruct l as [| |[r|]].
    + cbn. apply IH; assumption.
    + exfalso. apply HB. left. reflexivity.
    + destruct (add_rel H (HD r (or_introl eq_refl))) as (p' & E & H').
      cbn [read_lines]. rewrite E. cbn [bind flat_map rows_of_line app fold_left]. apply IH; assumption.
    + exfalso. apply HN. left. reflexivity.
Qed.

Definition ghost (dat : row -> lists3) (rows : list row) : gpoints :=
  fold_left (fun g r => gadd g (r_x r) (r_y r) (r_z r) (dat r)) rows [].

Lemma ghost_all dat i sel rows :
  Permutation (gall i sel (ghost dat rows)) (pooled dat i (fun r => sel (r_y r)) rows).
Proof.
  unfold ghost, pooled. induction rows as [|r rows IH] using rev_ind; [constructor|].
  rewrite fold_left_app, flat_map_app. cbn [fold_left flat_map]. rewrite app_nil_r.
  etransitivity; [apply gadd_all|]. etransitivity; [apply Permutation_app_comm|].
  apply Permutation_app_tail. exact IH.
Qed.
Lemma ghost_has dat sel rows :
  ghas sel (ghost dat rows) = existsb (fun r => sel (r_y r)) rows.
Proof.
  unfold ghost. induction rows as [|r rows IH] using rev_ind; [reflexivity|].
  rewrite fold_left_app, existsb_app. cbn [fold_left existsb]. rewrite gadd_has, IH, orb_false_r.
  apply orb_comm.
Qed.

Definition good (dat : row -> lists3) (d : rundir) : Prop :=
  no_blank d /\ (forall ls, rd_file d = Some ls -> ~ In (LRow None) ls) /\
  (forall r, In r (rows_of d) -> row_describes r (dat r)).

Lemma fconfig_eqb_true a b : fconfig_eqb a b = true -> a = b.
Proof.
  unfold fconfig_eqb. intros H. apply andb_true_iff in H. destruct H as [H H3].
  apply andb_true_iff in H. destruct H as [H1 H2].
  apply Nat.eqb_eq in H1, H3. apply qeqb_spec in H2. destruct a, b. cbn in *. congruence.
Qed.

Lemma addRun_rel dat s d s' rows : p_blocks s = [] -> prel (p_points s) (ghost dat rows) ->
  no_blank d -> (forall r, In r (rows_of d) -> row_describes r (dat r)) ->
  addRun s d = Ok s' ->
  p_blocks s' = [] /\ p_config s' = p_config s /\ prel (p_points s') (ghost dat (rows ++ rows_of d)).
Proof.
  intros HB HP HN HD. unfold addRun. rewrite HB.
  destruct (fconfig_eqb (p_config s) (rd_config d)); cbn [negb]; [|discriminate].
  unfold rows_of, no_blank in *. destruct (rd_file d) as [ls|]; [|discriminate].
  specialize (HN ls eq_refl).
  assert (X : forall ls p g, prel p g -> ~ In LBlank ls ->
    (forall r, In r (flat_map rows_of_line ls) -> row_describes r (dat r)) ->
    forall pb, read_lines ls p [] = Ok pb -> exists p', pb = (p', []) /\
      prel p' (fold_left (fun g r => gadd g (r_x r) (r_y r) (r_z r) (dat r)) (flat_map rows_of_line ls) g)).
  { clear. intros ls p g H HB HD pb E.
    destruct (in_dec (fun a b : bool => Bool.bool_dec a b) true
       (map (fun l => match l with LRow None => true | _ => false end) ls)) as [I|I].
    - exfalso. revert p g H E. induction ls as [|l ls IH]; intros p g H E; [destruct I|].
      destruct l as [| |[r|]]; cbn in *.
      + destruct I as [I|I]; [discriminate|]. eapply IH; eauto.
      + apply HB. left. reflexivity.
      + destruct I as [I|I]; [discriminate|].
        destruct (add_rel H (HD r (or_introl eq_refl))) as (p' & E' & H').
        rewrite E' in E. cbn in E. eapply IH; eauto.
      + discriminate.
    - destruct (@read_lines_rel dat ls p g H HB) as (p' & E' & H').
      + intros X. apply I. apply in_map_iff. exists (LRow None). auto.
      + intros r Hr. apply HD. apply in_flat_map. exists (LRow (Some r)). split; [exact Hr|left; reflexivity].
      + rewrite E in E'. injection E' as ->. eauto. }
  destruct (read_lines ls (p_points s) []) as [pb|e] eqn:E; [|discriminate]. cbn [bind].
  destruct (X ls _ _ HP HN HD pb E) as (p' & -> & HP'). intros Q. injection Q as <-. cbn.
  split; [reflexivity|]. split; [reflexivity|]. unfold ghost. rewrite fold_left_app. exact HP'.
Qed.

Lemma add_runs_rel dat ds s s' rows : p_blocks s = [] -> prel (p_points s) (ghost dat rows) ->
  (forall d, In d ds -> no_blank d) ->
  (forall r, In r (flat_map rows_of ds) -> row_describes r (dat r)) ->
  add_runs s ds = Ok s' ->
  p_blocks s' = [] /\ p_config s' = p_config s /\
  prel (p_points s') (ghost dat (rows ++ flat_map rows_of ds)).
Proof.
  revert s rows. induction ds as [|d ds IH]; intros s rows HB HP HN HD E.
  - cbn in E. injection E as <-. rewrite app_nil_r. auto.
  - cbn [add_runs] in E. destruct (addRun s d) as [s1|] eqn:E1; [|discriminate]. cbn [bind] in E.
    cbn [flat_map] in *.
    destruct (@addRun_rel dat s d s1 rows HB HP) as (B1 & C1 & P1); try assumption.
    { apply HN. left. reflexivity. }
    { intros r Hr. apply HD. apply in_or_app. left. exact Hr. }
    destruct (IH s1 _ B1 P1) as (B2 & C2 & P2); try assumption.
    { intros d' Hd. apply HN. right. exact Hd. }
    { intros r Hr. apply HD. apply in_or_app. right. exact Hr. }
    rewrite app_assoc. split; [exact B2|]. split; [congruence|exact P2].
Qed.

(** * The profile *)
Definition retrel (ret : list (Qc * otfs3)) (acc : nat -> Qc -> list Qc) (has : Qc -> bool) : Prop :=
  forall c, match dget qeqb ret c with
            | Some s => (forall i, (i < 3)%nat -> rep (comp i s) (acc i c)) /\ has c = true
            | None => (forall i, (i < 3)%nat -> acc i c = []) /\ has c = false
            end.
Lemma retrel_ext ret a1 h1 a2 h2 : (forall i c, (i < 3)%nat -> a1 i c = a2 i c) ->
  (forall c, h1 c = h2 c) -> retrel ret a1 h1 -> retrel ret a2 h2.
Proof.
  intros A H R c. specialize (R c). rewrite <- H.
  destruct (dget qeqb ret c); destruct R as [R1 R2]; split; try exact R2;
  intros i Hi; rewrite <- A by exact Hi; apply R1, Hi.
Qed.

Lemma qeqb_refl k : qeqb k k = true.
Proof. apply qeqb_spec. reflexivity. Qed.

Lemma prof_z_rel zs gz : drel rep3 zs gz -> forall k ret acc has, retrel ret acc has -> has k = true ->
  exists ret', prof_z otfs3_new merge3 k ret zs = Ok ret' /\
    retrel ret' (fun i c => acc i c ++ (if qeqb c k then flat_map (fz i) gz else [])) has.
Proof.
  unfold prof_z.
  induction 1 as [|[z1 v] [z2 w] zs gz [E H] F IH]; intros k ret acc has R HK.
  - exists ret. split; [reflexivity|]. eapply retrel_ext; [| |exact R]; [|reflexivity].
    intros i c _. cbn. destruct (qeqb c k); rewrite app_nil_r; reflexivity.
  - cbn [fold_res snd] in *. cbn in E. subst z2.
    assert (R0 : exists A, rep3 (odflt otfs3_new (dget qeqb ret k)) A /\
              forall i, (i < 3)%nat -> comp i A = acc i k).
    { exists (acc 0%nat k, acc 1%nat k, acc 2%nat k). specialize (R k).
      split; [|intros [|[|[|i]]] Hi; try lia; reflexivity].
      destruct (dget qeqb ret k) as [s|]; cbn [odflt].
      - destruct R as [R _]. intros [|[|[|i]]] Hi; try lia; cbn [comp];
        [apply (R 0%nat)|apply (R 1%nat)|apply (R 2%nat)]; lia.
      - destruct R as [_ R]. congruence. }
    destruct R0 as (A & RA & EA).
    destruct (merge3_rep RA H) as (c & Ec & Rc). rewrite Ec. cbn [bind].
    destruct (IH k (dset qeqb ret k c) (fun i c => acc i c ++ (if qeqb c k then comp i w else [])) has)
      as (ret' & E' & R'); [|exact HK|].
    + intros c0. rewrite dget_dset by apply qeqb_spec. destruct (qeqb c0 k) eqn:Q.
      * apply qeqb_spec in Q. subst c0. split; [|exact HK].
        intros i Hi. rewrite <- EA by exact Hi. rewrite <- comp_app3. apply Rc, Hi.
      * specialize (R c0). destruct (dget qeqb ret c0); destruct R as [R1 R2]; split; try exact R2;
        intros i Hi; rewrite app_nil_r; apply R1, Hi.
    + exists ret'. split; [exact E'|]. eapply retrel_ext; [| |exact R']; [|reflexivity].
      intros i c0 _. cbn. destruct (qeqb c0 k).
      * rewrite <- app_assoc. reflexivity.
      * rewrite !app_nil_r. reflexivity.
Qed.

Lemma prof_y_rel coord ys gy : drel (drel rep3) ys gy -> forall ret acc has, retrel ret acc has ->
  exists ret', prof_y otfs3_new merge3 coord ret ys = Ok ret' /\
    retrel ret' (fun i c => acc i c ++ flat_map (fy i (fun y => qeqb c (coord y))) gy)
                (fun c => has c || existsb (fun yv => qeqb c (coord (fst yv))) gy).
Proof.
  unfold prof_y.
  induction 1 as [|[y1 v] [y2 w] ys gy [E H] F IH]; intros ret acc has R.
  - exists ret. split; [reflexivity|]. eapply retrel_ext; [| |exact R].
    + intros i c _. cbn. rewrite app_nil_r. reflexivity.
    + intros c. cbn. rewrite orb_false_r. reflexivity.
  - cbn [fold_res]. cbn [fst snd] in E, H. subst y2. cbn [fst snd].
    set (k := coord y1).
    set (ret1 := match dget qeqb ret k with None => dset qeqb ret k otfs3_new | Some _ => ret end).
    assert (R1 : retrel ret1 acc (fun c => has c || qeqb c k)).
    { unfold ret1. pose proof (R k) as Rk. destruct (dget qeqb ret k) eqn:Ek.
      - intros c. specialize (R c). destruct (qeqb c k) eqn:Q.
        + apply qeqb_spec in Q. subst c. rewrite Ek. rewrite orb_true_r. split; [apply Rk|reflexivity].
        + rewrite orb_false_r. exact R.
      - intros c. rewrite dget_dset by apply qeqb_spec. destruct (qeqb c k) eqn:Q.
        + apply qeqb_spec in Q. subst c. rewrite orb_true_r. split; [|reflexivity].
          intros i Hi. destruct Rk as [Rk _]. rewrite Rk by exact Hi. rewrite comp_new. apply rep_new.
        + rewrite orb_false_r. apply R. }
    destruct (prof_z_rel H k R1) as (ret2 & E2 & R2).
    { rewrite qeqb_refl. apply orb_true_r. }
    rewrite E2. cbn [bind].
    destruct (IH ret2 _ _ R2) as (ret3 & E3 & R3).
    exists ret3. split; [exact E3|]. eapply retrel_ext; [| |exact R3].
    + intros i c _. cbn [flat_map]. unfold fy at 2. cbn [fst snd]. fold k.
      destruct (qeqb c k); rewrite <- app_assoc; reflexivity.
    + intros c. cbn [existsb fst]. fold k. rewrite orb_assoc. reflexivity.
Qed.

Lemma prof_x_rel coord p g : prel p g ->
  exists ret, prof_x otfs3_new merge3 coord p = Ok ret /\
    retrel ret (fun i c => gall i (fun y => qeqb c (coord y)) g)
               (fun c => ghas (fun y => qeqb c (coord y)) g).
Proof.
  unfold prof_x. intros H.
  assert (G : forall p g, prel p g -> forall ret acc has, retrel ret acc has ->
    exists ret', fold_res (fun ret xv => prof_y otfs3_new merge3 coord ret (snd xv)) p ret = Ok ret' /\
    retrel ret' (fun i c => acc i c ++ gall i (fun y => qeqb c (coord y)) g)
               (fun c => has c || ghas (fun y => qeqb c (coord y)) g)).
  { clear. induction 1 as [|[x1 v] [x2 w] xs gx [E H] F IH]; intros ret acc has R.
    - exists ret. split; [reflexivity|]. eapply retrel_ext; [| |exact R].
      + intros i c _. cbn. rewrite app_nil_r. reflexivity.
      + intros c. cbn. rewrite orb_false_r. reflexivity.
    - cbn [fold_res snd]. cbn [fst snd] in E, H.
      destruct (prof_y_rel coord H R) as (ret1 & E1 & R1). rewrite E1. cbn [bind].
      destruct (IH _ _ _ R1) as (ret2 & E2 & R2). exists ret2. split; [exact E2|].
      eapply retrel_ext; [| |exact R2].
      + intros i c _. unfold gall. cbn [flat_map]. unfold fx at 2. cbn [snd].
        rewrite <- app_assoc. reflexivity.
      + intros c. unfold ghas. cbn [existsb snd]. rewrite orb_assoc. reflexivity. }
  destruct (G p g H [] (fun _ _ => []) (fun _ => false)) as (ret & E & R).
  { intros c. cbn. auto. }
  exists ret. split; [exact E|]. exact R.
Qed.

Lemma yCoord_inj sub shift y1 y2 : sub <> 0%nat -> yCoord sub shift y1 = yCoord sub shift y2 -> y1 = y2.
Proof.
  intros Hs E. apply qz_inj.
  assert (E' : qz y1 / qn sub = qz y2 / qn sub).
  { unfold yCoord in E. destruct shift; [|exact E].
    set (t := 1 / (1 + 1) / qn sub) in E.
    transitivity (qz y1 / qn sub + t - t); [ring|]. rewrite E. ring. }
  assert (N : qn sub <> 0) by (apply qn_neq0, Hs).
  transitivity (qz y1 / qn sub * qn sub); [field; exact N|]. rewrite E'. field. exact N.
Qed.

Lemma pooled_ext dat i s1 s2 rows : (forall r, s1 r = s2 r) -> pooled dat i s1 rows = pooled dat i s2 rows.
Proof.
  intros H. unfold pooled. apply flat_map_ext. intros r. rewrite H. reflexivity.
Qed.

Lemma flow_pooled dat d0 ds s0 s shift :
  fp_new d0 = Ok s0 -> add_runs s0 ds = Ok s ->
  f_sub (rd_config d0) <> 0%nat ->
  (forall d, In d (d0 :: ds) -> no_blank d) ->
  (forall r, In r (flat_map rows_of (d0 :: ds)) -> row_describes r (dat r)) ->
  exists ret, getFlowProfileAsFunctionOfY s shift = Ok ret /\
  forall y : Z,
    match dget qeqb ret (yCoord (f_sub (rd_config d0)) shift y) with
    | None => ~ exists r, In r (flat_map rows_of (d0 :: ds)) /\ r_y r = y
    | Some t =>
      (exists r, In r (flat_map rows_of (d0 :: ds)) /\ r_y r = y) /\
      forall i, (i < 3)%nat ->
        answers (comp i t) (pooled dat i (fun r => Z.eqb (r_y r) y) (flat_map rows_of (d0 :: ds)))
    end.
Proof.
  intros E0 E1 HS HN HD.
  assert (A : add_runs (mk_profile (rd_config d0) [] []) (d0 :: ds) = Ok s).
  { cbn [add_runs]. unfold fp_new in E0. rewrite E0. exact E1. }
  destruct (@add_runs_rel dat (d0 :: ds) (mk_profile (rd_config d0) [] []) s [] eq_refl ltac:(constructor) HN HD A)
    as (_ & C & P). cbn [p_config app] in C, P.
  set (rows := flat_map rows_of (d0 :: ds)) in *.
  unfold getFlowProfileAsFunctionOfY. rewrite C.
  set (co := yCoord (f_sub (rd_config d0)) shift).
  destruct (prof_x_rel co P) as (ret & E & R). exists ret. split; [exact E|].
  intros y. specialize (R (co y)). cbv beta in R. rewrite ghost_has in R.
  assert (SE : forall r, qeqb (co y) (co (r_y r)) = Z.eqb (r_y r) y).
  { intros r. destruct (Z.eqb_spec (r_y r) y) as [->|N]; [apply qeqb_refl|].
    destruct (qeqb (co y) (co (r_y r))) eqn:Q; [|reflexivity]. apply qeqb_spec in Q.
    apply yCoord_inj in Q; [congruence|exact HS]. }
  assert (HE : existsb (fun r => qeqb (co y) (co (r_y r))) rows = true <->
               exists r, In r rows /\ r_y r = y).
  { rewrite existsb_exists. split; intros (r & I & Q); exists r; split; auto.
    - rewrite SE in Q. apply Z.eqb_eq, Q.
    - rewrite SE. apply Z.eqb_eq, Q. }
  destruct (dget qeqb ret (co y)) as [t|]; destruct R as [R1 R2].
  - split; [apply HE, R2|]. intros i Hi. apply rep_answers.
    eapply rep_perm; [|apply R1, Hi].
    etransitivity; [apply ghost_all|].
    erewrite pooled_ext; [apply Permutation_refl|exact SE].
  - intros X. apply HE in X. congruence.
Qed.

(** Global statistics. *)
Lemma merge_z_rel zs gz : drel rep3 zs gz -> forall s A, rep3 s A ->
  exists s', fold_res (fun acc zv => merge3 acc (snd zv)) zs s = Ok s' /\
    exists B, rep3 s' B /\ forall i, comp i B = comp i A ++ flat_map (fz i) gz.
Proof.
  induction 1 as [|[z1 v] [z2 w] zs gz [E H] F IH]; intros s A R; cbn [fold_res].
  - exists s. split; [reflexivity|]. exists A. split; [exact R|]. intros i. cbn. rewrite app_nil_r. reflexivity.
  - cbn [fst snd] in *. destruct (merge3_rep R H) as (c & Ec & Rc). rewrite Ec. cbn [bind].
    destruct (IH c _ Rc) as (s' & E' & B & RB & EB). exists s'. split; [exact E'|].
    exists B. split; [exact RB|]. intros i. rewrite EB, comp_app3, <- app_assoc. reflexivity.
Qed.
Lemma merge_y_rel ys gy : drel (drel rep3) ys gy -> forall s A, rep3 s A ->
  exists s', fold_res (fun acc yv => fold_res (fun acc zv => merge3 acc (snd zv)) (snd yv) acc) ys s = Ok s' /\
    exists B, rep3 s' B /\ forall i, comp i B = comp i A ++ flat_map (fy i (fun _ => true)) gy.
Proof.
  induction 1 as [|[z1 v] [z2 w] zs gz [E H] F IH]; intros s A R; cbn [fold_res].
  - exists s. split; [reflexivity|]. exists A. split; [exact R|]. intros i. cbn. rewrite app_nil_r. reflexivity.
  - cbn [fst snd] in *. destruct (merge_z_rel H R) as (c & Ec & C & Rc & EC). rewrite Ec. cbn [bind].
    destruct (IH c _ Rc) as (s' & E' & B & RB & EB). exists s'. split; [exact E'|].
    exists B. split; [exact RB|]. intros i. rewrite EB, EC, <- app_assoc. reflexivity.
Qed.
Lemma merge_x_rel p g : prel p g -> forall s A, rep3 s A ->
  exists s', fold_res (fun acc xv => fold_res (fun acc yv => fold_res (fun acc zv => merge3 acc (snd zv)) (snd yv) acc) (snd xv) acc) p s = Ok s' /\
    exists B, rep3 s' B /\ forall i, comp i B = comp i A ++ gall i (fun _ => true) g.
Proof.
  induction 1 as [|[z1 v] [z2 w] zs gz [E H] F IH]; intros s A R; cbn [fold_res].
  - exists s. split; [reflexivity|]. exists A. split; [exact R|]. intros i. cbn. rewrite app_nil_r. reflexivity.
  - cbn [fst snd] in *. destruct (merge_y_rel H R) as (c & Ec & C & Rc & EC). rewrite Ec. cbn [bind].
    destruct (IH c _ Rc) as (s' & E' & B & RB & EB). exists s'. split; [exact E'|].
    exists B. split; [exact RB|]. intros i. rewrite EB, EC, <- app_assoc. reflexivity.
Qed.

Lemma flow_global dat d0 ds s0 s :
  fp_new d0 = Ok s0 -> add_runs s0 ds = Ok s ->
  (forall d, In d (d0 :: ds) -> no_blank d) ->
  (forall r, In r (flat_map rows_of (d0 :: ds)) -> row_describes r (dat r)) ->
  exists t, getGlobalFlowStatistics s = Ok t /\
  forall i, (i < 3)%nat ->
    answers (comp i t) (pooled dat i (fun _ => true) (flat_map rows_of (d0 :: ds))).
Proof.
  intros E0 E1 HN HD.
  assert (A : add_runs (mk_profile (rd_config d0) [] []) (d0 :: ds) = Ok s).
  { cbn [add_runs]. unfold fp_new in E0. rewrite E0. exact E1. }
  destruct (@add_runs_rel dat (d0 :: ds) (mk_profile (rd_config d0) [] []) s [] eq_refl ltac:(constructor) HN HD A)
    as (_ & C & P). cbn [p_config app] in C, P.
  destruct (merge_x_rel P rep3_new) as (t & E & B & RB & EB).
  exists t. split; [exact E|]. intros i Hi. apply rep_answers.
  eapply rep_perm; [|apply RB, Hi]. rewrite EB, comp_nil3. cbn [app].
  apply (@ghost_all dat i (fun _ => true)).
Qed.

(** * Recording *)
Lemma fold_res_app {A B} (f : A -> B -> result A) l1 l2 a :
  fold_res f (l1 ++ l2) a = do a' <- fold_res f l1 a; fold_res f l2 a'.
Proof.
  revert a. induction l1 as [|x l1 IH]; intros a; [reflexivity|].
  cbn. destruct (f a x); cbn; [apply IH|reflexivity].
Qed.
Lemma sweeps_app a b : sweeps (a ++ b) = (sweeps a + sweeps b)%nat.
Proof. induction a as [|[|c v] a IH]; cbn; rewrite ?IH; reflexivity. Qed.
Lemma recorded_app a : forall n b blk sel,
  recorded n (a ++ b) blk sel = recorded n a blk sel ++ recorded (n + sweeps a) b blk sel.
Proof.
  induction a as [|[|c v] a IH]; intros n b blk sel; cbn [app recorded sweeps].
  - rewrite Nat.add_0_r. reflexivity.
  - rewrite IH. f_equal. f_equal. lia.
  - rewrite IH, app_assoc. reflexivity.
Qed.
Lemma cell_eqb_spec a b : cell_eqb a b = true <-> a = b.
Proof.
  destruct a as [[x y] z], b as [[x' y'] z']. unfold cell_eqb.
  rewrite !andb_true_iff, !Nat.eqb_eq. split; [intros [[-> ->] ->]; reflexivity|].
  intros E. injection E as -> -> ->. auto.
Qed.
Lemma cell_eqb_refl a : cell_eqb a a = true.
Proof. apply cell_eqb_spec. reflexivity. Qed.
Lemma cell_eqb_sym a b : cell_eqb a b = cell_eqb b a.
Proof.
  destruct (cell_eqb a b) eqn:E.
  - apply cell_eqb_spec in E. subst. symmetry. apply cell_eqb_refl.
  - destruct (cell_eqb b a) eqn:E2; [|reflexivity]. apply cell_eqb_spec in E2. subst.
    rewrite cell_eqb_refl in E. discriminate.
Qed.

Definition rep_block (b : fblock) (f : cell -> list vec) : Prop :=
  forall c i, (i < 3)%nat -> rep (comp i (b c)) (map (comp i) (f c)).
Lemma rep_block_new f : (forall c, f c = []) -> rep_block fblock_new f.
Proof. intros H c i _. rewrite H. unfold fblock_new. rewrite comp_new. apply rep_new. Qed.
Lemma rep_block_ext b f g : (forall c, f c = g c) -> rep_block b f -> rep_block b g.
Proof. intros H R c i Hi. rewrite <- H. apply R, Hi. Qed.
Lemma comp_add3 i s v : comp i (add3 s v) = addDatum (comp i s) (comp i v).
Proof. destruct s as [[a b] c], v as [[x y] z], i as [|[|i]]; reflexivity. Qed.

Lemma recorded_none n os blk sel : (forall k, (n + sweeps os > k)%nat -> blk k = false) ->
  (0 < n + sweeps os)%nat ->
  recorded n os blk sel = [].
Proof.
  revert n. induction os as [|[|c v] os IH]; intros n H P; cbn [recorded sweeps] in *; [reflexivity| |].
  - apply IH; [|lia]. intros k Hk. apply H. lia.
  - rewrite IH by assumption. rewrite H, andb_false_r by lia. reflexivity.
Qed.

(** The state after a sequence of calls. *)
Definition finv (shape : cell) (subs : cell) (per : nat) (os : list fop) (s : cfp) : Prop :=
  c_shape s = shape /\ c_subs s = subs /\ c_per s = per /\
  length (c_blocks s) = block_total per (sweeps os) /\
  (per <> 0%nat -> c_count s = match sweeps os with 0%nat => 0%nat | S k => (k mod per)%nat end) /\
  forall b B, nth_error (blocks_in_order s) b = Some B ->
    rep_block B (fun c => recorded 0 os (in_block per b) (cell_eqb c)).

Lemma nth_error_snoc {A} (l : list A) x n y : nth_error (l ++ [x]) n = Some y ->
  (n < length l /\ nth_error l n = Some y)%nat \/ (n = length l /\ y = x).
Proof.
  intros H. destruct (Nat.lt_ge_cases n (length l)).
  - rewrite nth_error_app1 in H by assumption. auto.
  - rewrite nth_error_app2 in H by assumption. destruct (n - length l)%nat eqn:E.
    + cbn in H. injection H as <-. right. split; [lia|reflexivity].
    + cbn in H. destruct n0; discriminate.
Qed.

Lemma div_mod_step k per : per <> 0%nat ->
  (if Nat.eqb (S (k mod per)) per then (S k / per = S (k / per) /\ S k mod per = 0)%nat
   else (S k / per = k / per /\ S k mod per = S (k mod per))%nat).
Proof.
  intros H. pose proof (Nat.div_mod k per H). pose proof (Nat.mod_upper_bound k per H).
  destruct (Nat.eqb_spec (S (k mod per)) per) as [E|N].
  - split; symmetry; [apply Nat.div_unique with (r := 0%nat)|apply Nat.mod_unique with (q := S (k / per))]; nia.
  - split; symmetry; [apply Nat.div_unique with (r := S (k mod per))|apply Nat.mod_unique with (q := (k / per)%nat)]; nia.
Qed.

Lemma block_nonempty per os (s : cfp) : length (c_blocks s) = block_total per (sweeps os) ->
  c_blocks s <> [] -> exists k, sweeps os = S k.
Proof.
  intros H N. destruct (sweeps os) as [|k]; [|eauto]. cbn in H. destruct (c_blocks s); [congruence|discriminate].
Qed.

Lemma finv_run box subs per s0 os s : cfp_new box subs per = Ok s0 -> frun s0 os = Ok s ->
  finv (c_shape s0) subs per os s.
Proof.
  intros E0. revert s. induction os as [|o os IH] using rev_ind; intros s E.
  - cbn in E. injection E as <-. unfold cfp_new in E0.
    destruct box as [[bx by_] bz], subs as [[sx sy] sz].
    destruct (Nat.eqb sx 0), (Nat.eqb sy 0), (Nat.eqb sz 0); try discriminate. injection E0 as <-.
    unfold finv. do 5 (split; [reflexivity|]). intros [|b] B HB; discriminate.
  - unfold frun in E. rewrite fold_res_app in E. fold (frun s0 os) in E.
    destruct (frun s0 os) as [s1|] eqn:E1; [|discriminate]. cbn [bind fold_res] in E.
    destruct (IH s1 eq_refl) as (I1 & I2 & I3 & I4 & I5 & I6). clear IH.
    assert (E' : fexec s1 o = Ok s) by (destruct (fexec s1 o); [exact E|discriminate]). clear E.
    destruct o as [|c v]; cbn [fexec] in E'.
    + injection E' as <-. unfold newSweep.
      assert (SW : sweeps (os ++ [FSweep]) = S (sweeps os)) by (rewrite sweeps_app; cbn; lia).
      assert (RC : forall blk sel, recorded 0 (os ++ [FSweep]) blk sel = recorded 0 os blk sel)
        by (intros; rewrite recorded_app; cbn; apply app_nil_r).
      assert (OLD : forall b B, nth_error (blocks_in_order s1) b = Some B ->
        rep_block B (fun c => recorded 0 (os ++ [FSweep]) (in_block per b) (cell_eqb c)))
        by (intros b B HB; eapply rep_block_ext; [|apply I6, HB]; intros c; rewrite RC; reflexivity).
      unfold finv. rewrite SW.
      destruct (c_blocks s1) as [|B0 Br] eqn:EB.
      * assert (sweeps os = 0%nat).
        { cbn in I4. destruct (sweeps os); [reflexivity|]. cbn in I4. destruct (Nat.eqb per 0); discriminate. }
        cbn [c_shape c_subs c_per c_count c_blocks]. rewrite H.
        split; [exact I1|]. split; [exact I2|]. split; [exact I3|]. split.
        { cbn. destruct (Nat.eqb_spec per 0); [reflexivity|]. rewrite Nat.div_0_l by assumption. reflexivity. }
        split.
        { intros HP. rewrite I5 by exact HP. rewrite H. symmetry. apply Nat.mod_0_l, HP. }
        intros [|[|b]] B HB; cbn in HB; try discriminate. injection HB as <-.
        apply rep_block_new. intros c. rewrite RC.
        clear -H E0 E1.
        destruct os as [|o os]; [reflexivity|]. exfalso.
        destruct o as [|c' v']; [cbn in H; lia|].
        unfold cfp_new in E0. destruct box as [[bx by_] bz], subs as [[sx sy] sz].
        destruct (Nat.eqb sx 0), (Nat.eqb sy 0), (Nat.eqb sz 0); try discriminate. injection E0 as <-.
        cbn in E1. discriminate.
      * assert (NE : exists k, sweeps os = S k).
        { apply (@block_nonempty per os s1); rewrite EB; [exact I4|discriminate]. }
        destruct NE as [k Hk]. rewrite Hk in *.
        destruct (Nat.eqb_spec (c_per s1) 0) as [P0|P0]; cbn [c_shape c_subs c_per c_count c_blocks].
        { split; [exact I1|]. split; [exact I2|]. split; [exact I3|]. rewrite I3 in P0. cbn in I4 |- *.
          split; [rewrite I4, P0; reflexivity|]. split; [congruence|].
          intros b B HB. apply OLD. unfold blocks_in_order in *. rewrite EB. exact HB. }
        { rewrite I3 in P0. specialize (I5 P0). rewrite I5, I3. pose proof (div_mod_step k P0) as DM.
          cbn [block_total] in *. destruct (Nat.eqb_spec per 0) as [|_]; [contradiction|].
          destruct (Nat.eqb (S (k mod per)) per); cbn [negb]; cbn [c_shape c_subs c_per c_count c_blocks];
          destruct DM as [DM1 DM2].
          - split; [exact I1|]. split; [exact I2|]. split; [first [exact I3|reflexivity]|]. split.
            { cbn [length] in *. rewrite I4, DM1. reflexivity. }
            split; [intros _; symmetry; exact DM2|].
            intros b B HB. unfold blocks_in_order in *. cbn [c_blocks rev] in HB.
            apply nth_error_snoc in HB. destruct HB as [[_ HB]|[Hb ->]].
            + apply OLD. rewrite EB. exact HB.
            + apply rep_block_new. intros c. rewrite RC. apply recorded_none; [|rewrite Hk; lia].
              rewrite Hk. intros j Hj. unfold in_block. destruct (Nat.eqb_spec per 0); [contradiction|].
              apply Nat.eqb_neq. rewrite Hb. change (rev Br ++ [B0]) with (rev (B0 :: Br)).
              rewrite rev_length, I4.
              assert ((j / per <= k / per)%nat) by (apply Nat.div_le_mono; lia). lia.
          - split; [exact I1|]. split; [exact I2|]. split; [first [exact I3|reflexivity]|]. split; [rewrite DM1; exact I4|].
            split; [intros _; symmetry; exact DM2|].
            intros b B HB. apply OLD. unfold blocks_in_order in *. rewrite EB. exact HB. }
    + unfold cfp_add in E'. destruct (c_blocks s1) as [|B0 Br] eqn:EB; [discriminate|].
      destruct (in_shape (c_shape s1) c) eqn:IS; cbn [negb] in E'; [|discriminate]. injection E' as <-.
      assert (NE : exists k, sweeps os = S k).
      { apply (@block_nonempty per os s1); rewrite EB; [exact I4|discriminate]. }
      destruct NE as [k Hk].
      unfold finv. cbn [c_shape c_subs c_per c_count c_blocks].
      rewrite sweeps_app. cbn [sweeps]. rewrite Nat.add_0_r.
      split; [exact I1|]. split; [exact I2|]. split; [first [exact I3|reflexivity]|]. split; [exact I4|]. split; [exact I5|].
      intros b B HB. unfold blocks_in_order in *. cbn [c_blocks rev] in HB. rewrite EB in I6. cbn [rev] in I6.
      assert (RC : forall sel, recorded 0 (os ++ [FAdd c v]) (in_block per b) sel =
        recorded 0 os (in_block per b) sel ++ (if sel c && in_block per b k then [v] else [])).
      { intros sel. rewrite recorded_app. cbn [recorded Nat.add]. rewrite Hk. cbn [Nat.sub].
        rewrite Nat.sub_0_r, app_nil_r. reflexivity. }
      rewrite Hk in I4. cbn [length] in I4.
      assert (BL : length Br = if Nat.eqb per 0 then 0%nat else (k / per)%nat).
      { cbn [block_total] in I4. destruct (Nat.eqb per 0); lia. }
      apply nth_error_snoc in HB. rewrite rev_length in HB. destruct HB as [[Hb HB]|[Hb ->]].
      * eapply rep_block_ext; [|apply I6; rewrite nth_error_app1 by (rewrite rev_length; exact Hb); exact HB].
        intros c'. cbv beta. rewrite RC.
        assert (IB : in_block per b k = false).
        { unfold in_block. destruct (Nat.eqb per 0); apply Nat.eqb_neq; lia. }
        rewrite IB, andb_false_r, app_nil_r. reflexivity.
      * assert (IB : in_block per b k = true).
        { unfold in_block. destruct (Nat.eqb per 0); apply Nat.eqb_eq; lia. }
        assert (R0 : rep_block B0 (fun c => recorded 0 os (in_block per b) (cell_eqb c))).
        { apply I6. rewrite nth_error_app2 by (rewrite rev_length; lia). rewrite rev_length, Hb, Nat.sub_diag. reflexivity. }
        intros c' i Hi. rewrite RC, IB, andb_true_r. cbv beta.
        destruct (cell_eqb c' c) eqn:Q.
        { rewrite comp_add3, map_app. cbn [map]. apply rep_add, R0, Hi. }
        { rewrite app_nil_r. apply R0, Hi. }
Qed.

Lemma flow_record box subs per s0 os s : cfp_new box subs per = Ok s0 -> frun s0 os = Ok s ->
  length (blocks_in_order s) = block_total per (sweeps os) /\
  forall b B, nth_error (blocks_in_order s) b = Some B ->
  forall c i, (i < 3)%nat ->
    answers (comp i (B c)) (map (comp i) (recorded 0 os (in_block per b) (cell_eqb c))).
Proof.
  intros E0 E. destruct (finv_run _ _ _ _ E0 E) as (I1 & I2 & I3 & I4 & I5 & I6). split.
  - unfold blocks_in_order. rewrite rev_length. exact I4.
  - intros b B HB c i Hi. apply rep_answers. apply (I6 b B HB c i Hi).
Qed.

Lemma flow_record_ok box subs per s0 os : cfp_new box subs per = Ok s0 ->
  (exists s, frun s0 os = Ok s) <->
  (forall pre c v post, os = pre ++ FAdd c v :: post ->
     (0 < sweeps pre)%nat /\ in_shape (c_shape s0) c = true).
Proof.
  intros E0. split.
  - intros [s E] pre c v post ->. unfold frun in E. rewrite fold_res_app in E. fold (frun s0 pre) in E.
    destruct (frun s0 pre) as [s1|] eqn:E1; [|discriminate]. cbn [bind fold_res fexec] in E.
    destruct (finv_run _ _ _ _ E0 E1) as (I1 & I2 & I3 & I4 & _). unfold cfp_add in E.
    destruct (c_blocks s1) as [|B Br] eqn:EB; [discriminate|]. rewrite I1 in E.
    destruct (in_shape (c_shape s0) c); [|discriminate]. split; [|reflexivity].
    destruct (sweeps pre); [discriminate|lia].
  - induction os as [|o os IH] using rev_ind; intros H; [eexists; reflexivity|].
    destruct IH as [s1 E1].
    { intros pre c v post ->. apply H with (v := v) (post := post ++ [o]). rewrite <- app_assoc. reflexivity. }
    unfold frun. rewrite fold_res_app. fold (frun s0 os). rewrite E1. cbn [bind fold_res].
    destruct o as [|c v]; cbn [fexec]; [eexists; reflexivity|].
    destruct (H os c v [] eq_refl) as [S1 S2].
    destruct (finv_run _ _ _ _ E0 E1) as (I1 & I2 & I3 & I4 & _). unfold cfp_add.
    destruct (c_blocks s1) as [|B Br].
    + cbn in I4. destruct (sweeps os) as [|n]; [lia|]. cbn in I4. destruct (Nat.eqb per 0); discriminate.
    + rewrite I1, S2. cbn [negb bind]. eexists. reflexivity.
Qed.

(** * From the simulation to the analysis *)
Lemma answers_perm s l1 l2 : Permutation l1 l2 -> answers s l1 -> answers s l2.
Proof.
  intros P (A & B & C). unfold answers. rewrite A, B, C. split; [apply Permutation_length, P|].
  unfold spec_mean, spec_variance, variance. pose proof (Permutation_length P) as L.
  rewrite <- (mean_perm P), <- (devsq_perm P), <- L.
  destruct l1 as [|a [|b l1]], l2 as [|a' [|b' l2]]; try discriminate; auto.
Qed.

Lemma in_cells shape c : In c (cells shape) <-> in_shape shape c = true.
Proof.
  destruct shape as [[nx ny] nz], c as [[x y] z]. unfold cells, in_shape.
  rewrite !andb_true_iff, !Nat.ltb_lt, in_flat_map. split.
  - intros (x' & Hx & H). apply in_flat_map in H. destruct H as (y' & Hy & H).
    apply in_map_iff in H. destruct H as (z' & E & Hz). injection E as -> -> ->.
    apply in_seq in Hx, Hy, Hz. lia.
  - intros [[Hx Hy] Hz]. exists x. split; [apply in_seq; lia|]. apply in_flat_map.
    exists y. split; [apply in_seq; lia|]. apply in_map_iff. exists z. split; [reflexivity|apply in_seq; lia].
Qed.

Lemma nodup_flat_map {A B} (f : A -> list B) l : NoDup l -> (forall a, In a l -> NoDup (f a)) ->
  (forall a b x, In a l -> In b l -> In x (f a) -> In x (f b) -> a = b) -> NoDup (flat_map f l).
Proof.
  induction 1 as [|a l N ND IH]; intros H1 H2; cbn; [constructor|].
  assert (D : forall (u v : list B), NoDup u -> NoDup v -> (forall x, In x u -> ~ In x v) -> NoDup (u ++ v)).
  { clear. induction u as [|x u IH]; intros v H1 H2 H3; cbn; [exact H2|].
    inversion_clear H1. constructor.
    - rewrite in_app_iff. intros [I|I]; [contradiction|]. apply (H3 x (or_introl eq_refl) I).
    - apply IH; auto. intros y Hy. apply H3. right. exact Hy. }
  apply D.
  - apply H1. left. reflexivity.
  - apply IH; [intros b Hb; apply H1; right; exact Hb|].
    intros b c x Hb Hc. apply H2; right; assumption.
  - intros x Hx I. apply in_flat_map in I. destruct I as (b & Hb & Hx').
    assert (a = b) by (apply (H2 a b x); [left; reflexivity|right; exact Hb|exact Hx|exact Hx']).
    subst b. contradiction.
Qed.
Lemma cells_nodup shape : NoDup (cells shape).
Proof.
  destruct shape as [[nx ny] nz]. unfold cells. apply nodup_flat_map; [apply seq_NoDup| |].
  - intros x _. apply nodup_flat_map; [apply seq_NoDup| |].
    + intros y _. apply FinFun.Injective_map_NoDup; [|apply seq_NoDup].
      intros a b E. injection E. auto.
    + intros y y' [[a b] c] _ _ H H'. apply in_map_iff in H, H'.
      destruct H as (z & E & _), H' as (z' & E' & _). congruence.
  - intros x x' [[a b] c] _ _ H H'. apply in_flat_map in H, H'.
    destruct H as (y & _ & H), H' as (y' & _ & H'). apply in_map_iff in H, H'.
    destruct H as (z & E & _), H' as (z' & E' & _). congruence.
Qed.

(** Adding up over cells what has been recorded in each. *)
Lemma flat_map_perm_split {A B} (f g : A -> list B) l :
  Permutation (flat_map (fun a => f a ++ g a) l) (flat_map f l ++ flat_map g l).
Proof.
  induction l as [|a l IH]; cbn; [constructor|].
  rewrite <- app_assoc.
  transitivity (f a ++ g a ++ flat_map f l ++ flat_map g l); [do 2 apply Permutation_app_head; exact IH|].
  rewrite <- app_assoc. apply Permutation_app_head. rewrite !app_assoc. apply Permutation_app_tail, Permutation_app_comm.
Qed.
Lemma flat_map_single {B} (cs : list cell) c0 (v : B) : NoDup cs ->
  flat_map (fun c => if cell_eqb c c0 then [v] else []) cs =
  if existsb (fun c => cell_eqb c c0) cs then [v] else [].
Proof.
  induction 1 as [|c cs N ND IH]; [reflexivity|]. cbn. rewrite IH. destruct (cell_eqb c c0) eqn:E; [|reflexivity].
  cbn [orb app]. apply cell_eqb_spec in E. subst c0.
  destruct (existsb (fun c' => cell_eqb c' c) cs) eqn:X; [|reflexivity]. exfalso.
  apply existsb_exists in X. destruct X as (c' & I & E). apply cell_eqb_spec in E. subst. contradiction.
Qed.
Lemma recorded_sum (cs : list cell) : NoDup cs -> forall os n blk,
  Permutation (flat_map (fun c => recorded n os blk (cell_eqb c)) cs)
              (recorded n os blk (fun c => existsb (fun c' => cell_eqb c' c) cs)).
Proof.
  intros ND. induction os as [|[|c v] os IH]; intros n blk; cbn [recorded].
  - clear. induction cs; [constructor|assumption].
  - apply IH.
  - etransitivity; [apply (@flat_map_perm_split cell vec (fun c0 => if cell_eqb c0 c && blk (n - 1)%nat then [v] else []))|].
    apply Permutation_app; [|apply IH].
    destruct (blk (n - 1)%nat).
    + erewrite flat_map_ext; [rewrite (flat_map_single c v ND), andb_true_r; apply Permutation_refl|].
      intros c0. cbv beta. rewrite andb_true_r. reflexivity.
    + rewrite andb_false_r. clear. induction cs; cbn; [constructor|].
      rewrite andb_false_r. exact IHcs.
Qed.
Lemma recorded_sel_ext s1 s2 : forall os n blk, (forall c v, In (FAdd c v) os -> s1 c = s2 c) ->
  recorded n os blk s1 = recorded n os blk s2.
Proof.
  induction os as [|[|c v] os IH]; intros n blk H; cbn [recorded]; [reflexivity| |].
  - apply IH. intros c0 v0 I. apply (H c0 v0). right. exact I.
  - rewrite (H c v) by (left; reflexivity). f_equal.
    apply IH. intros c0 v0 I. apply (H c0 v0). right. exact I.
Qed.
Lemma recorded_blk_ext b1 b2 sel : forall os n,
  (forall k, (k < n + sweeps os)%nat \/ k = 0%nat -> b1 k = b2 k) ->
  recorded n os b1 sel = recorded n os b2 sel.
Proof.
  induction os as [|[|c v] os IH]; intros n H; cbn [recorded sweeps] in *; [reflexivity| |].
  - apply IH. intros k Hk. apply H. lia.
  - rewrite (H (n - 1)%nat) by lia. f_equal. apply IH. exact H.
Qed.

Section TextProof.
Variables (fmt fmt_sd : Qc -> string).
Variables (parse_int : string -> option Z) (parse parse_sq : string -> option Qc).
Hypothesis parse_fmt : forall x, parse (fmt x) = Some x.
Hypothesis parse_fmt_sd : forall x, 0 <= x -> parse_sq (fmt_sd x) = Some x.
Hypothesis parse_int_fmt : forall z, parse_int (fmt (qz z)) = Some z.
Hypothesis fmt_plain : forall x, has_char tab (fmt x) = false /\ has_char nl (fmt x) = false /\
  has_char "#" (fmt x) = false /\ fmt x <> EmptyString.
Hypothesis fmt_sd_plain : forall x, has_char tab (fmt_sd x) = false /\ has_char nl (fmt_sd x) = false.

Lemma has_char_join c d l : Ascii.eqb d c = false ->
  (forall x, In x l -> has_char c x = false) -> has_char c (join d l) = false.
Proof.
  intros E. induction l as [|x [|y l] IH]; intros H.
  - reflexivity.
  - cbn. apply H. left. reflexivity.
  - change (join d (x :: y :: l)) with (x ++ String d (join d (y :: l)))%string.
    rewrite has_char_app. rewrite H by (left; reflexivity). cbn [has_char orb].
    rewrite E. cbn [orb]. apply IH. intros z Hz. apply H. right. exact Hz.
Qed.
Lemma row_text_parts subs (b : fblock) c x : In x
  (let '(x, y, z) := c in let '(sx, sy, sz) := subs in
   let '(s0, s1, s2) := b c in
    [ fmt (qn x / qn sx); fmt (qn y / qn sy); fmt (qn z / qn sz);
      fmt (cpp_getSampleMean s0); fmt (cpp_getSampleMean s1); fmt (cpp_getSampleMean s2);
      fmt_sd (cpp_getSampleVariance s0); fmt_sd (cpp_getSampleVariance s1);
      fmt_sd (cpp_getSampleVariance s2);
      str_of_Z (Z.of_nat (getSampleSize s0)) ]) ->
  has_char tab x = false /\ has_char nl x = false.
Proof.
  destruct c as [[cx cy] cz], subs as [[sx sy] sz]. destruct (b _) as [[s0 s1] s2].
  intros H. cbn [In] in H.
  repeat (destruct H as [<-|H]; [first [apply fmt_sd_plain
    | split; apply fmt_plain | split; apply str_of_Z_no; reflexivity]|]).
  destruct H.
Qed.
Lemma row_text_no_nl subs b c : has_char nl (row_text fmt fmt_sd subs b c) = false.
Proof.
  pose proof (@row_text_parts subs b c) as P. unfold row_text.
  destruct c as [[cx cy] cz], subs as [[sx sy] sz]. destruct (b _) as [[s0 s1] s2].
  apply has_char_join; [reflexivity|]. intros x Hx. apply P, Hx.
Qed.
Lemma row_text_split subs b c : split tab (row_text fmt fmt_sd subs b c) =
  (let '(x, y, z) := c in let '(sx, sy, sz) := subs in
   let '(s0, s1, s2) := b c in
    [ fmt (qn x / qn sx); fmt (qn y / qn sy); fmt (qn z / qn sz);
      fmt (cpp_getSampleMean s0); fmt (cpp_getSampleMean s1); fmt (cpp_getSampleMean s2);
      fmt_sd (cpp_getSampleVariance s0); fmt_sd (cpp_getSampleVariance s1);
      fmt_sd (cpp_getSampleVariance s2);
      str_of_Z (Z.of_nat (getSampleSize s0)) ]).
Proof.
  pose proof (@row_text_parts subs b c) as P. unfold row_text.
  destruct c as [[cx cy] cz], subs as [[sx sy] sz]. destruct (b _) as [[s0 s1] s2].
  apply split_join; [discriminate|]. intros x Hx. apply P, Hx.
Qed.
Lemma split_lines (rs : list string) : (forall r, In r rs -> has_char nl r = false) ->
  split nl (sconcat (map (fun r => r ++ String nl EmptyString)%string rs)) = rs ++ [EmptyString].
Proof.
  induction rs as [|r rs IH]; intros H; [reflexivity|]. cbn [map sconcat].
  rewrite <- str_app_assoc. change ((String nl EmptyString ++ ?x)%string) with (String nl x).
  rewrite split_cons by (apply H; left; reflexivity).
  rewrite IH by (intros x Hx; apply H; right; exact Hx). reflexivity.
Qed.
Lemma file_lines s B : c_blocks s = [B] ->
  py_lines (file_text fmt fmt_sd s) =
  header :: map (row_text fmt fmt_sd (c_subs s) B) (cells (c_shape s)).
Proof.
  intros E. unfold file_text, blocks_in_order. rewrite E. cbn [rev app map sconcat].
  rewrite str_app_nil. unfold py_lines.
  rewrite split_cons by reflexivity.
  unfold block_text. rewrite <- map_map with (g := fun r => (r ++ String nl EmptyString)%string).
  rewrite split_lines.
  2:{ intros r Hr. apply in_map_iff in Hr. destruct Hr as (c & <- & _). apply row_text_no_nl. }
  set (rs := map _ (cells _)).
  change (header :: rs ++ [EmptyString]) with ((header :: rs) ++ [EmptyString]).
  rewrite last_last. apply removelast_last.
Qed.

Lemma parse_line_row subs b c : parse_line parse_int parse parse_sq (row_text fmt fmt_sd subs b c) =
  LRow (parse_row parse_int parse parse_sq (row_text fmt fmt_sd subs b c)).
Proof.
  unfold parse_line.
  assert (H : exists a r, row_text fmt fmt_sd subs b c = String a r /\ Ascii.eqb a "#" = false).
  { unfold row_text. destruct c as [[cx cy] cz], subs as [[sx sy] sz]. destruct (b _) as [[s0 s1] s2].
    pose proof (fmt_plain (qn cx / qn sx)) as (_ & _ & H & N).
    set (tl := [fmt (qn cy / qn sy); _; _; _; _; _; _; _; _]).
    destruct (fmt (qn cx / qn sx)) as [|a r]; [congruence|].
    cbn [has_char] in H. apply orb_false_iff in H. destruct H as [H _].
    exists a, (r ++ String tab (join tab tl))%string. split; [reflexivity|].
    exact H. }
  destruct H as (a & r & E & H). rewrite E, H. reflexivity.
Qed.

Lemma rep_cpp s l : rep s l ->
  cpp_getSampleMean s = match l with [] => 0 | a :: r => mean (a :: r) end /\
  cpp_getSampleVariance s = match l with [] => 0 | [_] => 0 | a :: b :: r => variance (a :: b :: r) end /\
  0 <= cpp_getSampleVariance s.
Proof.
  intros R. pose proof R as (Hn & HM & HS). unfold cpp_getSampleMean, cpp_getSampleVariance.
  rewrite Hn, HM, HS. destruct l as [|a [|b l]].
  - rewrite mean_nil. split; [reflexivity|]. cbn. split; [reflexivity|]. apply Qcle_refl.
  - split; [reflexivity|]. cbn. split; [reflexivity|]. apply Qcle_refl.
  - split; [reflexivity|]. set (n := length (a :: b :: l)).
    assert (L : Nat.ltb n 2 = false) by (apply Nat.ltb_ge; cbn; lia). rewrite L.
    split; [reflexivity|].
    apply Qc_div_nonneg; [apply devsq_nonneg|].
    replace (qn n - 1) with (qn (n - 1)); [apply qn_nonneg|].
    replace n with (S (n - 1)) at 2 by (cbn; lia). rewrite qn_S. ring.
Qed.

Definition row_at (B : fblock) (c : cell) : row :=
  let '(x, y, z) := c in let '(s0, s1, s2) := B c in
  mk_row (Z.of_nat x) (Z.of_nat y) (Z.of_nat z)
    (cpp_getSampleMean s0, cpp_getSampleMean s1, cpp_getSampleMean s2)
    (cpp_getSampleVariance s0, cpp_getSampleVariance s1, cpp_getSampleVariance s2)
    (getSampleSize s0).

Lemma parse_row_text (B : fblock) f c : rep_block B f ->
  parse_row parse_int parse parse_sq (row_text fmt fmt_sd (1, 1, 1)%nat B c) = Some (row_at B c).
Proof.
  intros R. unfold parse_row. rewrite row_text_split. pose proof (R c) as Rc. unfold row_at.
  destruct c as [[x y] z]. destruct (B _) as [[s0 s1] s2].
  destruct (rep_cpp (Rc 0%nat ltac:(lia))) as (_ & _ & V0).
  destruct (rep_cpp (Rc 1%nat ltac:(lia))) as (_ & _ & V1).
  destruct (rep_cpp (Rc 2%nat ltac:(lia))) as (_ & _ & V2). cbn [comp] in *.
  assert (Q : forall n, qn n / qn 1 = qz (Z.of_nat n))
    by (intros n; rewrite qn_1, <- qn_qz; field; discriminate).
  rewrite !Q, !parse_int_fmt. cbn [obind]. rewrite !parse_fmt. cbn [obind].
  rewrite !parse_fmt_sd by assumption. cbn [obind]. rewrite Z_of_str_of_Z. cbn [obind].
  destruct (Z.ltb_spec (Z.of_nat (getSampleSize s0)) 0); [lia|]. rewrite Nat2Z.id. reflexivity.
Qed.

Definition cell_of (r : row) : cell := (Z.to_nat (r_x r), Z.to_nat (r_y r), Z.to_nat (r_z r)).
Lemma cell_of_row_at B c : cell_of (row_at B c) = c.
Proof.
  destruct c as [[x y] z]. unfold row_at. destruct (B _) as [[s0 s1] s2]. unfold cell_of. cbn.
  rewrite !Nat2Z.id. reflexivity.
Qed.
Definition map3 (vs : list vec) : lists3 := (map (comp 0) vs, map (comp 1) vs, map (comp 2) vs).
Lemma comp_map3 i vs : (i < 3)%nat -> comp i (map3 vs) = map (comp i) vs.
Proof. intros H. destruct i as [|[|[|i]]]; try lia; reflexivity. Qed.

Lemma row_at_describes B f c : rep_block B f -> row_describes (row_at B c) (map3 (f c)).
Proof.
  intros R i Hi. pose proof (R c) as Rc. rewrite comp_map3 by exact Hi.
  unfold row_at. destruct c as [[x y] z]. destruct (B _) as [[s0 s1] s2]. cbn [r_n r_mean r_var].
  split.
  - destruct (Rc 0%nat ltac:(lia)) as (N & _). cbn [comp] in N. unfold getSampleSize. rewrite N, !map_length. reflexivity.
  - specialize (Rc i Hi). destruct (rep_cpp Rc) as (M & V & _).
    split; [rewrite <- M|rewrite <- V]; destruct i as [|[|[|i]]]; try lia; reflexivity.
Qed.

Lemma rows_of_file s B f cfg : c_blocks s = [B] -> c_subs s = (1, 1, 1)%nat -> rep_block B f ->
  let ls := parse_file parse_int parse parse_sq (file_text fmt fmt_sd s) in
  ls = LComment :: map (fun c => LRow (Some (row_at B c))) (cells (c_shape s)) /\
  rows_of (mk_rundir cfg (Some ls)) = map (row_at B) (cells (c_shape s)).
Proof.
  intros EB ES R ls.
  assert (E : ls = LComment :: map (fun c => LRow (Some (row_at B c))) (cells (c_shape s))).
  { unfold ls, parse_file. rewrite (file_lines _ EB), ES. cbn [map].
    f_equal. rewrite map_map. apply map_ext. intros c.
    rewrite parse_line_row, (parse_row_text c R). reflexivity. }
  split; [exact E|]. rewrite E. unfold rows_of. cbn [rd_file flat_map rows_of_line app].
  clear. induction (cells (c_shape s)) as [|c cs IH]; [reflexivity|]. cbn [map flat_map]. rewrite IH. reflexivity.
Qed.

Lemma single_block per os k : block_total per (sweeps os) = 1%nat ->
  (k < sweeps os)%nat \/ k = 0%nat -> in_block per 0 k = true.
Proof.
  intros H Hk. unfold in_block. unfold block_total in H. destruct (Nat.eqb_spec per 0) as [E|E]; [reflexivity|].
  apply Nat.eqb_eq. destruct Hk as [Hk| ->]; [|apply Nat.div_0_l, E].
  destruct (sweeps os) as [|n]; [discriminate|].
  assert (k / per <= n / per)%nat by (apply Nat.div_le_mono; lia). lia.
Qed.

Lemma flow_end_to_end box per s0 os s cfg shift :
  cfp_new box (1, 1, 1)%nat per = Ok s0 -> frun s0 os = Ok s ->
  block_total per (sweeps os) = 1%nat -> f_sub cfg = 1%nat ->
  exists p ret,
    fp_new (mk_rundir cfg (Some (parse_file parse_int parse parse_sq (file_text fmt fmt_sd s)))) = Ok p /\
    getFlowProfileAsFunctionOfY p shift = Ok ret /\
    let '(bx, by_, bz) := box in
    (0 < bx)%nat -> (0 < bz)%nat -> forall y, (y < by_)%nat ->
    exists t, dget qeqb ret (yCoord 1 shift (Z.of_nat y)) = Some t /\
    forall i, (i < 3)%nat ->
      answers (comp i t) (map (comp i) (recorded 0 os (fun _ => true) (fun c => Nat.eqb (snd (fst c)) y))).
Proof.
  intros E0 E HB HS.
  destruct (finv_run _ _ _ _ E0 E) as (I1 & I2 & I3 & I4 & I5 & I6). rewrite HB in I4.
  destruct (c_blocks s) as [|B [|B' Br]] eqn:EB; try discriminate.
  set (f := fun c => recorded 0 os (in_block per 0) (cell_eqb c)).
  assert (R : rep_block B f) by (apply I6; unfold blocks_in_order; rewrite EB; reflexivity).
  destruct (rows_of_file _ cfg EB I2 R) as (EL & ER).
  set (ls := parse_file parse_int parse parse_sq (file_text fmt fmt_sd s)) in *.
  set (d := mk_rundir cfg (Some ls)) in *.
  set (dat := fun r => map3 (f (cell_of r))).
  assert (DD : forall r, In r (rows_of d) -> row_describes r (dat r)).
  { intros r Hr. rewrite ER in Hr. apply in_map_iff in Hr. destruct Hr as (c & <- & _).
    unfold dat. rewrite cell_of_row_at. apply row_at_describes, R. }
  assert (NB : no_blank d).
  { intros ls' Hls. cbn in Hls. injection Hls as <-. rewrite EL. intros [X|X]; [discriminate|].
    apply in_map_iff in X. destruct X as (c & X & _). discriminate. }
  assert (FP : exists p, fp_new d = Ok p).
  { unfold fp_new, addRun. cbn [p_blocks p_config p_points rd_config rd_file d].
    replace (fconfig_eqb cfg cfg) with true
      by (unfold fconfig_eqb; rewrite !Nat.eqb_refl, qeqb_refl; reflexivity).
    cbn [negb].
    destruct (@read_lines_rel dat ls [] [] ltac:(constructor)) as (p' & Ep & _).
    - apply (NB ls eq_refl).
    - rewrite EL. intros [X|X]; [discriminate|]. apply in_map_iff in X. destruct X as (c & X & _). discriminate.
    - intros r Hr. apply DD. unfold rows_of. cbn [rd_file d]. apply in_flat_map.
      exists (LRow (Some r)). split; [exact Hr|left; reflexivity].
    - rewrite Ep. cbn [bind]. eexists. reflexivity. }
  destruct FP as (p & EP).
  destruct (@flow_pooled dat d [] p p shift EP eq_refl) as (ret & ERet & HR).
  { cbn. rewrite HS. discriminate. }
  { intros d' [<-|[]]. exact NB. }
  { cbn [flat_map]. rewrite app_nil_r. exact DD. }
  exists p, ret. split; [exact EP|]. split; [exact ERet|].
  destruct box as [[bx by_] bz]. intros Hx Hz y Hy.
  assert (SH : c_shape s = (bx, by_, bz)).
  { rewrite I1. unfold cfp_new in E0. cbn [Nat.eqb] in E0. injection E0 as <-. cbn [c_shape].
    rewrite !Nat.mul_1_r. reflexivity. }
  specialize (HR (Z.of_nat y)). cbn [rd_config d] in HR. rewrite HS in HR.
  cbn [flat_map] in HR. rewrite app_nil_r, ER in HR.
  destruct (dget qeqb ret (yCoord 1 shift (Z.of_nat y))) as [t|].
  - destruct HR as [_ HR]. exists t. split; [reflexivity|]. intros i Hi.
    eapply answers_perm; [|apply HR, Hi].
    unfold pooled. rewrite flat_map_concat_map, map_map, <- flat_map_concat_map.
    rewrite SH.
    set (cs := filter (fun c : cell => Nat.eqb (snd (fst c)) y) (cells (bx, by_, bz))).
    transitivity (flat_map (fun c => map (comp i) (f c)) cs).
    + unfold cs. clear -Hi. induction (cells (bx, by_, bz)) as [|c l IH]; [constructor|].
      cbn [flat_map filter].
      assert (SY : Z.eqb (r_y (row_at B c)) (Z.of_nat y) = Nat.eqb (snd (fst c)) y).
      { destruct c as [[x y'] z]. unfold row_at. destruct (B _) as [[s0 s1] s2]. cbn.
        destruct (Nat.eqb_spec y' y), (Z.eqb_spec (Z.of_nat y') (Z.of_nat y)); lia || reflexivity. }
      rewrite SY. destruct (Nat.eqb (snd (fst c)) y); [|exact IH].
      cbn [flat_map]. unfold dat at 1. rewrite cell_of_row_at, comp_map3 by exact Hi.
      apply Permutation_app_head. exact IH.
    + rewrite flat_map_concat_map, <- map_map, <- concat_map, <- flat_map_concat_map.
      apply Permutation_map. unfold f.
      etransitivity; [apply recorded_sum; apply NoDup_filter, cells_nodup|].
      rewrite (@recorded_blk_ext (in_block per 0) (fun _ => true)); [|intros k Hk; apply (@single_block per os k HB Hk)].
      erewrite recorded_sel_ext; [apply Permutation_refl|].
      intros c v Hc. cbv beta.
      assert (IS : in_shape (bx, by_, bz) c = true).
      { apply in_split in Hc. destruct Hc as (pre & post & ->).
        destruct (proj1 (@flow_record_ok _ _ _ _ (pre ++ FAdd c v :: post) E0) (ex_intro _ s E) pre c v post eq_refl) as [_ X].
        rewrite <- I1, SH in X. exact X. }
      destruct (Nat.eqb (snd (fst c)) y) eqn:Q.
      * apply existsb_exists. exists c. split; [|apply cell_eqb_refl]. apply filter_In. split; [apply in_cells, IS|exact Q].
      * destruct (existsb (fun c' => cell_eqb c' c) cs) eqn:X; [|reflexivity].
        apply existsb_exists in X. destruct X as (c' & Hc' & E'). apply cell_eqb_spec in E'. subst c'.
        apply filter_In in Hc'. destruct Hc' as [_ Q']. congruence.
  - exfalso. apply HR. exists (row_at B (0, y, 0)%nat). split.
    + apply in_map. apply in_cells. rewrite SH. unfold in_shape.
      rewrite !andb_true_iff, !Nat.ltb_lt. auto.
    + unfold row_at. destruct (B _) as [[a b] c]. reflexivity.
Qed.

(** With a subdivision along [y], the second coordinate is not an integer. *)
Hypothesis parse_int_frac : forall x, (forall z, x <> qz z) -> parse_int (fmt x) = None.

Lemma read_lines_bad ls : In (LRow None) ls -> (forall l, In l ls -> l <> LBlank) ->
  (forall r, In (LRow (Some r)) ls -> exists D, row_describes r D) -> 
  forall p g bl, prel p g -> read_lines ls p bl = Err ValueError.
Proof.
  induction ls as [|l ls IH]; intros I NB HD p g bl R; [destruct I|].
  destruct l as [| |[r|]].
  - cbn. destruct I as [I|I]; [discriminate|]. apply (IH I) with (g := g).
    + intros l Hl. apply NB. right. exact Hl.
    + intros r Hr. apply HD. right. exact Hr.
    + exact R.
  - exfalso. apply (NB LBlank); [left|]; reflexivity.
  - destruct I as [I|I]; [discriminate|]. cbn [read_lines].
    destruct (HD r (or_introl eq_refl)) as (D & HDr).
    destruct (add_rel R HDr) as (p' & E & R'). rewrite E. cbn [bind].
    apply (IH I) with (g := gadd g (r_x r) (r_y r) (r_z r) D).
    + intros l Hl. apply NB. right. exact Hl.
    + intros r' Hr. apply HD. right. exact Hr.
    + exact R'.
  - reflexivity.
Qed.

Lemma parse_row_some subs (B : fblock) f c r : rep_block B f ->
  parse_row parse_int parse parse_sq (row_text fmt fmt_sd subs B c) = Some r ->
  exists D, row_describes r D.
Proof.
  intros R. unfold parse_row. rewrite row_text_split. intros E. exists (map3 (f c)).
  pose proof (row_at_describes c R) as RD. pose proof (R c) as Rc. unfold row_at in RD.
  destruct c as [[x y] z]. destruct (B _) as [[s0 s1] s2]. destruct subs as [[sx sy] sz].
  destruct (rep_cpp (Rc 0%nat ltac:(lia))) as (_ & _ & V0).
  destruct (rep_cpp (Rc 1%nat ltac:(lia))) as (_ & _ & V1).
  destruct (rep_cpp (Rc 2%nat ltac:(lia))) as (_ & _ & V2). cbn [comp] in V0, V1, V2.
  destruct (parse_int (fmt (qn x / qn sx))) as [a|]; [|discriminate].
  destruct (parse_int (fmt (qn y / qn sy))) as [b|]; [|discriminate].
  destruct (parse_int (fmt (qn z / qn sz))) as [d|]; [|discriminate].
  cbn [obind] in E. rewrite !parse_fmt in E. cbn [obind] in E.
  rewrite !parse_fmt_sd in E by assumption. cbn [obind] in E. rewrite Z_of_str_of_Z in E. cbn [obind] in E.
  destruct (Z.ltb_spec (Z.of_nat (getSampleSize s0)) 0); [lia|]. rewrite Nat2Z.id in E.
  injection E as <-. exact RD.
Qed.

Lemma subdivided_unreadable box subs per s0 os s cfg : cfp_new box subs per = Ok s0 ->
  frun s0 os = Ok s -> block_total per (sweeps os) = 1%nat ->
  (let '(bx, by_, bz) := box in 0 < bx /\ 0 < by_ /\ 0 < bz)%nat ->
  (let '(_, sy, _) := subs in 1 < sy)%nat ->
  fp_new (mk_rundir cfg (Some (parse_file parse_int parse parse_sq (file_text fmt fmt_sd s)))) = Err ValueError.
Proof.
  intros E0 E HB HX HS.
  destruct (finv_run _ _ _ _ E0 E) as (I1 & I2 & I3 & I4 & I5 & I6). rewrite HB in I4.
  destruct (c_blocks s) as [|B [|B' Br]] eqn:EB; try discriminate.
  set (f := fun c => recorded 0 os (in_block per 0) (cell_eqb c)).
  assert (R : rep_block B f) by (apply I6; unfold blocks_in_order; rewrite EB; reflexivity).
  unfold fp_new, addRun. cbn [p_blocks p_config p_points rd_config rd_file].
  replace (fconfig_eqb cfg cfg) with true
      by (unfold fconfig_eqb; rewrite !Nat.eqb_refl, qeqb_refl; reflexivity).
  cbn [negb].
  assert (LS : parse_file parse_int parse parse_sq (file_text fmt fmt_sd s) =
    LComment :: map (fun c => LRow (parse_row parse_int parse parse_sq (row_text fmt fmt_sd subs B c))) (cells (c_shape s))).
  { unfold parse_file. rewrite (file_lines _ EB), I2. cbn [map].
    f_equal. rewrite map_map. apply map_ext. intros c. apply parse_line_row. }
  rewrite LS. rewrite read_lines_bad with (g := []); [reflexivity| | | |constructor].
  - right. apply in_map_iff. exists (0, 1, 0)%nat. split.
    + f_equal. unfold parse_row. rewrite row_text_split. destruct subs as [[sx sy] sz].
      destruct (B _) as [[a b] c].
      assert (N : parse_int (fmt (qn 1 / qn sy)) = None).
      { apply parse_int_frac. intros k K.
        assert (P : 1 = qz k * qn sy).
        { rewrite <- K, qn_1. field. apply qn_neq0. lia. }
        rewrite qn_qz, <- qz_mul in P. change 1 with (qz 1) in P. apply qz_inj in P. 
        assert (2 <= Z.of_nat sy)%Z by lia. destruct (Z.le_gt_cases k 0); nia. }
      rewrite N. destruct (parse_int (fmt (qn 0 / qn sx))); reflexivity.
    + apply in_cells. rewrite I1. unfold cfp_new in E0.
      destruct box as [[bx by_] bz], subs as [[sx sy] sz].
      destruct (Nat.eqb_spec sx 0), (Nat.eqb_spec sy 0), (Nat.eqb_spec sz 0); try discriminate.
      injection E0 as <-. cbn [c_shape]. unfold in_shape. rewrite !andb_true_iff, !Nat.ltb_lt.
      destruct HX as (X1 & X2 & X3). repeat split; nia.
  - intros l [<-|Hl]; [discriminate|]. apply in_map_iff in Hl. destruct Hl as (c & <- & _). discriminate.
  - intros r [Hr|Hr]; [discriminate|]. apply in_map_iff in Hr. destruct Hr as (c & Hr & _).
    injection Hr as Hr. apply (parse_row_some subs c R Hr).
Qed.
End TextProof.

(** A file with several blocks. *)
Lemma read_lines_blocks ls : forall p bl p' bl', In LBlank ls \/ bl <> [] ->
  read_lines ls p bl = Ok (p', bl') -> bl' <> [].
Proof.
  induction ls as [|l ls IH]; intros p bl p' bl' H E; cbn in E.
  - injection E as <- <-. destruct H as [[]|H]. exact H.
  - destruct l as [| |[r|]].
    + apply (IH p bl p' bl'); [|exact E]. destruct H as [[H|H]|H]; [discriminate|auto|auto].
    + apply (IH [] (bl ++ [p]) p' bl'); [|exact E]. right. destruct bl; discriminate.
    + destruct (addSampleToPoint p r) as [p1|]; [|discriminate]. cbn [bind] in E.
      apply (IH p1 bl p' bl'); [|exact E]. destruct H as [[H|H]|H]; [discriminate|auto|auto].
    + discriminate.
Qed.
Lemma blocks_hide_profile s d s' shift : addRun s d = Ok s' ->
  (exists ls, rd_file d = Some ls /\ In LBlank ls) ->
  getFlowProfileAsFunctionOfY s' shift = Ok [] /\ getGlobalFlowStatistics s' = Ok otfs3_new /\
  forall d', addRun s' d' = Err PyException.
Proof.
  unfold addRun. intros E (ls & EF & HB). rewrite EF in E.
  destruct (p_blocks s); [|discriminate].
  destruct (negb (fconfig_eqb (p_config s) (rd_config d))); [discriminate|].
  destruct (read_lines ls (p_points s) []) as [[p bl]|] eqn:ER; [|discriminate]. cbn [bind] in E.
  assert (NE : bl <> []) by (eapply read_lines_blocks; [left; exact HB|exact ER]).
  destruct bl as [|b bl]; [congruence|]. injection E as <-. cbn. auto.
Qed.
