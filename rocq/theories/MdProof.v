(** Proofs about the streaming of molecules. *)
From Coq Require Import List ZArith Bool Reals Lra Lia Permutation FunctionalExtensionality.
From Verif Require Import PyBase VecBase VecModel VecSpec PartSpec PartProof CuModel CuProof PotModel PotSpec PotProof MdModel MdSpec.
Import ListNotations.
Open Scope R_scope.

Lemma fluid_ext f g : (forall i, pos f i = pos g i) -> (forall i, vel f i = vel g i) -> f = g.
Proof.
  destruct f as [r v], g as [r' v']. cbn. intros H H0.
  rewrite (functional_extensionality r r' H), (functional_extensionality v v' H0). reflexivity.
Qed.
Lemma assign_eq a i v j : assign a i v j = if Z.eqb j i then v else a j.
Proof. reflexivity. Qed.
Lemma repeated_ext {A} n (f g : A -> result A) : (forall a, f a = g a) -> forall a, repeated n f a = repeated n g a.
Proof. intros H. induction n; intros a; cbn; [reflexivity|]. rewrite H. destruct (g a); cbn; auto. Qed.
Lemma repeated_snoc {A} (f : A -> result A) : forall n a, repeated (S n) f a = (do b <- repeated n f a; f b).
Proof.
  induction n; intros a.
  - cbn. destruct (f a); reflexivity.
  - change (repeated (S (S n)) f a) with (do b <- f a; repeated (S n) f b).
    change (repeated (S n) f a) with (do b <- f a; repeated n f b). destruct (f a) as [b|e]; cbn [bind]; [apply IHn|reflexivity].
Qed.

(** * Velocity Verlet in general *)
Definition moved (mem : Z -> bool) (A : vecs -> Z -> vec) (dt : R) (f : fluid) : vecs :=
  fun i => if mem i then vverlet1 (pos f i) (vel f i) (A (pos f) i) dt else pos f i.
Definition gstep (mem : Z -> bool) (A : vecs -> Z -> vec) (ok : vecs -> bool) (dt : R) (f : fluid) : result fluid :=
  if ok (pos f) then
    let r := moved mem A dt f in
    if ok r then Ok (Fluid r (fun i => if mem i then vverlet2 (vel f i) (A (pos f) i) (A r i) dt else vel f i))
    else Err AssertionError
  else Err AssertionError.
Lemma reversed_twice f : reversed (reversed f) = f.
Proof. apply fluid_ext; intros i; cbn; [reflexivity|]. destruct (vel f i). unfold times3. cbn. f_equal; ring. Qed.
Lemma moved_back mem A dt f r : r = moved mem A dt f ->
  moved mem A dt (reversed (Fluid r (fun i => if mem i then vverlet2 (vel f i) (A (pos f) i) (A r i) dt else vel f i))) = pos f.
Proof.
  intros ->. apply functional_extensionality. intros i. unfold moved at 1. cbn [pos vel reversed].
  destruct (mem i) eqn:E.
  - unfold moved at 1. rewrite E.
    set (A' := A (moved mem A dt f) i). set (A0 := A (pos f) i).
    destruct (pos f i), (vel f i). unfold vverlet1, vverlet2, verlet1, verlet2, times3. cbn. f_equal; field.
  - unfold moved. rewrite E. reflexivity.
Qed.
Lemma gstep_reverse mem A ok dt f f' : gstep mem A ok dt f = Ok f' -> gstep mem A ok dt (reversed f') = Ok (reversed f).
Proof.
  unfold gstep at 1. destruct (ok (pos f)) eqn:E; [|discriminate].
  destruct (ok (moved mem A dt f)) eqn:E'; [|discriminate]. intros [= <-].
  unfold gstep. rewrite (moved_back mem A dt f _ eq_refl). cbn [pos reversed]. rewrite E', E. f_equal.
  apply fluid_ext; intros i; cbn [pos vel reversed]; [reflexivity|].
  destruct (mem i); [|reflexivity].
  set (A' := A (moved mem A dt f) i). set (A0 := A (pos f) i).
  destruct (vel f i). unfold vverlet2, verlet2, times3. cbn. f_equal; field.
Qed.
Lemma repeated_reverse (g : fluid -> result fluid) : (forall f f', g f = Ok f' -> g (reversed f') = Ok (reversed f)) ->
  forall n f f', repeated n g f = Ok f' -> repeated n g (reversed f') = Ok (reversed f).
Proof.
  intros H. induction n; intros f f' E.
  - cbn in *. injection E as <-. reflexivity.
  - cbn [repeated] in E. destruct (g f) as [f1|e] eqn:E1; [|discriminate]. cbn [bind] in E.
    rewrite repeated_snoc. rewrite (IHn _ _ E). cbn [bind]. apply H, E1.
Qed.
Lemma vsum_app l l' : vsum (l ++ l') = plus3 (vsum l) (vsum l').
Proof.
  induction l as [|a l IH]; cbn.
  - destruct (vsum l'). unfold plus3, zero3. cbn. f_equal; ring.
  - rewrite IH. unfold plus3. cbn. f_equal; ring.
Qed.
Lemma vsum_plus {A} (f g : A -> vec) l : vsum (map (fun i => plus3 (f i) (g i)) l) = plus3 (vsum (map f l)) (vsum (map g l)).
Proof.
  induction l as [|a l IH]; cbn; [unfold plus3, zero3; cbn; f_equal; ring|].
  rewrite IH. unfold plus3. cbn. f_equal; ring.
Qed.
Lemma vsum_times {A} (f : A -> vec) k l : vsum (map (fun i => times3 k (f i)) l) = times3 k (vsum (map f l)).
Proof.
  induction l as [|a l IH]; cbn; [unfold times3, zero3; cbn; f_equal; ring|].
  rewrite IH. unfold times3, plus3. cbn. f_equal; ring.
Qed.
Lemma verlet1_vec r v a dt : vverlet1 r v a dt = plus3 (plus3 r (times3 dt v)) (times3 (1 / 2 * dt * dt) a).
Proof. unfold vverlet1, verlet1, plus3, times3. cbn. f_equal; ring. Qed.
Lemma verlet2_vec v a b dt : vverlet2 v a b dt = plus3 v (times3 (1 / 2 * dt) (plus3 a b)).
Proof. unfold vverlet2, verlet2, plus3, times3. cbn. f_equal; ring. Qed.
Section Momentum.
Variables (mem : Z -> bool) (A : vecs -> Z -> vec) (ok : vecs -> bool) (dt : R) (l : list Z).
Hypothesis Hmem : forall i, In i l -> mem i = true.
Hypothesis HA : forall r, vsum (map (A r) l) = zero3.
Lemma gstep_totals f f' : gstep mem A ok dt f = Ok f' ->
  total (vel f') l = total (vel f) l /\ total (pos f') l = plus3 (total (pos f) l) (times3 dt (total (vel f) l)).
Proof.
  unfold gstep. destruct (ok (pos f)); [|discriminate]. destruct (ok _); [|discriminate]. intros [= <-].
  unfold total. cbn [pos vel]. split.
  - rewrite (map_ext_in _ (fun i => plus3 (vel f i) (times3 (1 / 2 * dt) (plus3 (A (pos f) i) (A (moved mem A dt f) i)))))
      by (intros i Hi; rewrite (Hmem i Hi); apply verlet2_vec).
    rewrite vsum_plus, vsum_times, vsum_plus, !HA. destruct (vsum (map (vel f) l)). unfold plus3, times3, zero3. cbn. f_equal; ring.
  - rewrite (map_ext_in _ (fun i => plus3 (plus3 (pos f i) (times3 dt (vel f i))) (times3 (1 / 2 * dt * dt) (A (pos f) i))))
      by (intros i Hi; unfold moved; rewrite (Hmem i Hi); apply verlet1_vec).
    rewrite vsum_plus, vsum_plus, !vsum_times, HA. unfold plus3, times3, zero3. cbn. f_equal; ring.
Qed.
Lemma repeated_totals n : forall f f', repeated n (gstep mem A ok dt) f = Ok f' ->
  total (vel f') l = total (vel f) l /\ total (pos f') l = plus3 (total (pos f) l) (times3 (INR n * dt) (total (vel f) l)).
Proof.
  induction n; intros f f' E.
  - cbn in E. injection E as <-. split; [reflexivity|]. destruct (total (pos f) l). unfold plus3, times3. cbn. f_equal; ring.
  - cbn [repeated] in E. destruct (gstep mem A ok dt f) as [f1|e] eqn:E1; [|discriminate]. cbn [bind] in E.
    destruct (IHn _ _ E) as [H H0]. destruct (gstep_totals _ _ E1) as [H1 H2].
    rewrite H, H0, H1, H2. split; [reflexivity|]. rewrite S_INR. unfold plus3, times3. cbn. f_equal; ring.
Qed.
End Momentum.

(** Steps that only concern some of the particles. *)
Definition agree (mem : Z -> bool) (f g : fluid) := forall i, mem i = true -> pos f i = pos g i /\ vel f i = vel g i.
Section Local.
Variables (mem : Z -> bool) (A : vecs -> Z -> vec) (ok : vecs -> bool) (dt : R).
Hypothesis HA : forall r r', (forall i, mem i = true -> r i = r' i) -> forall i, mem i = true -> A r i = A r' i.
Hypothesis Hok : forall r r', (forall i, mem i = true -> r i = r' i) -> ok r = ok r'.
Lemma gstep_local f g f' : agree mem f g -> gstep mem A ok dt f = Ok f' -> exists g', gstep mem A ok dt g = Ok g' /\ agree mem f' g'.
Proof.
  intros H. assert (Hr : forall i, mem i = true -> pos f i = pos g i) by (intros i Hi; apply (H i Hi)).
  assert (Hm : forall i, mem i = true -> moved mem A dt f i = moved mem A dt g i).
  { intros i Hi. unfold moved. rewrite Hi. destruct (H i Hi) as [-> ->]. rewrite (HA _ _ Hr i Hi). reflexivity. }
  unfold gstep. rewrite (Hok _ _ Hr), (Hok _ _ Hm).
  destruct (ok (pos g)); [|discriminate]. destruct (ok (moved mem A dt g)); [|discriminate]. intros [= <-].
  eexists. split; [reflexivity|]. intros i Hi. cbn [pos vel]. rewrite Hi. split; [apply Hm, Hi|].
  destruct (H i Hi) as [_ ->]. rewrite (HA _ _ Hr i Hi), (HA _ _ Hm i Hi). reflexivity.
Qed.
Lemma gstep_outside f f' i : mem i = false -> gstep mem A ok dt f = Ok f' -> pos f' i = pos f i /\ vel f' i = vel f i.
Proof.
  intros Hi. unfold gstep. destruct (ok (pos f)); [|discriminate]. destruct (ok _); [|discriminate]. intros [= <-].
  cbn [pos vel]. unfold moved. rewrite Hi. auto.
Qed.
Lemma repeated_local n : forall f g f', agree mem f g -> repeated n (gstep mem A ok dt) f = Ok f' ->
  exists g', repeated n (gstep mem A ok dt) g = Ok g' /\ agree mem f' g'.
Proof.
  induction n; intros f g f' H E.
  - cbn in *. injection E as <-. eauto.
  - cbn [repeated] in *. destruct (gstep mem A ok dt f) as [f1|e] eqn:E1; [|discriminate]. cbn [bind] in E.
    destruct (gstep_local _ _ _ H E1) as (g1 & -> & H1). cbn [bind]. eauto.
Qed.
Lemma repeated_outside n : forall f f' i, mem i = false -> repeated n (gstep mem A ok dt) f = Ok f' -> pos f' i = pos f i /\ vel f' i = vel f i.
Proof.
  induction n; intros f f' i Hi E.
  - cbn in *. injection E as <-. auto.
  - cbn [repeated] in *. destruct (gstep mem A ok dt f) as [f1|e] eqn:E1; [|discriminate]. cbn [bind] in E.
    destruct (IHn _ _ _ Hi E) as [-> ->]. eapply gstep_outside; eassumption.
Qed.
End Local.

(** * The molecules *)
Definition mem (k : kind) (u i : Z) : bool :=
  (Z.leb (molecule_size k * u) i && Z.ltb i (molecule_size k * u + molecule_size k))%Z.
Definition acc (k : kind) (u : Z) (r : vecs) (i : Z) : vec :=
  let id := (molecule_size k * u)%Z in
  match k with
  | Simple => zero3
  | Dumbbells k =>
    let a := vscale k (vsub (r (id + 1)%Z) (r id)) in if Z.eqb i id then a else vneg a
  | Trimers k_1 k_2 =>
    let R_1 := vsub (r (id + 1)%Z) (r id) in
    let R_2 := vsub (r (id + 2)%Z) (r (id + 1)%Z) in
    if Z.eqb i id then vscale k_1 R_1
    else if Z.eqb i (id + 1) then vadd (vscale (- k_1) R_1) (vscale k_2 R_2)
    else vscale (- k_2) R_2
  | Rods l k =>
    let R_ := vsub (r (id + 1)%Z) (r id) in
    let a := vscale (k * (1 - l / vmag R_)) R_ in if Z.eqb i id then a else vneg a
  | Chains n k => chain_acceleration r id i (id + n - 1)%Z k
  end.
Definition intact (k : kind) (u : Z) (r : vecs) : bool :=
  match k with
  | Rods _ _ => if Req_EM_T (vmag (vsub (r (2 * u + 1)%Z) (r (2 * u)%Z))) 0 then false else true
  | _ => true
  end.
Definition steps_of (k : kind) (n : nat) : nat := match k with Simple => 1 | _ => n end.
Definition molecule_streams (k : kind) (dt : R) (n : nat) (u : Z) (f : fluid) : result fluid :=
  repeated (steps_of k n) (gstep (mem k u) (acc k u) (intact k u) dt) f.

Lemma mem_iff k u i : mem k u i = true <-> (molecule_size k * u <= i < molecule_size k * u + molecule_size k)%Z.
Proof. unfold mem. rewrite andb_true_iff, Z.leb_le, Z.ltb_lt. lia. Qed.
Lemma mem_members k u i : In i (members (molecule_size k) u) <-> mem k u i = true.
Proof.
  unfold members. rewrite mem_iff, in_map_iff. split.
  - intros (o & <- & H). rewrite In_zrange in H. lia.
  - intros H. exists (i - molecule_size k * u)%Z. rewrite In_zrange. lia.
Qed.
Ltac zcases := repeat match goal with
  | |- context [Z.eqb ?a ?b] => destruct (Z.eqb_spec a b); try lia
  | |- context [Z.leb ?a ?b] => destruct (Z.leb_spec a b); try lia
  | |- context [Z.ltb ?a ?b] => destruct (Z.ltb_spec a b); try lia
  end.
Lemma dumbbell_gstep k dt u f : Ok (dumbbell_step (2 * u) k dt f) = gstep (mem (Dumbbells k) u) (acc (Dumbbells k) u) (intact (Dumbbells k) u) dt f.
Proof.
  destruct f as [r v]. unfold gstep. cbn [intact pos]. f_equal. unfold dumbbell_step.
  assert (P : forall i, moved (mem (Dumbbells k) u) (acc (Dumbbells k) u) dt (Fluid r v) i =
    assign (assign r (2 * u) (vverlet1 (r (2 * u)%Z) (v (2 * u)%Z) (vscale k (vsub (r (2 * u + 1)%Z) (r (2 * u)%Z))) dt)) (2 * u + 1)
      (vverlet1 (assign r (2 * u) (vverlet1 (r (2 * u)%Z) (v (2 * u)%Z) (vscale k (vsub (r (2 * u + 1)%Z) (r (2 * u)%Z))) dt) (2 * u + 1)%Z) (v (2 * u + 1)%Z)
        (vneg (vscale k (vsub (r (2 * u + 1)%Z) (r (2 * u)%Z)))) dt) i).
  { intros i. unfold moved, mem, acc, assign. cbn [molecule_size pos vel]. zcases; subst; cbn [andb]; try reflexivity; try lia. }
  rewrite (functional_extensionality _ _ P). clear P.
  apply fluid_ext; intros i; cbn [pos vel]; [reflexivity|].
  unfold mem, acc. cbn [molecule_size]. rewrite !assign_eq. zcases; subst; cbn [andb]; try reflexivity; try lia.
Qed.
Lemma trimer_gstep k1 k2 dt u f : Ok (trimer_step (3 * u) k1 k2 dt f) =
  gstep (mem (Trimers k1 k2) u) (acc (Trimers k1 k2) u) (intact (Trimers k1 k2) u) dt f.
Proof.
  destruct f as [r v]. unfold gstep. cbn [intact pos]. f_equal. unfold trimer_step.
  cbv zeta.
  match goal with |- Fluid ?p _ = _ => set (r' := p) end.
  assert (P : moved (mem (Trimers k1 k2) u) (acc (Trimers k1 k2) u) dt (Fluid r v) = r').
  { apply functional_extensionality. intros i. unfold r', moved, mem, acc. cbn [molecule_size pos vel]. rewrite !assign_eq.
    zcases; subst; cbn [andb]; try reflexivity; try lia. }
  rewrite P. clear P. clearbody r'.
  apply fluid_ext; intros i; cbn [pos vel]; [reflexivity|].
  unfold mem, acc. cbn [molecule_size]. rewrite !assign_eq. zcases; subst; cbn [andb]; try reflexivity; try lia.
Qed.
Lemma rod_gstep l k dt u f : rod_step (2 * u) l k dt f =
  gstep (mem (Rods l k) u) (acc (Rods l k) u) (intact (Rods l k) u) dt f.
Proof.
  destruct f as [r v]. unfold gstep. cbn [pos]. unfold rod_step. cbv zeta.
  unfold intact at 1. destruct (Req_EM_T (vmag (vsub (r (2 * u + 1)%Z) (r (2 * u)%Z))) 0) as [E|E]; [reflexivity|].
  match goal with |- (if _ then _ else Ok (Fluid ?p _)) = _ => set (r' := p) end.
  assert (P : moved (mem (Rods l k) u) (acc (Rods l k) u) dt (Fluid r v) = r').
  { apply functional_extensionality. intros i. unfold r', moved, mem, acc. cbn [molecule_size pos vel]. rewrite !assign_eq.
    zcases; subst; cbn [andb]; try reflexivity; try lia. }
  rewrite P. clear P. clearbody r'.
  unfold intact. destruct (Req_EM_T _ 0) as [E'|E']; [reflexivity|]. f_equal.
  apply fluid_ext; intros i; cbn [pos vel]; [reflexivity|].
  unfold mem, acc. cbn [molecule_size]. rewrite !assign_eq. zcases; subst; cbn [andb]; try reflexivity; try lia.
Qed.
Lemma loop_assign (g : Z -> vec -> vec) id n a : forall i, loop (fun o a => assign a (id + o) (g (id + o)%Z (a (id + o)%Z))) n a i =
  if (Z.leb id i && Z.ltb i (id + n))%bool then g i (a i) else a i.
Proof.
  unfold loop. revert n. apply (zrange_ind (fun n => forall i, fold_left _ (zrange n) a i = _)).
  - intros n Hn i. rewrite zrange_nil by assumption. cbn [fold_left]. zcases; reflexivity.
  - intros n Hn IH i. rewrite zrange_succ by assumption. rewrite fold_left_app. cbn [fold_left]. rewrite assign_eq, !IH.
    zcases; subst; cbn [andb]; try reflexivity; lia.
Qed.
Lemma chain_gstep n k dt u f b : exists b', Ok (fst (chain_step (n * u) n k dt (f, b))) =
  gstep (mem (Chains n k) u) (acc (Chains n k) u) (intact (Chains n k) u) dt f /\ snd (chain_step (n * u) n k dt (f, b)) = b'.
Proof.
  eexists. split; [|reflexivity].
  destruct f as [r v]. unfold gstep. cbn [intact pos]. f_equal. unfold chain_step. cbn [fst].
  set (b1 := loop _ n b).
  assert (B : forall i, mem (Chains n k) u i = true -> b1 i = acc (Chains n k) u r i).
  { intros i Hi. unfold b1. cbv zeta.
    rewrite (loop_assign (fun i _ => chain_acceleration r (n * u) i (n * u + n - 1) k) (n * u) n b i).
    unfold mem in Hi. cbn [molecule_size] in Hi. rewrite Hi. reflexivity. }
  clearbody b1.
  match goal with |- context [Fluid ?p _] => set (r' := p) end.
  assert (P : moved (mem (Chains n k) u) (acc (Chains n k) u) dt (Fluid r v) = r').
  { apply functional_extensionality. intros i. unfold r', moved. cbn [pos vel].
    rewrite (loop_assign (fun i a => vverlet1 a (v i) (b1 i) dt) (n * u) n r i).
    destruct (mem (Chains n k) u i) eqn:E; pose proof E as E'; unfold mem in E'; cbn [molecule_size] in E'; rewrite E'; [|reflexivity].
    rewrite (B i E). reflexivity. }
  rewrite P. clear P. clearbody r'.
  apply fluid_ext; intros i; cbn [pos vel]; [reflexivity|].
  rewrite (loop_assign (fun i a => vverlet2 a (b1 i) (chain_acceleration r' (n * u) i (n * u + n - 1) k) dt) (n * u) n v i).
  destruct (mem (Chains n k) u i) eqn:E; pose proof E as E'; unfold mem in E'; cbn [molecule_size] in E'; rewrite E'; [|reflexivity].
  rewrite (B i E). reflexivity.
Qed.
Lemma simple_gstep dt u f : Ok (Fluid (assign (pos f) u (vadd (pos f u) (vscale dt (vel f u)))) (vel f)) =
  gstep (mem Simple u) (acc Simple u) (intact Simple u) dt f.
Proof.
  unfold gstep. cbn [intact]. f_equal. apply fluid_ext; intros i; cbn [pos vel].
  - unfold moved, mem, acc. cbn [molecule_size]. rewrite assign_eq. zcases; subst; cbn [andb]; try lia; try reflexivity.
    unfold vverlet1, verlet1, vadd, vscale, zero3. cbn. f_equal; ring.
  - destruct (mem Simple u i); [|reflexivity]. cbn [acc]. unfold vverlet2, verlet2, zero3. destruct (vel f i). cbn. f_equal; ring.
Qed.
Lemma chain_repeated n k dt u m : forall f b,
  (forall f', repeated m (gstep (mem (Chains n k) u) (acc (Chains n k) u) (intact (Chains n k) u) dt) f = Ok f' ->
   exists b', repeated m (fun fb => Ok (chain_step (n * u) n k dt fb)) (f, b) = Ok (f', b')) /\
  (forall f' b', repeated m (fun fb => Ok (chain_step (n * u) n k dt fb)) (f, b) = Ok (f', b') ->
   repeated m (gstep (mem (Chains n k) u) (acc (Chains n k) u) (intact (Chains n k) u) dt) f = Ok f').
Proof.
  induction m; intros f b.
  - cbn. split; [intros f' [= <-]; eauto|intros f' b' [= <- <-]; reflexivity].
  - cbn [repeated]. destruct (chain_gstep n k dt u f b) as (b1 & E & E1). rewrite <- E. cbn [bind].
    destruct (chain_step (n * u) n k dt (f, b)) as [f1 b2]. cbn [fst]. apply IHm.
Qed.
(** A thread is responsible for one molecule. *)
Lemma thread_is k count dt n u f b m : (0 < molecule_size k)%Z -> count = (molecule_size k * m)%Z -> (0 <= u < m)%Z ->
  (forall f', molecule_streams k dt n u f = Ok f' -> exists b', thread_streams k count dt n u (f, b) = Ok (f', b')) /\
  (forall f' b', thread_streams k count dt n u (f, b) = Ok (f', b') -> molecule_streams k dt n u f = Ok f').
Proof.
  intros Hs -> Hu. unfold molecule_streams, thread_streams.
  destruct k; cbn [molecule_size steps_of] in *.
  - destruct (Z.leb_spec (1 * m) u) as [H|H]; [lia|]. cbn [repeated]. rewrite <- simple_gstep. cbn [bind].
    split; [intros f' [= <-]; eauto|intros f' b' [= <- <-]; reflexivity].
  - destruct (Z.leb_spec (2 * m) (2 * u)) as [H|H]; [lia|].
    rewrite (repeated_ext n _ _ (dumbbell_gstep reducedSpringConstant dt u)).
    destruct (repeated n _ f); cbn [bind]; split; intros; try discriminate; [|congruence].
    exists b. congruence.
  - destruct (Z.leb_spec (3 * m) (3 * u + 2)) as [H|H]; [lia|].
    rewrite (repeated_ext n _ _ (trimer_gstep reducedSpringConstant1 reducedSpringConstant2 dt u)).
    destruct (repeated n _ f); cbn [bind]; split; intros; try discriminate; [|congruence].
    exists b. congruence.
  - destruct (Z.leb_spec (2 * m) (2 * u)) as [H|H]; [lia|].
    rewrite (repeated_ext n _ _ (rod_gstep meanBondLength reducedSpringConstant dt u)).
    destruct (repeated n _ f); cbn [bind]; split; intros; try discriminate; [|congruence].
    exists b. congruence.
  - destruct (Z.leb_spec (particlesPerChain * m) (particlesPerChain * u)) as [H|H]; [nia|]. apply chain_repeated.
Qed.

Lemma acc_local k u : (0 < molecule_size k)%Z -> forall r r', (forall i, mem k u i = true -> r i = r' i) ->
  forall i, mem k u i = true -> acc k u r i = acc k u r' i.
Proof.
  intros Hs r r' H i Hi. rewrite mem_iff in Hi.
  assert (H' : forall i, (molecule_size k * u <= i < molecule_size k * u + molecule_size k)%Z -> r i = r' i) by (intros j Hj; apply H, mem_iff, Hj).
  unfold acc. destruct k; cbn [molecule_size] in *.
  - reflexivity.
  - rewrite !H' by lia. reflexivity.
  - rewrite !H' by lia. reflexivity.
  - rewrite !H' by lia. reflexivity.
  - unfold chain_acceleration. rewrite (H' i) by lia.
    destruct (Z.eqb_spec i (particlesPerChain * u)); destruct (Z.eqb_spec i (particlesPerChain * u + particlesPerChain - 1));
      rewrite ?(H' (i - 1)%Z) by lia; rewrite ?(H' (i + 1)%Z) by lia; reflexivity.
Qed.
Lemma intact_local k u : forall r r', (forall i, mem k u i = true -> r i = r' i) -> intact k u r = intact k u r'.
Proof.
  intros r r' H. unfold intact. destruct k; try reflexivity.
  rewrite !H; [reflexivity| |]; apply mem_iff; cbn [molecule_size]; lia.
Qed.
Lemma chain_partial r k id last n : (0 <= n)%Z -> (id + n <= last)%Z ->
  vsum (map (fun o => chain_acceleration r id (id + o)%Z last k) (zrange (n + 1))) =
  if Z.eqb (id + n) last then zero3 else times3 k (minus3 (r (id + n + 1)%Z) (r (id + n)%Z)).
Proof.
  revert n. match goal with |- forall n, @?P n => apply (zrange_ind P) end; cbv beta; [|intros n Hn IH _ Hl].
  - intros n Hn H Hl. replace n with 0%Z in * by lia. change (zrange (0 + 1)) with [0%Z]. cbn [map vsum].
    rewrite Z.add_0_r. unfold chain_acceleration. rewrite Z.eqb_refl.
    destruct (Z.eqb id last); unfold plus3, vadd, times3, vscale, minus3, vsub, zero3; cbn; f_equal; ring.
  - rewrite zrange_succ by lia. rewrite map_app, vsum_app, IH by lia.
    destruct (Z.eqb_spec (id + n) last); [lia|]. cbn [map vsum].
    unfold chain_acceleration. destruct (Z.eqb_spec (id + (n + 1)) id); [lia|].
    replace (id + (n + 1) - 1)%Z with (id + n)%Z by lia. replace (id + n + 1)%Z with (id + (n + 1))%Z by lia.
    destruct (Z.eqb (id + (n + 1)) last); unfold plus3, vadd, times3, vscale, minus3, vsub, zero3; cbn; f_equal; ring.
Qed.
Lemma acc_total k u : (0 < molecule_size k)%Z -> forall r, vsum (map (acc k u r) (members (molecule_size k) u)) = zero3.
Proof.
  intros Hs r. unfold members. rewrite map_map. destruct k; cbn [molecule_size] in *; unfold acc; cbn [molecule_size].
  - change (zrange 1) with [0%Z]. cbn [map vsum]. unfold plus3, zero3. cbn. f_equal; ring.
  - change (zrange 2) with [0; 1]%Z. cbn [map vsum]. rewrite Z.add_0_r, Z.eqb_refl.
    destruct (Z.eqb_spec (2 * u + 1) (2 * u)); [lia|]. unfold plus3, vneg, vscale, zero3. cbn. f_equal; ring.
  - change (zrange 3) with [0; 1; 2]%Z. cbn [map vsum]. rewrite Z.add_0_r, !Z.eqb_refl.
    destruct (Z.eqb_spec (3 * u + 1) (3 * u)); [lia|]. destruct (Z.eqb_spec (3 * u + 2) (3 * u)); [lia|].
    destruct (Z.eqb_spec (3 * u + 2) (3 * u + 1)); [lia|]. unfold plus3, vadd, vscale, zero3. cbn. f_equal; ring.
  - change (zrange 2) with [0; 1]%Z. cbn [map vsum]. rewrite Z.add_0_r, Z.eqb_refl.
    destruct (Z.eqb_spec (2 * u + 1) (2 * u)); [lia|]. unfold plus3, vneg, vscale, zero3. cbn. f_equal; ring.
  - pose proof (chain_partial r reducedSpringConstant (particlesPerChain * u) (particlesPerChain * u + particlesPerChain - 1) (particlesPerChain - 1) ltac:(lia) ltac:(lia)) as H.
    replace (particlesPerChain - 1 + 1)%Z with particlesPerChain in H by lia. rewrite H.
    destruct (Z.eqb_spec (particlesPerChain * u + (particlesPerChain - 1)) (particlesPerChain * u + particlesPerChain - 1)); [reflexivity|lia].
Qed.

(** * The whole fluid *)
Section Whole.
Variables (k : kind) (m count : Z) (dt : R) (n : nat).
Hypothesis Hs : (0 < molecule_size k)%Z.
Hypothesis Hc : count = (molecule_size k * m)%Z.
Lemma mem_disjoint u u' i : mem k u i = true -> u' <> u -> mem k u' i = false.
Proof.
  rewrite mem_iff. intros H H0. destruct (mem k u' i) eqn:E; [|reflexivity]. rewrite mem_iff in E. nia.
Qed.
Lemma agree_other u u' f f' : u' <> u -> molecule_streams k dt n u f = Ok f' -> agree (mem k u') f f'.
Proof.
  intros H E i Hi. pose proof (mem_disjoint u' u i Hi ltac:(auto)) as Hi'.
  destruct (repeated_outside _ _ _ _ _ _ _ _ Hi' E) as [-> ->]. auto.
Qed.
Lemma agree_sym mm f g : agree mm f g -> agree mm g f.
Proof. intros H i Hi. destruct (H i Hi). auto. Qed.
Lemma agree_trans mm f g h : agree mm f g -> agree mm g h -> agree mm f h.
Proof. intros H H0 i Hi. destruct (H i Hi) as [-> ->]. apply H0, Hi. Qed.
Lemma streams_local u f g f' : agree (mem k u) f g -> molecule_streams k dt n u f = Ok f' ->
  exists g', molecule_streams k dt n u g = Ok g' /\ agree (mem k u) f' g'.
Proof. apply repeated_local; [apply acc_local, Hs|apply intact_local]. Qed.
Lemma threads_give units : NoDup units -> (forall u, In u units -> (0 <= u < m)%Z) -> forall f b f' b',
  threads_stream k count dt n units (f, b) = Ok (f', b') ->
  (forall u, In u units -> exists fu, molecule_streams k dt n u f = Ok fu /\ agree (mem k u) fu f') /\
  (forall i, (forall u, In u units -> mem k u i = false) -> pos f' i = pos f i /\ vel f' i = vel f i).
Proof.
  induction units as [|v units IH]; intros Hn Hr f b f' b' E.
  - cbn in E. injection E as <- <-. split; [intros u []|auto].
  - inversion Hn as [|? ? Hv Hn']; subst. cbn [threads_stream] in E.
    destruct (thread_streams k _ dt n v (f, b)) as [[f1 b1]|e] eqn:E1; [|discriminate]. cbn [bind] in E.
    destruct (thread_is k _ dt n v f b m Hs eq_refl (Hr v (or_introl eq_refl))) as [_ T]. specialize (T _ _ E1).
    destruct (IH Hn' (fun u Hu => Hr u (or_intror Hu)) _ _ _ _ E) as [H H0]. split.
    + intros u [<-|Hu].
      * exists f1. split; [assumption|]. intros i Hi. destruct (H0 i) as [-> ->]; [|auto].
        intros u Hu. apply (mem_disjoint v); [assumption|]. intros ->. contradiction.
      * destruct (H u Hu) as (fu & Hf & Ha).
        assert (Ho : u <> v) by (intros ->; contradiction).
        pose proof (agree_other v u f f1 Ho T) as A1.
        destruct (streams_local u f1 f fu (agree_sym _ _ _ A1) Hf) as (g & Hg & Hag).
        exists g. split; [assumption|]. eapply agree_trans; [apply agree_sym; exact Hag|exact Ha].
    + intros i Hi. destruct (H0 i) as [-> ->]; [intros u Hu; apply Hi; right; assumption|].
      apply (repeated_outside (mem k v) (acc k v) (intact k v) dt (steps_of k n)); [apply Hi; left; reflexivity|exact T].
Qed.
Lemma threads_run units : NoDup units -> (forall u, In u units -> (0 <= u < m)%Z) -> forall f b,
  (forall u, In u units -> exists fu, molecule_streams k dt n u f = Ok fu) ->
  exists f' b', threads_stream k count dt n units (f, b) = Ok (f', b').
Proof.
  induction units as [|v units IH]; intros Hn Hr f b E.
  - cbn. eauto.
  - inversion Hn as [|? ? Hv Hn']; subst. cbn [threads_stream].
    destruct (E v (or_introl eq_refl)) as [f1 E1].
    destruct (thread_is k _ dt n v f b m Hs eq_refl (Hr v (or_introl eq_refl))) as [T _].
    destruct (T _ E1) as [b1 ->]. cbn [bind].
    apply IH; [assumption|intros u Hu; apply Hr; right; assumption|].
    intros u Hu. destruct (E u (or_intror Hu)) as [fu Ef].
    assert (Ho : u <> v) by (intros ->; contradiction).
    destruct (streams_local u f f1 fu (agree_other v u f f1 Ho E1) Ef) as (g & Hg & _). eauto.
Qed.
Lemma unit_of i : (0 <= i < count)%Z -> exists u, (0 <= u < m)%Z /\ mem k u i = true.
Proof.
  intros H. exists (i / molecule_size k)%Z. pose proof (Z.div_mod i (molecule_size k) ltac:(lia)) as E.
  pose proof (Z.mod_pos_bound i (molecule_size k) Hs) as B. split; [|apply mem_iff; lia]. split; [apply Z.div_pos; lia|].
  apply Z.div_lt_upper_bound; lia.
Qed.
Lemma units_spec units : every_unit m units -> NoDup units /\ (forall u, In u units <-> (0 <= u < m)%Z).
Proof.
  intros H. split.
  - apply (Permutation_NoDup (Permutation_sym H)). unfold zrange. apply FinFun.Injective_map_NoDup; [|apply seq_NoDup].
    intros a b E. lia.
  - intros u. rewrite <- In_zrange. split; intros X; [apply (Permutation_in _ H X)|apply (Permutation_in _ (Permutation_sym H) X)].
Qed.
Lemma reverse_agree mm f g : agree mm f g -> agree mm (reversed f) (reversed g).
Proof. intros H i Hi. destruct (H i Hi) as [A B]. cbn. rewrite A, B. auto. Qed.
Lemma stream_reverse units units' f b f' b' b'' : every_unit m units -> every_unit m units' ->
  threads_stream k count dt n units (f, b) = Ok (f', b') ->
  exists b''', threads_stream k count dt n units' (reversed f', b'') = Ok (reversed f, b''').
Proof.
  intros Hu Hu' E. destruct (units_spec _ Hu) as [Hn Hi]. destruct (units_spec _ Hu') as [Hn' Hi'].
  destruct (threads_give units Hn (fun u => proj1 (Hi u)) _ _ _ _ E) as [G G0].
  assert (B : forall u, (0 <= u < m)%Z -> exists fu, molecule_streams k dt n u (reversed f') = Ok fu /\ agree (mem k u) fu (reversed f)).
  { intros u X. apply Hi in X. destruct (G u X) as (fu & Hf & Ha).
    assert (R1 : molecule_streams k dt n u (reversed fu) = Ok (reversed f))
      by (apply (repeated_reverse _ (gstep_reverse _ _ _ _)), Hf).
    destruct (streams_local u _ _ _ (reverse_agree _ _ _ Ha) R1) as (g & Hg & Hag). exists g. split; [assumption|].
    apply agree_sym, Hag. }
  destruct (threads_run units' Hn' (fun u => proj1 (Hi' u)) (reversed f') b'') as (g & b3 & E').
  { intros u X. apply Hi' in X. destruct (B u X) as (fu & Hf & _). eauto. }
  exists b3. rewrite E'. f_equal. f_equal.
  destruct (threads_give units' Hn' (fun u => proj1 (Hi' u)) _ _ _ _ E') as [P P0].
  assert (Q : forall i, pos g i = pos (reversed f) i /\ vel g i = vel (reversed f) i).
  { intros i. destruct (Z_le_gt_dec 0 i) as [H0|H0], (Z_lt_ge_dec i count) as [H1|H1].
    2-4: destruct (P0 i) as [-> ->]; [intros u X; apply Hi' in X; destruct (mem k u i) eqn:M; [rewrite mem_iff in M; nia|reflexivity]|];
         cbn; destruct (G0 i) as [-> ->]; [intros u X; apply Hi in X; destruct (mem k u i) eqn:M; [rewrite mem_iff in M; nia|reflexivity]|]; auto.
    destruct (unit_of i ltac:(lia)) as (u & X & M).
    destruct (P u (proj2 (Hi' u) X)) as (fu & Hf & Ha). destruct (B u X) as (fu' & Hf' & Ha').
    assert (fu = fu') by congruence. subst fu'.
    destruct (Ha i M) as [<- <-]. apply Ha', M. }
  apply fluid_ext; intros i; apply Q.
Qed.
Lemma stream_totals units f b f' b' : every_unit m units ->
  threads_stream k count dt n units (f, b) = Ok (f', b') ->
  forall u, (0 <= u < m)%Z -> let l := members (molecule_size k) u in
    total (vel f') l = total (vel f) l /\
    total (pos f') l = plus3 (total (pos f) l) (times3 (step_number k n * dt) (total (vel f) l)).
Proof.
  intros Hu E u X l. destruct (units_spec _ Hu) as [Hn Hi].
  destruct (threads_give units Hn (fun u => proj1 (Hi u)) _ _ _ _ E) as [G _].
  destruct (G u (proj2 (Hi u) X)) as (fu & Hf & Ha).
  assert (Hl : forall i, In i l -> mem k u i = true) by (intros i; apply mem_members).
  destruct (repeated_totals (mem k u) (acc k u) (intact k u) dt l Hl (acc_total k u Hs) (steps_of k n) f fu Hf) as [T1 T2].
  assert (S1 : total (vel f') l = total (vel fu) l /\ total (pos f') l = total (pos fu) l).
  { unfold total. split; f_equal; apply map_ext_in; intros i Hx; symmetry; apply (Ha i (Hl i Hx)). }
  destruct S1 as [-> ->]. rewrite T1, T2. split; [reflexivity|]. f_equal. f_equal. destruct k; cbn [steps_of step_number INR]; reflexivity.
Qed.
Lemma never_fails u f : ~ may_fail k -> exists fu, molecule_streams k dt n u f = Ok fu.
Proof.
  intros H. unfold molecule_streams. revert f. generalize (steps_of k n). intros j. induction j; intros f; cbn; [eauto|].
  assert (exists f1, gstep (mem k u) (acc k u) (intact k u) dt f = Ok f1) as [f1 ->].
  { unfold gstep. destruct k; cbn [intact may_fail] in *; try tauto; eauto. }
  cbn. apply IHj.
Qed.
Lemma stream_ok units f b : ~ may_fail k -> every_unit m units -> exists f' b', threads_stream k count dt n units (f, b) = Ok (f', b').
Proof.
  intros H Hu. destruct (units_spec _ Hu) as [Hn Hi].
  apply threads_run; [assumption|intros u X; apply Hi, X|intros u _; apply never_fails, H].
Qed.
Lemma stream_order units units' f b : every_unit m units -> every_unit m units' -> forall f1 b1, threads_stream k count dt n units (f, b) = Ok (f1, b1) ->
  forall b', exists b2, threads_stream k count dt n units' (f, b') = Ok (f1, b2).
Proof.
  intros H H0 f1 b1 E b'. destruct (stream_reverse units units f b f1 b1 b H H E) as [b3 E3].
  destruct (stream_reverse units units' _ _ _ _ b' H H0 E3) as [b4 E4]. rewrite !reversed_twice in E4. eauto.
Qed.
End Whole.

(** * The accelerations *)
(** The accelerations that the bonds of the molecule that starts at [id] cause, if [F]
    yields the force on the second partner. *)
Definition bond_pull (id i : Z) (r : vecs) (b : Z * Z * (vec -> R) * vec) : vec :=
  let '(x, y, _, F) := b in
  plus3 (if Z.eqb (id + y) i then F else zero3) (if Z.eqb (id + x) i then times3 (-1) F else zero3).
Lemma pulls_derivative (id i : Z) (r v : vecs) (w : vec) (l : list (Z * Z * (vec -> R) * vec)) :
  (forall b, In b l -> let '(x, y, e, F) := b in x <> y /\ minus_gradient e (minus3 (r (id + y)%Z) (r (id + x)%Z)) F) ->
  derivable_pt_lim (fun t => rsum (map (fun b => let '(x, y, e) := b in
      e (minus3 (displaced r i (times3 t w) (id + y)%Z) (displaced r i (times3 t w) (id + x)%Z))) (map fst l))) 0
    (- dot3 (vsum (map (bond_pull id i r) l)) w).
Proof.
  induction l as [|[[[x y] e] F] l IH]; intros H.
  - cbn [map rsum vsum]. eapply dp_val; [apply dp_const|]. unfold dot3, zero3. cbn. ring.
  - cbn [map rsum vsum fst].
    destruct (H _ (or_introl eq_refl)) as [Hne Hg].
    eapply dp_val; [apply dp_plus; [|apply IH; intros b Hb; apply H; right; exact Hb]|].
    + instantiate (1 := - dot3 (bond_pull id i r (x, y, e, F)) w).
      unfold bond_pull, displaced. destruct (Z.eqb_spec (id + y) i) as [Ey|Ey], (Z.eqb_spec (id + x) i) as [Ex|Ex].
      * lia.
      * eapply dp_ext; [|eapply dp_val; [apply (Hg w)|unfold dot3, plus3, zero3; cbn; ring]].
        intros t. cbv beta. f_equal. unfold minus3, plus3, times3. cbn. f_equal; ring.
      * eapply dp_ext; [|eapply dp_val; [apply (Hg (times3 (-1) w))|unfold dot3, plus3, times3, zero3; cbn; ring]].
        intros t. cbv beta. f_equal. unfold minus3, plus3, times3. cbn. f_equal; ring.
      * eapply dp_val; [apply dp_const|unfold dot3, plus3, zero3; cbn; ring].
    + unfold dot3, plus3. cbn. ring.
Qed.
Lemma spring_gradient k d : minus_gradient (spring k) d (times3 (- k) d).
Proof.
  apply (radial2 (fun x => k / 2 * x) d (k / 2)).
  - eapply dp_val; [dp|]. cbv beta. ring.
  - f_equal. field.
Qed.
Lemma rigid_spring_gradient k l d : d <> zero3 -> minus_gradient (rigid_spring k l) d (times3 (- (k * (1 - l / vmag d))) d).
Proof.
  intros H. pose proof (mag_pos d H). apply (radial (fun x => k / 2 * ((x - l) * (x - l))) d (k * (vmag d - l))).
  - assumption.
  - eapply dp_val; [dp|]. cbv beta. field.
  - f_equal. field. lra.
Qed.
Definition bond_force (k : kind) (d : vec) : Z -> vec := fun x =>
  match k with
  | Simple => zero3
  | Dumbbells k => times3 (- k) d
  | Trimers k1 k2 => times3 (- (if Z.eqb x 0 then k1 else k2)) d
  | Rods l k => times3 (- (k * (1 - l / vmag d))) d
  | Chains _ k => times3 (- k) d
  end.
Lemma chain_pull r k id n i : (0 <= n)%Z -> vsum (map (fun j => bond_pull id i r (j, j + 1, spring k, times3 (- k) (minus3 (r (id + (j + 1)) ) (r (id + j))))%Z) (zrange n)) =
  plus3 (if (Z.ltb id i && Z.leb i (id + n))%bool then times3 (- k) (minus3 (r i) (r (i - 1)%Z)) else zero3)
        (if (Z.leb id i && Z.ltb i (id + n))%bool then times3 k (minus3 (r (i + 1)%Z) (r i)) else zero3).
Proof.
  revert n. match goal with |- forall n, @?P n => apply (zrange_ind P) end; cbv beta.
  - intros n Hn H0. replace n with 0%Z by lia. change (zrange 0) with (@nil Z). cbn [map vsum]. zcases; cbn [andb]; unfold plus3, zero3; cbn; f_equal; ring.
  - intros n Hn IH _. rewrite zrange_succ, map_app, vsum_app, IH by lia. cbn [map vsum]. unfold bond_pull.
    zcases; cbn [andb]; try lia; subst;
      replace (id + (n + 1) - 1)%Z with (id + n)%Z by lia; replace (id + n + 1)%Z with (id + (n + 1))%Z by lia;
      unfold plus3, times3, minus3, zero3; cbn; f_equal; ring.
Qed.
Lemma acc_spring k u r i : (0 < molecule_size k)%Z -> mem k u i = true -> intact k u r = true -> spring_acceleration k u r i (acc k u r i).
Proof.
  intros Hs Hi Ho w. rewrite mem_iff in Hi. unfold bond_energy. set (id := (molecule_size k * u)%Z) in *.
  set (l := map (fun b => let '(x, y, e) := b in (x, y, e, bond_force k (minus3 (r (id + y)%Z) (r (id + x)%Z)) x)) (bonds k)).
  assert (El : bonds k = map fst l).
  { unfold l. rewrite map_map. rewrite <- (map_id (bonds k)) at 1. apply map_ext. intros [[x y] e]. reflexivity. }
  rewrite El. eapply dp_val; [apply (pulls_derivative id i r r w l)|].
  - intros b Hb. unfold l in Hb. rewrite in_map_iff in Hb. destruct Hb as ([[x y] e] & <- & Hb).
    destruct k; cbn [bonds bond_force] in *.
    + destruct Hb.
    + destruct Hb as [[= <- <- <-]|[]]. split; [lia|apply spring_gradient].
    + destruct Hb as [[= <- <- <-]|[[= <- <- <-]|[]]]; cbn [Z.eqb]; (split; [lia|apply spring_gradient]).
    + destruct Hb as [[= <- <- <-]|[]]. split; [lia|]. apply rigid_spring_gradient.
      cbn [intact] in Ho. destruct (Req_EM_T _ 0) as [E|E]; [discriminate|]. intros Hz. apply E.
      unfold id in Hz. cbn [molecule_size] in Hz. rewrite Z.add_0_r in Hz.
      change (vsub (r (2 * u + 1)%Z) (r (2 * u)%Z)) with (minus3 (r (2 * u + 1)%Z) (r (2 * u)%Z)). rewrite Hz.
      unfold vmag, vmag2, vdot, zero3. cbn. replace (0 * 0 + 0 * 0 + 0 * 0) with 0 by ring. apply sqrt_0.
    + rewrite in_map_iff in Hb. destruct Hb as (j & [= <- <- <-] & _). split; [lia|apply spring_gradient].
  - f_equal. f_equal. unfold l. rewrite map_map. unfold acc. fold id.
    destruct k; cbn [bonds bond_force molecule_size] in *; cbn [map vsum].
    + reflexivity.
    + unfold bond_pull. rewrite Z.add_0_r. zcases; unfold plus3, times3, minus3, vscale, vneg, vsub, zero3; cbn; f_equal; ring.
    + unfold bond_pull. rewrite Z.add_0_r. zcases; subst i; unfold plus3, times3, minus3, vadd, vscale, vneg, vsub, zero3; cbn; f_equal; ring.
    + unfold bond_pull. rewrite Z.add_0_r. change (vsub (r (id + 1)%Z) (r id)) with (minus3 (r (id + 1)%Z) (r id)).
      set (V := vmag _). zcases; unfold plus3, times3, minus3, vscale, vneg, vsub, zero3; cbn; f_equal; ring.
    + rewrite map_map. rewrite (chain_pull r reducedSpringConstant id (particlesPerChain - 1) i ltac:(lia)).
      unfold chain_acceleration. zcases; cbn [andb]; try lia; unfold plus3, times3, minus3, vadd, vscale, vneg, vsub, zero3; cbn; f_equal; ring.
Qed.

(** * Single steps *)
Lemma one_gstep k dt u f : molecule_streams k dt 1 u f = gstep (mem k u) (acc k u) (intact k u) dt f.
Proof. unfold molecule_streams. destruct k; cbn [steps_of repeated]; destruct (gstep _ _ _ _ _); reflexivity. Qed.
Section Steps.
Variables (k : kind) (m count : Z) (dt : R).
Hypothesis Hs : (0 < molecule_size k)%Z.
Hypothesis Hc : count = (molecule_size k * m)%Z.
Lemma step_verlet units f b f' b' : every_unit m units -> threads_stream k count dt 1 units (f, b) = Ok (f', b') ->
  forall u i, (0 <= u < m)%Z -> In i (members (molecule_size k) u) ->
  exists a a', spring_acceleration k u (pos f) i a /\ spring_acceleration k u (pos f') i a' /\
    pos f' i = plus3 (plus3 (pos f i) (times3 dt (vel f i))) (times3 (dt * dt / 2) a) /\
    vel f' i = plus3 (vel f i) (times3 (dt / 2) (plus3 a a')).
Proof.
  intros Hu E u i X Hi. destruct (units_spec m _ Hu) as [Hn Hin]. rewrite mem_members in Hi.
  destruct (threads_give k m count dt 1 Hs Hc units Hn (fun u => proj1 (Hin u)) _ _ _ _ E) as [G _].
  destruct (G u (proj2 (Hin u) X)) as (fu & Hf & Ha). rewrite one_gstep in Hf. unfold gstep in Hf.
  destruct (intact k u (pos f)) eqn:I1; [|discriminate].
  destruct (intact k u (moved (mem k u) (acc k u) dt f)) eqn:I2; [|discriminate]. injection Hf as <-.
  assert (L : forall j, mem k u j = true -> moved (mem k u) (acc k u) dt f j = pos f' j) by (intros j Hj; apply (Ha j Hj)).
  exists (acc k u (pos f) i), (acc k u (pos f') i). destruct (Ha i Hi) as [<- <-]. cbn [pos vel]. rewrite Hi.
  repeat split.
  - apply acc_spring; assumption.
  - apply acc_spring; [assumption|assumption|]. rewrite <- (intact_local k u _ _ L). exact I2.
  - unfold moved. rewrite Hi, verlet1_vec. f_equal. f_equal. field.
  - rewrite verlet2_vec. rewrite (acc_local k u Hs _ _ L i Hi). f_equal. f_equal. field.
Qed.
Lemma stream_outside n units f b f' b' : every_unit m units -> threads_stream k count dt n units (f, b) = Ok (f', b') ->
  forall i, ~ (0 <= i < count)%Z -> pos f' i = pos f i /\ vel f' i = vel f i.
Proof.
  intros Hu E i X. destruct (units_spec m _ Hu) as [Hn Hin].
  destruct (threads_give k m count dt n Hs Hc units Hn (fun u => proj1 (Hin u)) _ _ _ _ E) as [_ G].
  apply G. intros u Y. apply Hin in Y. destruct (mem k u i) eqn:M; [rewrite mem_iff in M; nia|reflexivity].
Qed.
Lemma more_steps n units units' units'' f b f1 b1 f2 b2 b' : k <> Simple ->
  every_unit m units -> every_unit m units' -> every_unit m units'' ->
  threads_stream k count dt n units (f, b) = Ok (f1, b1) -> threads_stream k count dt 1 units' (f1, b1) = Ok (f2, b2) ->
  exists b3, threads_stream k count dt (S n) units'' (f, b') = Ok (f2, b3).
Proof.
  intros Hk Hu Hu' Hu'' E E'. destruct (units_spec m _ Hu) as [Hn Hi]. destruct (units_spec m _ Hu') as [Hn' Hi'].
  destruct (units_spec m _ Hu'') as [Hn'' Hi''].
  destruct (threads_give k m count dt n Hs Hc units Hn (fun u => proj1 (Hi u)) _ _ _ _ E) as [G G0].
  destruct (threads_give k m count dt 1 Hs Hc units' Hn' (fun u => proj1 (Hi' u)) _ _ _ _ E') as [G' G0'].
  assert (B : forall u, (0 <= u < m)%Z -> exists fu, molecule_streams k dt (S n) u f = Ok fu /\ agree (mem k u) fu f2).
  { intros u X. destruct (G u (proj2 (Hi u) X)) as (fu & Hf & Ha). destruct (G' u (proj2 (Hi' u) X)) as (fu' & Hf' & Ha').
    destruct (streams_local k dt 1 Hs u f1 fu fu' (agree_sym _ _ _ Ha) Hf') as (g & Hg & Hag).
    exists g. split; [|apply (agree_trans _ _ _ _ (agree_sym _ _ _ Hag) Ha')].
    rewrite one_gstep in Hg. unfold molecule_streams in *.
    assert (S1 : forall j, steps_of k j = j) by (intros j; destruct k; cbn; congruence). rewrite S1 in *. rewrite repeated_snoc, Hf. exact Hg. }
  destruct (threads_run k m count dt (S n) Hs Hc units'' Hn'' (fun u => proj1 (Hi'' u)) f b') as (g & b3 & E3).
  { intros u X. apply Hi'' in X. destruct (B u X) as (fu & Hf & _). eauto. }
  exists b3. rewrite E3. f_equal. f_equal.
  destruct (threads_give k m count dt (S n) Hs Hc units'' Hn'' (fun u => proj1 (Hi'' u)) _ _ _ _ E3) as [P _].
  assert (Q : forall i, pos g i = pos f2 i /\ vel g i = vel f2 i).
  { intros i. assert ((0 <= i < count)%Z \/ ~ (0 <= i < count)%Z) as [X|X] by lia.
    - destruct (unit_of k m count Hs Hc i X) as (u & X' & M).
      destruct (P u (proj2 (Hi'' u) X')) as (fu & Hf & Ha). destruct (B u X') as (fu' & Hf' & Ha').
      assert (fu = fu') by congruence. subst fu'. destruct (Ha i M) as [<- <-]. apply Ha', M.
    - destruct (stream_outside _ _ _ _ _ _ Hu'' E3 i X) as [-> ->].
      destruct (stream_outside _ _ _ _ _ _ Hu' E' i X) as [-> ->].
      destruct (stream_outside _ _ _ _ _ _ Hu E i X) as [-> ->]. auto. }
  apply fluid_ext; intros i; apply Q.
Qed.
End Steps.
Lemma gstep_error mm A ok dt f e : gstep mm A ok dt f = Err e -> e = AssertionError /\ (ok (pos f) = false \/ ok (moved mm A dt f) = false).
Proof.
  unfold gstep. destruct (ok (pos f)); [|intros [= <-]; auto]. destruct (ok (moved mm A dt f)); [discriminate|intros [= <-]; auto].
Qed.
Lemma vmag_0 d : vmag d = 0 -> d = zero3.
Proof.
  intros H. assert (X : vmag d * vmag d = 0) by (rewrite H; ring). rewrite mag_sqr in X. destruct d as [x y z].
  unfold vmag2, vdot in X. cbn in X. unfold zero3. assert (x = 0 /\ y = 0 /\ z = 0) as (-> & -> & ->) by (pose proof (Rle_0_sqr x); pose proof (Rle_0_sqr y); pose proof (Rle_0_sqr z); unfold Rsqr in *;
    repeat split; apply Rsqr_0_uniq; unfold Rsqr; lra). reflexivity.
Qed.
Lemma broken l k u r : intact (Rods l k) u r = false -> r (2 * u)%Z = r (2 * u + 1)%Z.
Proof.
  unfold intact. destruct (Req_EM_T _ 0) as [E|E]; [|discriminate]. intros _. apply vmag_0 in E. revert E.
  generalize (r (2 * u)%Z) (r (2 * u + 1)%Z). intros [x y z] [x' y' z'] E.
  unfold vsub, zero3 in E. cbn in E. injection E as E1 E2 E3. f_equal; lra.
Qed.
Lemma thread_error k count dt n u f b m e : (0 < molecule_size k)%Z -> count = (molecule_size k * m)%Z -> (0 <= u < m)%Z ->
  thread_streams k count dt n u (f, b) = Err e -> molecule_streams k dt n u f = Err e.
Proof.
  intros Hs Hc Hu E. destruct (molecule_streams k dt n u f) as [f'|e'] eqn:E'.
  - destruct (thread_is k count dt n u f b m Hs Hc Hu) as [T _]. destruct (T _ E') as [b' X]. congruence.
  - f_equal. revert E E'. unfold thread_streams, molecule_streams. destruct k; cbn [molecule_size steps_of] in *.
    + destruct (Z.leb _ _); discriminate.
    + destruct (Z.leb _ _); [discriminate|]. rewrite (repeated_ext n _ _ (dumbbell_gstep reducedSpringConstant dt u)).
      destruct (repeated _ _ _); cbn; congruence.
    + destruct (Z.leb _ _); [discriminate|]. rewrite (repeated_ext n _ _ (trimer_gstep reducedSpringConstant1 reducedSpringConstant2 dt u)).
      destruct (repeated _ _ _); cbn; congruence.
    + destruct (Z.leb _ _); [discriminate|]. rewrite (repeated_ext n _ _ (rod_gstep meanBondLength reducedSpringConstant dt u)).
      destruct (repeated _ _ _); cbn; congruence.
    + destruct (never_fails (Chains particlesPerChain reducedSpringConstant) m count dt n Hs Hc u f ltac:(cbn; tauto)) as [g Hg].
      unfold molecule_streams in Hg. cbn [steps_of] in Hg. congruence.
Qed.
Lemma threads_error k count dt n m units : (0 < molecule_size k)%Z -> count = (molecule_size k * m)%Z ->
  NoDup units -> (forall u, In u units -> (0 <= u < m)%Z) -> forall f b e,
  threads_stream k count dt n units (f, b) = Err e -> exists u, In u units /\ molecule_streams k dt n u f = Err e.
Proof.
  intros Hs Hc. induction units as [|v units IH]; intros Hn Hr f b e E; [discriminate|].
  inversion Hn as [|? ? Hv Hn']; subst. cbn [threads_stream] in E.
  destruct (thread_streams k _ dt n v (f, b)) as [[f1 b1]|e1] eqn:E1; cbn [bind] in E.
  - destruct (IH Hn' (fun u Hu => Hr u (or_intror Hu)) _ _ _ E) as (u & Hu & X). exists u. split; [right; exact Hu|].
    destruct (thread_is k _ dt n v f b m Hs eq_refl (Hr v (or_introl eq_refl))) as [_ T]. specialize (T _ _ E1).
    assert (Ho : u <> v) by (intros ->; contradiction).
    destruct (molecule_streams k dt n u f) as [g|e'] eqn:Eg.
    + destruct (streams_local k dt n Hs u f f1 g (agree_other k dt n Hs v u f f1 Ho T) Eg) as (g' & Hg & _). congruence.
    + f_equal. revert Eg X. unfold molecule_streams. clear.
      revert f f1. generalize (steps_of k n). intros j. induction j; cbn; [discriminate|]. intros f f1.
      destruct (gstep _ _ _ _ f) eqn:A; cbn; [|destruct (gstep _ _ _ _ f1) eqn:B; cbn].
      * destruct (gstep _ _ _ _ f1) eqn:B; cbn; [apply IHj|]. intros Y [= <-]. destruct (gstep_error _ _ _ _ _ _ B) as [-> _].
        revert Y. clear. revert a. induction j; cbn; [discriminate|]. intros a. destruct (gstep _ _ _ _ a) eqn:A; cbn; [apply IHj|].
        intros [= <-]. apply (gstep_error _ _ _ _ _ _ A).
      * intros [= <-] Y. destruct (gstep_error _ _ _ _ _ _ A) as [-> _]. symmetry.
        revert Y. clear. revert a. induction j; cbn; [discriminate|]. intros a. destruct (gstep _ _ _ _ a) eqn:A; cbn; [apply IHj|].
        intros [= <-]. apply (gstep_error _ _ _ _ _ _ A).
      * intros [= <-] [= <-]. destruct (gstep_error _ _ _ _ _ _ A) as [-> _], (gstep_error _ _ _ _ _ _ B) as [-> _]. reflexivity.
  - injection E as <-. exists v. split; [left; reflexivity|]. apply (thread_error k _ dt n v f b m e1 Hs eq_refl (Hr v (or_introl eq_refl)) E1).
Qed.
Lemma rods_break l k m dt units f b e : every_unit m units -> threads_stream (Rods l k) (2 * m) dt 1 units (f, b) = Err e ->
  e = AssertionError /\ exists u, (0 <= u < m)%Z /\ (pos f (2 * u)%Z = pos f (2 * u + 1)%Z \/
    exists a a', spring_acceleration (Rods l k) u (pos f) (2 * u) a /\ spring_acceleration (Rods l k) u (pos f) (2 * u + 1) a' /\
      plus3 (plus3 (pos f (2 * u)%Z) (times3 dt (vel f (2 * u)%Z))) (times3 (dt * dt / 2) a) =
      plus3 (plus3 (pos f (2 * u + 1)%Z) (times3 dt (vel f (2 * u + 1)%Z))) (times3 (dt * dt / 2) a')).
Proof.
  intros Hu E. destruct (units_spec m _ Hu) as [Hn Hi].
  destruct (threads_error (Rods l k) (2 * m)%Z dt 1 m units ltac:(cbn; lia) eq_refl Hn (fun u => proj1 (Hi u)) _ _ _ E) as (u & X & M).
  rewrite one_gstep in M. apply Hi in X. destruct (gstep_error _ _ _ _ _ _ M) as [-> H]. split; [reflexivity|].
  exists u. split; [exact X|]. destruct (intact (Rods l k) u (pos f)) eqn:I1; [|left; apply (broken l k), I1].
  right. destruct H as [H|H]; [congruence|]. apply broken in H. unfold moved in H.
  assert (M1 : mem (Rods l k) u (2 * u) = true) by (apply mem_iff; cbn; lia).
  assert (M2 : mem (Rods l k) u (2 * u + 1) = true) by (apply mem_iff; cbn; lia). rewrite M1, M2, !verlet1_vec in H.
  exists (acc (Rods l k) u (pos f) (2 * u)%Z), (acc (Rods l k) u (pos f) (2 * u + 1)%Z).
  split; [apply acc_spring; [cbn; lia|assumption|assumption]|].
  split; [apply acc_spring; [cbn; lia|assumption|assumption]|].
  replace (dt * dt / 2) with (1 / 2 * dt * dt) by field. exact H.
Qed.
Lemma total_units a s m : (0 <= s)%Z -> (0 <= m)%Z -> total a (zrange (s * m)) = vsum (map (fun u => total a (members s u)) (zrange m)).
Proof.
  intros Hs. revert m. match goal with |- forall n, @?P n => apply (zrange_ind P) end; cbv beta.
  - intros n Hn H0. replace n with 0%Z by lia. rewrite Z.mul_0_r. reflexivity.
  - intros n Hn IH _. rewrite zrange_succ, map_app, vsum_app, <- IH by lia. cbn [map vsum].
    replace (s * (n + 1))%Z with (s * n + s)%Z by lia. rewrite zrange_app by nia. unfold total, members. rewrite map_app, vsum_app.
    f_equal. unfold plus3 at 1. cbn. rewrite !Rplus_0_r.
    match goal with |- ?a = Vec (vx ?b) (vy ?b) (vz ?b) => assert (X : a = b); [|rewrite X at 1; destruct b; reflexivity] end.
    f_equal. 
Qed.

(** * Analytic streaming *)
Section Exact.
Variables (m : Z) (omega k : R).
Hypothesis Hw : omega <> 0.
Hypothesis Hk : omega * omega = 2 * k.
Definition exactly (t : R) (u : Z) (f : fluid) : fluid := dumbbell_exactly (2 * u) t omega (cos (omega * t)) (sin (omega * t)) f.
Lemma exactly_at t u f : let i := (2 * u)%Z in let j := (2 * u + 1)%Z in let c := cos (omega * t) in let s := sin (omega * t) in
  let rc := times3 (1 / 2) (plus3 (pos f i) (pos f j)) in let d := minus3 (pos f j) (pos f i) in
  let vc := times3 (1 / 2) (plus3 (vel f i) (vel f j)) in let e := minus3 (vel f j) (vel f i) in
  let rel := times3 (1 / 2) (plus3 (times3 c d) (times3 (s / omega) e)) in
  let rv := times3 (1 / 2) (plus3 (times3 (- (s * omega)) d) (times3 c e)) in
  pos (exactly t u f) i = minus3 (plus3 rc (times3 t vc)) rel /\ pos (exactly t u f) j = plus3 (plus3 rc (times3 t vc)) rel /\
  vel (exactly t u f) i = minus3 vc rv /\ vel (exactly t u f) j = plus3 vc rv.
Proof.
  destruct f as [r v]. cbv zeta. unfold exactly, dumbbell_exactly. cbn [pos vel]. rewrite !assign_eq.
  zcases.
  unfold plus3, minus3, times3, vadd, vsub, vscale, vdivs. cbn [vx vy vz]. repeat split; f_equal; field; assumption.
Qed.
Lemma exactly_other t u f i : (i <> 2 * u)%Z -> (i <> 2 * u + 1)%Z -> pos (exactly t u f) i = pos f i /\ vel (exactly t u f) i = vel f i.
Proof. intros. destruct f as [r v]. unfold exactly, dumbbell_exactly. cbn [pos vel]. rewrite !assign_eq. zcases. auto. Qed.
Definition same_unit u (f g : fluid) := agree (fun i => Z.eqb i (2 * u) || Z.eqb i (2 * u + 1))%bool f g.
Lemma same_unit_iff u f g : same_unit u f g <-> (pos f (2 * u)%Z = pos g (2 * u)%Z /\ pos f (2 * u + 1)%Z = pos g (2 * u + 1)%Z /\
  vel f (2 * u)%Z = vel g (2 * u)%Z /\ vel f (2 * u + 1)%Z = vel g (2 * u + 1)%Z).
Proof.
  unfold same_unit, agree. split.
  - intros H. destruct (H (2 * u)%Z) as [H1 H2]; [rewrite Z.eqb_refl; reflexivity|].
    destruct (H (2 * u + 1)%Z) as [H3 H4]; [rewrite Z.eqb_refl, orb_true_r; reflexivity|]. auto.
  - intros (H1 & H2 & H3 & H4) i Hi. apply orb_prop in Hi. rewrite !Z.eqb_eq in Hi. destruct Hi; subst i; auto.
Qed.
Lemma exactly_local t u f g : same_unit u f g -> same_unit u (exactly t u f) (exactly t u g).
Proof.
  rewrite !same_unit_iff. intros (H1 & H2 & H3 & H4).
  destruct (exactly_at t u f) as (A & B & C & D), (exactly_at t u g) as (A' & B' & C' & D').
  rewrite A, B, C, D, A', B', C', D', H1, H2, H3, H4. auto.
Qed.
Lemma threads_exactly t units : NoDup units -> (forall u, In u units -> (0 <= u < m)%Z) -> forall f,
  (forall u, In u units -> same_unit u (threads_stream_exactly (2 * m) t omega units f) (exactly t u f)) /\
  (forall i, (forall u, In u units -> (i <> 2 * u)%Z /\ (i <> 2 * u + 1)%Z) ->
    pos (threads_stream_exactly (2 * m) t omega units f) i = pos f i /\ vel (threads_stream_exactly (2 * m) t omega units f) i = vel f i).
Proof.
  induction units as [|v units IH]; intros Hn Hr f.
  - split; [intros u []|]. intros i _. split; reflexivity.
  - inversion Hn as [|? ? Hv Hn']; subst. unfold threads_stream_exactly. cbn [fold_left].
    assert (E : thread_streams_exactly (2 * m) t omega v f = exactly t v f).
    { unfold thread_streams_exactly. specialize (Hr v (or_introl eq_refl)). zcases. reflexivity. }
    rewrite E. destruct (IH Hn' (fun u Hu => Hr u (or_intror Hu)) (exactly t v f)) as [H H0]. split.
    + intros u [<-|Hu].
      * intros i Hi. apply H0. intros u Hu. apply orb_prop in Hi. rewrite !Z.eqb_eq in Hi.
        assert (u <> v) by (intros ->; contradiction). lia.
      * assert (Ho : u <> v) by (intros ->; contradiction).
        eapply agree_trans; [apply H, Hu|]. apply exactly_local. apply same_unit_iff.
        repeat split; apply exactly_other; lia.
    + intros i Hi. destruct (H0 i) as [A B]; [intros u Hu; apply Hi; right; exact Hu|]. unfold threads_stream_exactly in A, B.
      rewrite A, B. apply exactly_other; apply Hi; left; reflexivity.
Qed.
Lemma exact_is t units f : every_unit m units -> let f' := threads_stream_exactly (2 * m) t omega units f in
  (forall u, (0 <= u < m)%Z -> same_unit u f' (exactly t u f)) /\
  (forall i, ~ (0 <= i < 2 * m)%Z -> pos f' i = pos f i /\ vel f' i = vel f i).
Proof.
  intros Hu f'. destruct (units_spec m _ Hu) as [Hn Hi]. destruct (threads_exactly t units Hn (fun u => proj1 (Hi u)) f) as [A B].
  split; [intros u X; apply A, Hi, X|]. intros i X. apply B. intros u Y. apply Hi in Y. lia.
Qed.
Lemma pairwise f g : (forall u, (0 <= u < m)%Z -> same_unit u f g) ->
  (forall i, ~ (0 <= i < 2 * m)%Z -> pos f i = pos g i /\ vel f i = vel g i) -> f = g.
Proof.
  intros H H0. assert (Q : forall i, pos f i = pos g i /\ vel f i = vel g i); [|apply fluid_ext; intros i; apply Q].
  intros i. assert ((0 <= i < 2 * m)%Z \/ ~ (0 <= i < 2 * m)%Z) as [X|X] by lia; [|apply H0, X].
  pose proof (Z.div_mod i 2 ltac:(lia)). pose proof (Z.mod_pos_bound i 2 ltac:(lia)).
  apply (H (i / 2)%Z); [lia|]. apply orb_true_iff. rewrite !Z.eqb_eq. lia.
Qed.
Lemma cs t : cos t * cos t + sin t * sin t = 1.
Proof. pose proof (sin2_cos2 t) as X. unfold Rsqr in X. lra. Qed.
Lemma exact_totals t u f : let f' := exactly t u f in let l := members 2 u in
  total (vel f') l = total (vel f) l /\ total (pos f') l = plus3 (total (pos f) l) (times3 t (total (vel f) l)).
Proof.
  cbv zeta. destruct (exactly_at t u f) as (A & B & C & D). unfold total, members. change (zrange 2) with [0; 1]%Z. cbn [map vsum].
  rewrite Z.add_0_r, A, B, C, D. unfold plus3, minus3, times3, zero3. cbn [vx vy vz]. split; f_equal; field; assumption.
Qed.
Lemma exact_energy t u f : spring_energy k (exactly t u f) (2 * u) = spring_energy k f (2 * u).
Proof.
  destruct (exactly_at t u f) as (A & B & C & D). unfold spring_energy. rewrite A, B, C, D.
  generalize (cs (omega * t)). generalize (cos (omega * t)) (sin (omega * t)).
  destruct (pos f (2 * u)%Z) as [r1x r1y r1z], (pos f (2 * u + 1)%Z) as [r2x r2y r2z], (vel f (2 * u)%Z) as [v1x v1y v1z], (vel f (2 * u + 1)%Z) as [v2x v2y v2z].
  intros c s E. replace k with (omega * omega / 2) by lra.
  unfold plus3, minus3, times3, dot3. cbn [vx vy vz].
  assert (H : forall c s r1 r2 v1 v2, c * c + s * s = 1 ->
    (1 / 2 * (v1 + v2) - 1 / 2 * (- (s * omega) * (r2 - r1) + c * (v2 - v1))) * (1 / 2 * (v1 + v2) - 1 / 2 * (- (s * omega) * (r2 - r1) + c * (v2 - v1))) / 2 +
    (1 / 2 * (v1 + v2) + 1 / 2 * (- (s * omega) * (r2 - r1) + c * (v2 - v1))) * (1 / 2 * (v1 + v2) + 1 / 2 * (- (s * omega) * (r2 - r1) + c * (v2 - v1))) / 2 +
    omega * omega / 2 * ((c * (r2 - r1) + s / omega * (v2 - v1)) * (c * (r2 - r1) + s / omega * (v2 - v1)) / 2) =
    v1 * v1 / 2 + v2 * v2 / 2 + omega * omega / 2 * ((r2 - r1) * (r2 - r1) / 2)).
  { clear - Hw. intros c s r1 r2 v1 v2 E. apply Rminus_diag_uniq.
    transitivity ((c * c + s * s - 1) * ((v2 - v1) * (v2 - v1) / 4 + omega * omega / 4 * ((r2 - r1) * (r2 - r1)))); [field; assumption|].
    rewrite E. ring. }
  rewrite <- (Rplus_0_r (_ + _)) at 1.
  pose proof (H c s r1x r2x v1x v2x E) as Hx. pose proof (H c s r1y r2y v1y v2y E) as Hy. pose proof (H c s r1z r2z v1z v2z E) as Hz.
  transitivity ((v1x * v1x / 2 + v2x * v2x / 2 + omega * omega / 2 * ((r2x - r1x) * (r2x - r1x) / 2)) + (v1y * v1y / 2 + v2y * v2y / 2 + omega * omega / 2 * ((r2y - r1y) * (r2y - r1y) / 2)) + (v1z * v1z / 2 + v2z * v2z / 2 + omega * omega / 2 * ((r2z - r1z) * (r2z - r1z) / 2))); [|field].
  rewrite <- Hx, <- Hy, <- Hz. field; assumption.
Qed.
Lemma exact_group t1 t2 u f : same_unit u (exactly t2 u (exactly t1 u f)) (exactly (t1 + t2) u f).
Proof.
  apply same_unit_iff. destruct (exactly_at t1 u f) as (A & B & C & D).
  destruct (exactly_at t2 u (exactly t1 u f)) as (A' & B' & C' & D'). rewrite A, B, C, D in *.
  destruct (exactly_at (t1 + t2) u f) as (A3 & B3 & C3 & D3). rewrite A', B', C', D', A3, B3, C3, D3.
  replace (omega * (t1 + t2)) with (omega * t1 + omega * t2) by ring. rewrite cos_plus, sin_plus.
  clear A B C D A' B' C' D' A3 B3 C3 D3.
  generalize (cos (omega * t1)) (sin (omega * t1)) (cos (omega * t2)) (sin (omega * t2)) (pos f (2 * u)%Z) (pos f (2 * u + 1)%Z) (vel f (2 * u)%Z) (vel f (2 * u + 1)%Z).
  intros c1 s1 c2 s2 [x1 y1 z1] [x2 y2 z2] [p1 q1 r1] [p2 q2 r2].
  cbv [plus3 minus3 times3 VecBase.vx VecBase.vy VecBase.vz]. repeat split; f_equal; field; assumption.
Qed.
Lemma exact_zero u f : same_unit u (exactly 0 u f) f.
Proof.
  apply same_unit_iff. destruct (exactly_at 0 u f) as (A & B & C & D). rewrite A, B, C, D, Rmult_0_r, cos_0, sin_0.
  destruct (pos f (2 * u)%Z), (pos f (2 * u + 1)%Z), (vel f (2 * u)%Z), (vel f (2 * u + 1)%Z).
  unfold plus3, minus3, times3. cbn [VecBase.vx VecBase.vy VecBase.vz]. repeat split; f_equal; field; assumption.
Qed.
Lemma dp_cos a t : derivable_pt_lim (fun t => cos (a * t)) t (- (a * sin (a * t))).
Proof.
  eapply dp_val; [apply (dp_comp (fun t => a * t) cos); [dp|apply derivable_pt_lim_cos]|]. cbv beta. ring.
Qed.
Lemma dp_sin a t : derivable_pt_lim (fun t => sin (a * t)) t (a * cos (a * t)).
Proof.
  eapply dp_val; [apply (dp_comp (fun t => a * t) sin); [dp|apply derivable_pt_lim_sin]|]. cbv beta. ring.
Qed.
Lemma exact_motion (F : R -> fluid) f u : (forall t, same_unit u (F t) (exactly t u f)) -> spring_motion k F (2 * u).
Proof.
  intros H t. assert (H' : forall t, _) by (intros t'; exact (proj1 (same_unit_iff _ _ _) (H t'))). clear H.
  unfold vderivative.
  assert (P1 : forall t, pos (F t) (2 * u)%Z = pos (exactly t u f) (2 * u)%Z) by apply H'.
  assert (P2 : forall t, pos (F t) (2 * u + 1)%Z = pos (exactly t u f) (2 * u + 1)%Z) by apply H'.
  assert (V1 : forall t, vel (F t) (2 * u)%Z = vel (exactly t u f) (2 * u)%Z) by apply H'.
  assert (V2 : forall t, vel (F t) (2 * u + 1)%Z = vel (exactly t u f) (2 * u + 1)%Z) by apply H'.
  replace k with (omega * omega / 2) by lra.
  assert (G : forall t, _) by (intros t'; exact (exactly_at t' u f)). cbv zeta in G.
  rewrite !P1, !P2, V1, V2.
  destruct (G t) as (-> & -> & -> & ->).
  repeat split;
    (eapply dp_ext; [intros t'; symmetry; first [rewrite P1|rewrite P2|rewrite V1|rewrite V2];
      destruct (G t') as (A & B & C & D); first [rewrite A|rewrite B|rewrite C|rewrite D]; unfold plus3, minus3, times3; cbn [VecBase.vx VecBase.vy VecBase.vz]; reflexivity|]);
    (eapply dp_val; [repeat first [apply dp_cos|apply dp_sin|dp]; try exact Hw|]; cbv beta; unfold plus3, minus3, times3, Rsqr; cbn [VecBase.vx VecBase.vy VecBase.vz]; field; assumption).
Qed.
End Exact.
Lemma omega_ok lambda kT m : 0 < lambda -> 0 < kT -> 0 < m ->
  dumbbell_omega lambda kT m <> 0 /\ dumbbell_omega lambda kT m * dumbbell_omega lambda kT m = 2 * dumbbell_spring_constant lambda kT m.
Proof.
  intros. assert (X : 0 < 4 * lambda * kT / m) by (apply Rdiv_lt_0_compat; [|assumption]; repeat apply Rmult_lt_0_compat; lra).
  unfold dumbbell_omega, dumbbell_spring_constant. split.
  - apply Rgt_not_eq. apply sqrt_lt_R0, X.
  - rewrite sqrt_sqrt by lra. field. lra.
Qed.

Lemma stream_grand_totals k m timestep stepCount units f b f' b' :
  (0 < molecule_size k)%Z -> (0 <= m)%Z -> every_unit m units ->
  threads_stream k (molecule_size k * m) timestep stepCount units (f, b) = Ok (f', b') ->
  let l := zrange (molecule_size k * m) in
  total (vel f') l = total (vel f) l /\
  total (pos f') l = plus3 (total (pos f) l) (times3 (step_number k stepCount * timestep) (total (vel f) l)).
Proof.
  intros Hs Hm Hu E l. unfold l. rewrite !total_units by lia.
  pose proof (stream_totals k m _ timestep stepCount Hs eq_refl units f b f' b' Hu E) as T. cbv zeta in T. split.
  - f_equal. apply map_ext_in. intros u H. rewrite In_zrange in H. apply T, H.
  - rewrite <- vsum_times, <- vsum_plus. f_equal. apply map_ext_in. intros u H. rewrite In_zrange in H. apply T, H.
Qed.
Lemma no_steps k m timestep units f b : (0 < molecule_size k)%Z -> k <> Simple -> every_unit m units ->
  threads_stream k (molecule_size k * m) timestep 0 units (f, b) = Ok (f, b).
Proof.
  intros Hs Hk _. induction units as [|u units IH]; [reflexivity|]. cbn [threads_stream].
  replace (thread_streams k (molecule_size k * m) timestep 0 u (f, b)) with (Ok (f, b)); [exact IH|].
  unfold thread_streams. destruct k; cbn [repeated bind]; try congruence; destruct (Z.leb _ _); reflexivity.
Qed.
Lemma rest_example :
  (exists f b, threads_stream (Dumbbells 1) 2 1 1 [0]%Z (at_rest, vel at_rest) = Ok (f, b) /\
    pos f 0%Z = Vec (1 / 2) 0 0 /\ pos f 1%Z = Vec (1 / 2) 0 0 /\ vel f 0%Z = Vec (1 / 2) 0 0 /\ vel f 1%Z = Vec (- (1 / 2)) 0 0) /\
  (exists f b, threads_stream (Dumbbells 1) 2 1 2 [0]%Z (at_rest, vel at_rest) = Ok (f, b) /\
    pos f 0%Z = Vec 1 0 0 /\ pos f 1%Z = Vec 0 0 0) /\
  (exists f b, threads_stream (Rods 1 7) 2 3 1 [0]%Z (at_rest, vel at_rest) = Ok (f, b) /\
    pos f 0%Z = Vec 0 0 0 /\ pos f 1%Z = Vec 1 0 0 /\ vel f 1%Z = Vec 0 0 0).
Proof.
  split; [|split].
  - eexists. eexists. split; [reflexivity|].
    cbn. unfold assign, vverlet1, vverlet2, verlet1, verlet2. cbn. repeat split; f_equal; lra.
  - eexists. eexists. split; [reflexivity|].
    cbn. unfold assign, vverlet1, vverlet2, verlet1, verlet2. cbn. repeat split; f_equal; lra.
  - cbn [threads_stream thread_streams Z.mul Z.leb Z.compare Pos.compare Pos.compare_cont repeated rod_step at_rest Z.add Z.eqb Pos.add Pos.eqb].
    replace (vsub (Vec 1 0 0) (Vec 0 0 0)) with (Vec 1 0 0) by (unfold vsub; cbn; f_equal; ring).
    rewrite unit_mag. destruct (Req_EM_T 1 0); [lra|].
    assert (A : forall v, vscale (7 * (1 - 1 / 1)) v = zero3) by (intros v; unfold vscale, zero3; cbn; f_equal; field).
    assert (N : vneg zero3 = zero3) by (unfold vneg, zero3; cbn; f_equal; ring).
    assert (P : forall v, vverlet1 v (Vec 0 0 0) zero3 3 = v) by (intros [x y z]; unfold vverlet1, verlet1, zero3; cbn; f_equal; ring).
    rewrite !A, N. unfold assign. cbn [Z.eqb Pos.eqb]. rewrite !P.
    replace (vsub (Vec 1 0 0) (Vec 0 0 0)) with (Vec 1 0 0) by (unfold vsub; cbn; f_equal; ring).
    rewrite unit_mag. destruct (Req_EM_T 1 0); [lra|]. rewrite !A, N. cbn [bind].
    eexists. eexists. split; [reflexivity|]. cbn. unfold vverlet2, verlet2, zero3. cbn. repeat split. f_equal; ring.
Qed.
Lemma exact_conserves m omega k t units f : omega <> 0 -> omega * omega = 2 * k -> every_unit m units ->
  let f' := threads_stream_exactly (2 * m) t omega units f in
  (forall u, (0 <= u < m)%Z ->
    total (vel f') (members 2 u) = total (vel f) (members 2 u) /\
    total (pos f') (members 2 u) = plus3 (total (pos f) (members 2 u)) (times3 t (total (vel f) (members 2 u))) /\
    spring_energy k f' (2 * u) = spring_energy k f (2 * u)) /\
  (forall i, ~ (0 <= i < 2 * m)%Z -> pos f' i = pos f i /\ vel f' i = vel f i).
Proof.
  intros Hw Hk Hu f'. destruct (exact_is m omega Hw t units f Hu) as [A B]. split; [|exact B]. intros u X.
  specialize (A u X). fold f' in A. rewrite same_unit_iff in A. destruct A as (A1 & A2 & A3 & A4).
  destruct (exact_totals omega Hw t u f) as [T1 T2]. rewrite <- (exact_energy omega k Hw Hk t u f), <- T2, <- T1.
  unfold total, members, spring_energy. change (zrange 2) with [0; 1]%Z. cbn [map vsum]. rewrite !Z.add_0_r, A1, A2, A3, A4. auto.
Qed.
Lemma exact_is_group m omega t1 t2 units1 units2 units f : omega <> 0 ->
  every_unit m units1 -> every_unit m units2 -> every_unit m units ->
  threads_stream_exactly (2 * m) t2 omega units2 (threads_stream_exactly (2 * m) t1 omega units1 f) =
    threads_stream_exactly (2 * m) (t1 + t2) omega units f /\
  threads_stream_exactly (2 * m) 0 omega units f = f.
Proof.
  intros Hw H1 H2 H. split.
  - apply (pairwise m).
    + intros u X. destruct (exact_is m omega Hw t1 units1 f H1) as [A _].
      destruct (exact_is m omega Hw t2 units2 (threads_stream_exactly (2 * m) t1 omega units1 f) H2) as [B _].
      destruct (exact_is m omega Hw (t1 + t2) units f H) as [C _].
      eapply agree_trans; [apply B, X|]. eapply agree_trans; [apply exactly_local, A, X; exact Hw|].
      eapply agree_trans; [apply exact_group, Hw|]. apply agree_sym, C, X.
    + intros i X. destruct (exact_is m omega Hw t1 units1 f H1) as [_ A].
      destruct (exact_is m omega Hw t2 units2 (threads_stream_exactly (2 * m) t1 omega units1 f) H2) as [_ B].
      destruct (exact_is m omega Hw (t1 + t2) units f H) as [_ C].
      destruct (A i X) as [A1 A2], (B i X) as [B1 B2], (C i X) as [C1 C2]. rewrite B1, B2, A1, A2, C1, C2. auto.
  - apply (pairwise m).
    + intros u X. destruct (exact_is m omega Hw 0 units f H) as [A _]. eapply agree_trans; [apply A, X|apply exact_zero, Hw].
    + apply (exact_is m omega Hw 0 units f H).
Qed.
Lemma exact_moves m omega k units f u : omega <> 0 -> omega * omega = 2 * k -> every_unit m units ->
  (0 <= u < m)%Z -> spring_motion k (fun t => threads_stream_exactly (2 * m) t omega units f) (2 * u).
Proof.
  intros Hw Hk Hu X. apply (exact_motion omega k Hw Hk _ f). intros t. apply (exact_is m omega Hw t units f Hu), X.
Qed.
Lemma half_period :
  pos (threads_stream_exactly 2 PI 1 [0]%Z at_rest) 0%Z = Vec 1 0 0 /\
  pos (threads_stream_exactly 2 PI 1 [0]%Z at_rest) 1%Z = Vec 0 0 0 /\
  spring_energy (1 / 2) at_rest 0 = 1 / 4.
Proof.
  unfold threads_stream_exactly, thread_streams_exactly. cbn [fold_left]. change (Z.leb 2 (2 * 0)) with false. cbv iota.
  rewrite Rmult_1_l, cos_PI, sin_PI. unfold dumbbell_exactly, spring_energy, at_rest, assign, vadd, vsub, vscale, vdivs, dot3, minus3. cbn.
  split; [f_equal; field|split; [f_equal; field|field]].
Qed.
