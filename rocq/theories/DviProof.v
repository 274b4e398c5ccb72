(** Lemmas about interactions in device memory. *)
From Coq Require Import List ZArith Bool Lia Sorted.
From Verif Require Import PotModel StarModel StarSpec StarMdProof CuModel ResModel ResProof DviModel DviSpec.
Import ListNotations.
Open Scope Z_scope.

Lemma filter_filter {A} (f g : A -> bool) l : filter f (filter g l) = filter (fun x => g x && f x) l.
Proof. induction l as [|a l IH]; cbn; [reflexivity|]. destruct (g a); cbn; [destruct (f a)|]; now rewrite ?IH. Qed.
Lemma without_cons {A} a l (o : list (Z * A)) : without (a :: l) o = without l (filter (fun x => negb (fst x =? a)) o).
Proof.
  unfold without. rewrite filter_filter. apply filter_ext. intros [b x]. cbn [existsb fst]. now rewrite negb_orb.
Qed.
Lemma without_nil {A} (o : list (Z * A)) : without [] o = o.
Proof. unfold without. cbn. induction o; cbn; congruence. Qed.
Lemma filter_none {A} a (o : list (Z * A)) : ~ In a (map fst o) -> filter (fun x => negb (fst x =? a)) o = o.
Proof.
  induction o as [|[b x] o IH]; cbn; intros N; [reflexivity|]. destruct (Z.eqb_spec b a); [exfalso; tauto|]. cbn. f_equal. apply IH. tauto.
Qed.
Lemma without_app {A} (n o : list (Z * A)) l : NoDup l -> map fst n = l \/ (forall a, In a (map fst n) -> In a l) ->
  (forall a, In a l -> ~ In a (map fst o)) -> without l (n ++ o) = o.
Proof.
  intros _ S D. assert (S' : forall a, In a (map fst n) -> In a l) by (destruct S as [<- | S]; auto). clear S.
  unfold without. rewrite filter_app.
  assert (E1 : filter (fun x => negb (existsb (Z.eqb (fst x)) l)) n = []).
  { induction n as [|[a x] n IH]; [reflexivity|]. cbn [filter fst]. replace (existsb (Z.eqb a) l) with true; [apply IH; intros b B; apply S'; now right|].
    symmetry. apply existsb_exists. exists a. split; [apply S'; now left|apply Z.eqb_refl]. }
  rewrite E1. cbn [app]. clear E1 S' n.
  induction o as [|[a x] o IH]; [reflexivity|]. cbn [filter fst].
  replace (existsb (Z.eqb a) l) with false; [cbn [negb]; f_equal; apply IH; intros b B C; apply (D b B); now right|].
  symmetry. apply not_true_is_false. intros E. apply existsb_exists in E. destruct E as (b & B & E). apply Z.eqb_eq in E. subst b. apply (D a B). now left.
Qed.

Definition deletes (l : list Z) (d : device) : device := fold_left (fun d a => delete (Some a) d) l d.
Lemma deletes_ok l : forall d, NoDup l -> ~ In 0 l -> (forall a, In a l -> In a (map fst (objects d))) ->
  deletes l d = Device (memory d) (without l (objects d)) (pointers d) (faults d).
Proof.
  induction l as [|a l IH]; intros d N Z0 H.
  - cbn. rewrite without_nil. now destruct d.
  - inversion N; subst. cbn [deletes fold_left]. fold (deletes l (delete (Some a) d)).
    assert (E : delete (Some a) d = Device (memory d) (filter (fun o => negb (fst o =? a)) (objects d)) (pointers d) (faults d)).
    { unfold delete. destruct (Z.eqb_spec a 0) as [->|_]; [exfalso; apply Z0; now left|].
      replace (existsb (fun o => fst o =? a) (objects d)) with true; [reflexivity|]. symmetry. apply existsb_exists.
      specialize (H a (or_introl eq_refl)). apply in_map_iff in H. destruct H as (o & E & I). exists o. split; [exact I|]. now apply Z.eqb_eq. }
    rewrite E, IH; cbn [memory objects pointers faults]; [now rewrite without_cons|assumption|intros I; apply Z0; now right|].
    intros b B. specialize (H b (or_intror B)). apply in_map_iff in H. destruct H as (o & <- & I). apply in_map. apply filter_In. split; [exact I|].
    apply negb_true_iff, Z.eqb_neq. intros E1. rewrite E1 in B. contradiction.
Qed.
Lemma delete_pointers p d : pointers (delete p d) = pointers d.
Proof. unfold delete. destruct p as [a|]; [|reflexivity]. destruct (a =? 0); [reflexivity|]. now destruct (existsb _ _). Qed.
Lemma deletes_pointers l : forall d, pointers (deletes l d) = pointers d.
Proof. induction l as [|a l IH]; intros d; [reflexivity|]. cbn [deletes fold_left]. fold (deletes l (delete (Some a) d)). now rewrite IH, delete_pointers. Qed.

Section Debug.
Variable debug : bool.
Lemma andthen_true a b d d' : a d = (d', true) -> andthen a b d = b d'.
Proof. unfold andthen. now intros ->. Qed.
Lemma check_true h cell d : (debug = true -> exists a, pointers d cell = Some a /\ h a = true) -> check debug h cell d = (d, true).
Proof. unfold check. destruct debug; [|reflexivity]. intros H. destruct (H eq_refl) as (a & -> & ->). reflexivity. Qed.
Lemma delete_at_some cell a d : pointers d cell = Some a -> delete_at cell d = (delete (Some a) d, true).
Proof. unfold delete_at. now intros ->. Qed.
Lemma loop_ok w js : forall l d, map (fun i => pointers d (w + 8 * i)) js = map Some l -> ~ In 0 l ->
  fold_right (fun i rest => andthen (check debug (fun a => negb (a =? 0)) (w + 8 * i)) (andthen (delete_at (w + 8 * i)) rest)) (fun d => (d, true)) js d = (deletes l d, true).
Proof.
  induction js as [|i js IH]; intros [|a l] d H N; try discriminate; [reflexivity|]. cbn [map] in H. injection H as H1 H2. cbn [fold_right].
  rewrite (andthen_true _ _ d d).
  2: { apply check_true. intros _. exists a. split; [exact H1|]. apply negb_true_iff, Z.eqb_neq. intros ->. apply N. now left. }
  rewrite (andthen_true _ _ _ _ (delete_at_some _ a _ H1)).
  cbn [deletes fold_left]. fold (deletes l (delete (Some a) d)). apply IH; [rewrite delete_pointers; exact H2|]. intros I. apply N. now right.
Qed.
Lemma destroy_kernel_ok w f m l d : owns debug w f m l d -> destroyInteractionsOnDevice_kernel debug w f m d = (deletes l d, true).
Proof.
  intros ((_ & W & F & M) & _ & H & _ & N & _ & Z0). unfold destroyInteractionsOnDevice_kernel.
  rewrite (proj2 (Z.eqb_neq w 0)), (proj2 (Z.eqb_neq f 0)), (proj2 (Z.eqb_neq m 0)) by lia. rewrite !orb_false_l, andb_false_r.
  assert (L : length l = 10%nat) by (apply (f_equal (@length _)) in H; rewrite !map_length in H; now symmetry).
  do 10 (destruct l as [|? l]; [discriminate L|]). destruct l; [|discriminate L]. clear L.
  unfold slots in H. cbn [map pairs_of_types bonds_of_types app slot fst snd] in H.
  injection H as H0 H1 H2 H3 H4 H5 H6 H7 H8 H9. unfold slot in *. cbn [fst snd] in *.
  assert (NZ : forall a, In a [z; z0; z1; z2; z3; z4; z5; z6; z7; z8] -> negb (a =? 0) = true).
  { intros a I. apply negb_true_iff, Z.eqb_neq. now intros ->. }
  rewrite (andthen_true _ _ d (deletes [z; z0; z1; z2; z3; z4] d)).
  2: { apply loop_ok; [|intros I; apply N; cbn in *; tauto].
       change (map (fun i => pointers d (w + 8 * i)) [0; 1; 2; 3; 4; 5]) with
         (map (fun tu => pointers d (w + 8 * getParticleTypeCombinationIndex (fst tu) (snd tu))) pairs_of_types).
       cbn [map pairs_of_types fst snd]. now rewrite H0, H1, H2, H3, H4, H5. }
  set (d' := deletes _ d). assert (P : pointers d' = pointers d) by apply deletes_pointers.
  do 3 (rewrite (andthen_true _ _ d' d'); [|apply check_true; intros _; eexists; rewrite P; split; [eassumption|apply NZ; cbn; tauto]]).
  do 3 (rewrite (andthen_true _ _ d' d'); [|apply check_true; intros D; exists 0; rewrite P; split; [apply (Z0 D); unfold bondable; intros [X|X]; discriminate X|reflexivity]]).
  rewrite (andthen_true _ _ _ _ (delete_at_some _ z5 d' (eq_trans (f_equal (fun g => g _) P) H6))).
  assert (P1 : pointers (delete (Some z5) d') = pointers d) by now rewrite delete_pointers.
  rewrite (andthen_true _ _ _ _ (delete_at_some _ z6 _ (eq_trans (f_equal (fun g => g _) P1) H7))).
  assert (P2 : pointers (delete (Some z6) (delete (Some z5) d')) = pointers d) by now rewrite delete_pointers.
  rewrite (andthen_true _ _ _ _ (delete_at_some _ z7 _ (eq_trans (f_equal (fun g => g _) P2) H8))).
  assert (P3 : pointers (delete (Some z7) (delete (Some z6) (delete (Some z5) d'))) = pointers d) by now rewrite delete_pointers.
  now rewrite (delete_at_some _ z8 _ (eq_trans (f_equal (fun g => g _) P3) H9)).
Qed.

Lemma free_ok r p n : In (p, n) (live r) -> 0 < n -> 0 < p ->
  freeMemoryUnregistered debug p r = (Runtime (filter (fun a => negb (fst a =? p)) (live r)) (released r ++ [p]) (invalid r), Done).
Proof.
  intros I N P. unfold freeMemoryUnregistered. rewrite (proj2 (Z.eqb_neq p 0)) by lia. rewrite (device_in r p n I N), andb_false_r.
  unfold cudaFree. rewrite (proj2 (Z.eqb_neq p 0)) by lia. rewrite (proj2 (is_live_in r p)); [reflexivity|]. apply in_map_iff. now exists (p, n).
Qed.
Lemma destroy_ok w f m l d : owns debug w f m l d ->
  destroyInteractionsOnDevice debug w f m d =
    (Device (Runtime (without [w; f; m] (live (memory d))) (released (memory d) ++ [w; f; m]) (invalid (memory d)))
       (without l (objects d)) (pointers d) (faults d), Done).
Proof.
  intros O. unfold destroyInteractionsOnDevice. rewrite (destroy_kernel_ok _ _ _ _ _ O).
  destruct O as ((D & W & F & M) & (IW & IF & IM) & _ & N & N0 & IN & _). rewrite (deletes_ok l d N N0 IN).
  inversion D as [|? ? D1 D']; subst. inversion D' as [|? ? D2 _]; subst.
  cbn [free_all memory]. rewrite (free_ok _ w 48 IW) by lia. cbn [with_memory memory].
  rewrite (free_ok _ f 48); cbn [live]; [|apply keeps_live; [exact IF|intros ->; apply D1; now left]|lia|lia].
  cbn [with_memory memory released invalid].
  rewrite (free_ok _ m 8); cbn [live]; [|apply keeps_live; [apply keeps_live; [exact IM|]|]|lia|lia].
  2: { intros ->. apply D1. right. now left. } 2: { intros ->. apply D2. now left. }
  cbn [with_memory memory released invalid objects pointers faults]. rewrite !without_cons, without_nil, <- !app_assoc. reflexivity.
Qed.

Lemma array_ok n q d : 0 < q -> 0 < n < 10 -> array debug n (Some q) d =
  (unset q (8 * n) (with_memory (Runtime ((q, 8 * n) :: live (memory d)) (released (memory d)) (invalid (memory d))) d), Pointer q).
Proof.
  intros Q N. unfold array, allocateMemoryUnregistered, allocateMemoryInternalUnregistered.
  replace (u64 (u32 n * 8)) with (8 * n) by (unfold u64, u32; rewrite (Z.mod_small n) by lia; rewrite Z.mod_small by lia; lia).
  rewrite (proj2 (Z.eqb_neq (8 * n) 0)) by lia. rewrite (proj2 (Z.eqb_neq q 0)) by lia. now rewrite andb_false_r.
Qed.
Lemma array_fails n d : 0 < n < 10 -> array debug n None d = (with_memory (memory d) d, Thrown MemoryManagementException).
Proof.
  intros N. unfold array, allocateMemoryUnregistered, allocateMemoryInternalUnregistered.
  replace (u64 (u32 n * 8)) with (8 * n) by (unfold u64, u32; rewrite (Z.mod_small n) by lia; rewrite Z.mod_small by lia; lia).
  now rewrite (proj2 (Z.eqb_neq (8 * n) 0)) by lia.
Qed.

Definition ten (new : nat -> Z) : list Z := map new [0; 1; 3; 2; 4; 5; 6; 7; 8; 9]%nat.
Definition things (p : parameters) (new : nat -> Z) : list (Z * potential) :=
  [(new 9%nat, dipoles p); (new 8%nat, mixed_fene p TArm TMagnetic); (new 7%nat, mixed_fene p TArm TArm); (new 6%nat, mixed_fene p TCore TArm);
   (new 5%nat, mixed_wca p TMagnetic TMagnetic); (new 4%nat, mixed_wca p TArm TMagnetic); (new 3%nat, mixed_wca p TArm TArm);
   (new 2%nat, mixed_wca p TCore TMagnetic); (new 1%nat, mixed_wca p TCore TArm); (new 0%nat, mixed_wca p TCore TCore)].
Lemma index_cc : getParticleTypeCombinationIndex TCore TCore = 0. Proof. reflexivity. Qed.
Lemma index_ca : getParticleTypeCombinationIndex TCore TArm = 1. Proof. reflexivity. Qed.
Lemma index_cm : getParticleTypeCombinationIndex TCore TMagnetic = 3. Proof. reflexivity. Qed.
Lemma index_aa : getParticleTypeCombinationIndex TArm TArm = 2. Proof. reflexivity. Qed.
Lemma index_am : getParticleTypeCombinationIndex TArm TMagnetic = 4. Proof. reflexivity. Qed.
Lemma index_mm : getParticleTypeCombinationIndex TMagnetic TMagnetic = 5. Proof. reflexivity. Qed.
Lemma index_sym t u : getParticleTypeCombinationIndex t u = getParticleTypeCombinationIndex u t.
Proof. unfold getParticleTypeCombinationIndex. now rewrite Z.min_comm, Z.max_comm. Qed.

Lemma at_memory cell a x d : memory (construct_at cell a (Some x) d) = memory d. Proof. reflexivity. Qed.
Lemma at_objects cell a x d : objects (construct_at cell a (Some x) d) = (a, x) :: objects d. Proof. reflexivity. Qed.
Lemma at_faults cell a x d : faults (construct_at cell a (Some x) d) = faults d. Proof. reflexivity. Qed.
Lemma at_pointers cell a x d c : pointers (construct_at cell a (Some x) d) c = if c =? cell then Some a else pointers d c. Proof. reflexivity. Qed.
Lemma store_memory cell a d : memory (store cell a d) = memory d. Proof. reflexivity. Qed.
Lemma store_objects cell a d : objects (store cell a d) = objects d. Proof. reflexivity. Qed.
Lemma store_faults cell a d : faults (store cell a d) = faults d. Proof. reflexivity. Qed.
Lemma store_pointers cell a d c : pointers (store cell a d) c = if c =? cell then Some a else pointers d c. Proof. reflexivity. Qed.
Lemma create_ok p answers new d w f m : strengths_nonneg p -> answers 0%nat = Some w -> answers 1%nat = Some f -> answers 2%nat = Some m ->
  arrays_fit (live (memory d)) w f m ->
  exists d', createInteractionsOnDevice debug p answers new d = (d', Created w f m) /\
    memory d' = Runtime ((m, 8) :: (f, 48) :: (w, 48) :: live (memory d)) (released (memory d)) (invalid (memory d)) /\
    objects d' = things p new ++ objects d /\ faults d' = faults d /\
    map (pointers d') (slots w f m) = map Some (ten new) /\
    (forall t u, ~ bondable t u -> pointers d' (slot f (t, u)) = if debug then Some 0 else None) /\
    (forall c, (c < w \/ w + 48 <= c) -> (c < f \/ f + 48 <= c) -> (c < m \/ m + 8 <= c) -> pointers d' c = pointers d c).
Proof.
  intros H A0 A1 A2 ((W & RW) & (F & RF) & (M & RM)).
  destruct (RF w 48 (or_introl eq_refl)) as [NF DF]. destruct (RM f 48 (or_introl eq_refl)) as [NM DM]. destruct (RM w 48 (or_intror (or_introl eq_refl))) as [NM' DM'].
  unfold createInteractionsOnDevice. rewrite A0, A1, A2.
  rewrite (array_ok 6 w d W) by lia. rewrite (array_ok 6 f _ F) by lia. rewrite (array_ok 1 m _ M) by lia.
  unfold createInteractionsOnDevice_kernel.
  rewrite (proj2 (Z.eqb_neq w 0)), (proj2 (Z.eqb_neq f 0)), (proj2 (Z.eqb_neq m 0)) by lia. rewrite !orb_false_l, andb_false_r.
  rewrite !wca_table by exact H. rewrite !fene_table by exact H. rewrite dipoles_eq. cbn [has_fene fst].
  rewrite index_cc, index_ca, index_cm, index_aa, index_am, index_mm.
  eexists. split; [reflexivity|].
  assert (PS : forall (t u : ptype), exists i, getParticleTypeCombinationIndex t u = i /\ 0 <= i < 6 /\ (~ bondable t u -> i = 0 \/ i = 3 \/ i = 5)).
  { intros t u. destruct t, u; eexists; (split; [reflexivity|]); (split; [cbv; split; congruence|]); intros B; try (cbv; tauto); exfalso; apply B; unfold bondable; tauto. }
  set (d3 := unset m (8 * 1) _).
  assert (M3 : memory d3 = Runtime ((m, 8) :: (f, 48) :: (w, 48) :: live (memory d)) (released (memory d)) (invalid (memory d))) by reflexivity.
  assert (O3 : objects d3 = objects d) by reflexivity. assert (F3 : faults d3 = faults d) by reflexivity.
  assert (P3 : forall c, pointers d3 c = if (m <=? c) && (c <? m + 8) then None else if (f <=? c) && (c <? f + 48) then None else
                          if (w <=? c) && (c <? w + 48) then None else pointers d c) by reflexivity.
  clearbody d3.
  split; [|split; [|split; [|split; [|split]]]].
  - destruct debug; rewrite ?at_memory, ?store_memory, ?at_memory; exact M3.
  - destruct debug; rewrite ?at_objects, ?store_objects, ?at_objects, O3; reflexivity.
  - destruct debug; rewrite ?at_faults, ?store_faults, ?at_faults; exact F3.
  - unfold slots, slot; cbn [map pairs_of_types bonds_of_types app fst snd ten]; rewrite index_cc, index_ca, index_cm, index_aa, index_am, index_mm.
    destruct debug; rewrite ?at_pointers, ?store_pointers, ?at_pointers.
    all: repeat match goal with |- context [?a =? ?b] => destruct (Z.eqb_spec a b); [try (exfalso; lia)|try (exfalso; lia)] end; reflexivity.
  - intros t u B; unfold slot; cbn [fst snd]; destruct (PS t u) as (i & -> & R & X); specialize (X B).
    destruct debug; rewrite ?at_pointers, ?store_pointers, ?at_pointers, ?P3.
    all: repeat match goal with
     | |- context [?a =? ?b] => destruct (Z.eqb_spec a b); [try (exfalso; lia)|try (exfalso; lia)]
     | |- context [?a <=? ?b] => destruct (Z.leb_spec a b); [try (exfalso; lia)|try (exfalso; lia)]
     | |- context [?a <? ?b] => destruct (Z.ltb_spec a b); [try (exfalso; lia)|try (exfalso; lia)]
     end; reflexivity.
  - intros c C1 C2 C3.
    destruct debug; rewrite ?at_pointers, ?store_pointers, ?at_pointers, ?P3.
    all: repeat match goal with
     | |- context [?a =? ?b] => destruct (Z.eqb_spec a b); [exfalso; lia|]
     end.
    all: rewrite (proj2 (andb_false_iff (m <=? c) (c <? m + 8))), (proj2 (andb_false_iff (f <=? c) (c <? f + 48))), (proj2 (andb_false_iff (w <=? c) (c <? w + 48)));
         [reflexivity| | |]; rewrite Z.leb_gt, Z.ltb_ge; lia.
Qed.
Lemma allocate_ok size n a s r : sizes_ok size n -> 0 < a -> ~ In a (allocatedBuffers s) ->
  allocateMemory debug size n (Some a) s r =
    (Manager (set_insert a (allocatedBuffers s)) (autofree s), Runtime ((a, size * n) :: live r) (released r) (invalid r), Pointer a).
Proof.
  intros [S N] A I. unfold allocateMemory, allocateMemoryInternal, allocateMemoryInternalUnregistered.
  replace (u64 (u32 n * size)) with (size * n) by (unfold u64, u32; rewrite (Z.mod_small n) by lia; rewrite Z.mod_small by nia; lia).
  rewrite (proj2 (Z.eqb_neq (size * n) 0)) by nia. rewrite (proj2 (Z.eqb_neq a 0)) by lia. rewrite andb_false_r.
  now rewrite (proj2 (set_count_out _ _) I), andb_false_r.
Qed.
Lemma allocate_none size n s r : sizes_ok size n -> allocateMemory debug size n None s r = (s, r, Thrown MemoryManagementException).
Proof.
  intros [S N]. unfold allocateMemory, allocateMemoryInternal, allocateMemoryInternalUnregistered.
  replace (u64 (u32 n * size)) with (size * n) by (unfold u64, u32; rewrite (Z.mod_small n) by lia; rewrite Z.mod_small by nia; lia).
  now rewrite (proj2 (Z.eqb_neq (size * n) 0)) by nia.
Qed.
(** The manager keeps track of all that has been allocated beside [l]. *)
Definition tracks (s : manager) (l : list (Z * Z)) (r : runtime) : Prop :=
  StronglySorted Z.lt (allocatedBuffers s) /\ autofree s = true /\
  exists new, live r = new ++ l /\ (forall a, In a (allocatedBuffers s) <-> In a (map fst new)) /\
    (forall a, In a (allocatedBuffers s) -> 0 < a /\ ~ In a (map fst l)).
Lemma allocate_all_ok size n l : sizes_ok size n -> forall answers s r s' r' b, tracks s l r -> fits (size * n) answers (live r) ->
  allocate_all debug size n answers s r = (s', r', b) ->
  tracks s' l r' /\ released r' = released r /\ invalid r' = invalid r /\ live r' = obtained (size * n) answers (live r) /\
  b = forallb (fun o => match o with Some _ => true | None => false end) answers.
Proof.
  intros Z0. induction answers as [|[a|] answers IH]; intros s r s' r' b T F E.
  - cbn in E. injection E as <- <- <-. repeat split; auto; apply T.
  - cbn [fits] in F. destruct F as [[A R] F]. destruct T as (T1 & T2 & new & T3 & T4 & T5).
    assert (I : ~ In a (map fst (live r))).
    { intros I. apply in_map_iff in I. destruct I as ([q k] & E1 & I). destruct (R q k I) as [X _]. now apply X. }
    assert (I' : ~ In a (allocatedBuffers s)).
    { intros J. apply I. rewrite T3, map_app, in_app_iff. left. now apply T4. }
    cbn [allocate_all] in E. rewrite allocate_ok in E by assumption. apply IH in E; [exact E| |exact F].
    split; [now apply insert_sorted|]. split; [exact T2|]. exists ((a, size * n) :: new). cbn [live allocatedBuffers map fst]. split; [now rewrite T3|]. split.
    + intros q. rewrite insert_in, T4. cbn. split; intros [X|X]; auto.
    + intros q Q. apply insert_in in Q. destruct Q as [->|Q]; [|now apply T5]. split; [exact A|]. intros J. apply I. rewrite T3, map_app, in_app_iff. now right.
  - cbn [allocate_all] in E. rewrite allocate_none in E by assumption. injection E as <- <- <-. repeat split; auto; apply T.
Qed.
Lemma free_fold l : forall r, NoDup l -> (forall p, In p l -> p <> 0 /\ In p (map fst (live r))) ->
  fold_left (fun r p => fst (cudaFree p r)) l r = Runtime (without l (live r)) (released r ++ l) (invalid r).
Proof.
  induction l as [|p l IH]; intros r N H; cbn [fold_left].
  - rewrite app_nil_r, without_nil. now destruct r.
  - inversion N; subst. destruct (H p (or_introl eq_refl)) as [N0 L].
    unfold cudaFree at 2. rewrite (proj2 (Z.eqb_neq p 0) N0), (proj2 (is_live_in r p) L). cbn [fst].
    rewrite IH; cbn [live released invalid]; [now rewrite without_cons, <- app_assoc|assumption|].
    intros q Hq. destruct (H q (or_intror Hq)) as [A B]. split; [exact A|]. apply in_map_iff in B. destruct B as ([q' k] & <- & B). cbn in *.
    apply in_map_iff. exists (q', k). split; [reflexivity|]. apply keeps_live; [exact B|]. congruence.
Qed.
Lemma manager_gone s l r : tracks s l r -> forall extra,
  (forall a, In a (map fst extra) -> ~ In a (allocatedBuffers s)) ->
  forall rel inv, exists rel', fst (manager_delete s (Runtime (extra ++ live r) rel inv)) = Runtime (extra ++ l) rel' inv.
Proof.
  intros (T1 & T2 & new & T3 & T4 & T5) extra X rel inv. unfold manager_delete.
  assert (K : forall o : list (Z * Z), (forall a, In a (map fst o) -> ~ In a (allocatedBuffers s)) -> without (allocatedBuffers s) o = o).
  { intros o O. apply (without_app [] o); [now apply sorted_nodup|right; intros a []|]. intros a A B. exact (O a B A). }
  assert (D : fold_left (fun r p => fst (cudaFree p r)) (allocatedBuffers s) (Runtime (extra ++ live r) rel inv) = Runtime (extra ++ l) (rel ++ allocatedBuffers s) inv).
  { rewrite free_fold; cbn [live released invalid].
    - f_equal. rewrite T3. unfold without. rewrite filter_app. f_equal; [exact (K extra X)|].
      apply (without_app new l); [now apply sorted_nodup|right; intros a A; now apply T4|]. intros a A. now apply T5.
    - now apply sorted_nodup.
    - intros p P. split; [destruct (T5 p P); lia|]. rewrite T3, !map_app, !in_app_iff. right. left. now apply T4. }
  destruct (allocatedBuffers s) as [|a bs] eqn:E.
  - exists rel. cbn. cbn in D. injection D as D _. f_equal. exact D.
  - rewrite T2. cbn [fst]. exists (rel ++ a :: bs). exact D.
Qed.
Lemma tracks_start l r : live r = l -> tracks (setAutofree true manager_new) l r.
Proof. intros E. split; [constructor|]. split; [reflexivity|]. exists []. split; [exact E|]. split; [intros a; reflexivity|intros a []]. Qed.
End Debug.
