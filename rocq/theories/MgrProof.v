(** Proofs about the data manager. *)
From Coq Require Import List ZArith String Ascii Bool Lia.
From Verif Require Import PyBase StrBase DictBase FsBase ConfModel RunsModel RunsSpec RunsStateProof RunsNodesProof MgrModel MgrSpec.
Import ListNotations.
Open Scope string_scope.
Open Scope nat_scope.
Open Scope list_scope.

Lemma selected_iff {A} (P Q : A -> Prop) l l' : (forall a, In a l -> P a <-> Q a) -> selected P l l' -> selected Q l l'.
Proof.
  intros E H. induction H as [|a l l' p H IH|a l l' p H IH].
  - constructor.
  - constructor; [apply E; [now left|exact p]|]. apply IH. intros b I. apply E. now right.
  - constructor; [intros q; apply p; apply E; [now left|exact q]|]. apply IH. intros b I. apply E. now right.
Qed.
Lemma selected_filter {A} (f : A -> bool) l : selected (fun a => f a = true) l (filter f l).
Proof.
  induction l as [|a l IH]; cbn; [constructor|]. destruct (f a) eqn:E; constructor; auto. congruence.
Qed.
Lemma selected_fun {A} (P : A -> Prop) l l1 : selected P l l1 -> forall l2, selected P l l2 -> l1 = l2.
Proof.
  induction 1 as [|a l l1 p H IH|a l l1 p H IH]; intros l2 K; inversion K; subst; try contradiction; auto.
  f_equal. auto.
Qed.
Lemma selected_snoc {A} (P : A -> Prop) l l' a : selected P l l' -> (P a -> selected P (l ++ [a]) (l' ++ [a])) /\ (~ P a -> selected P (l ++ [a]) l').
Proof.
  induction 1 as [|b l l' p H IH|b l l' p H IH]; cbn.
  - split; intros K; constructor; auto; constructor.
  - destruct IH as [I J]. split; intros K; constructor; auto.
  - destruct IH as [I J]. split; intros K; apply SelSkip; auto.
Qed.
Lemma selected_in {A} (P : A -> Prop) l l' a : selected P l l' -> In a l' <-> In a l /\ P a.
Proof.
  induction 1 as [|b l l' p H IH|b l l' p H IH]; cbn; [tauto| |]; rewrite IH; split.
  - intros [->|[I p2]]; auto.
  - intros [[->|I] p2]; auto.
  - intros [I p2]; auto.
  - intros [[->|I] p2]; [contradiction|auto].
Qed.

Section Groups.
Context {K V : Type} (eqb : K -> K -> bool).
Hypothesis eqb_spec : forall a b, eqb a b = true <-> a = b.
Lemma dappend_get (d : list (K * list V)) k v k2 : dget eqb (dappend eqb d k v) k2 =
  if eqb k2 k then Some (match dget eqb d k with Some l => l ++ [v] | None => [v] end) else dget eqb d k2.
Proof.
  unfold dappend. destruct (dget eqb d k) as [l|] eqn:E.
  - rewrite E. apply dget_dset, eqb_spec.
  - rewrite dget_dset_same by apply eqb_spec. rewrite (dget_dset _ eqb_spec). destruct (eqb k2 k) eqn:E2; [reflexivity|].
    rewrite (dget_dset _ eqb_spec), E2. reflexivity.
Qed.
Lemma dappend_nodup (d : list (K * list V)) k v : NoDup (dkeys d) -> NoDup (dkeys (dappend eqb d k v)).
Proof.
  intros N. unfold dappend. destruct (dget eqb d k) as [l|] eqn:E.
  - rewrite E. apply dset_nodup; auto.
  - rewrite dget_dset_same by apply eqb_spec. apply dset_nodup; [exact eqb_spec|]. apply dset_nodup; auto.
Qed.
(** A dictionary that groups elements by a key. *)
Definition grouped {A} (key : A -> K) (val : A -> V) (l : list A) (d : list (K * list V)) : Prop :=
  NoDup (dkeys d) /\ forall k, dget eqb d k = match filter (fun a => eqb (key a) k) l with [] => None | l' => Some (map val l') end.
Lemma grouped_snoc {A} (key : A -> K) (val : A -> V) l d a : grouped key val l d -> grouped key val (l ++ [a]) (dappend eqb d (key a) (val a)).
Proof.
  intros [N D]. split; [apply dappend_nodup, N|]. intros k. rewrite dappend_get, filter_app. cbn.
  rewrite (DictBase.eqb_sym _ eqb_spec (key a) k). destruct (eqb k (key a)) eqn:E.
  - apply eqb_spec in E. subst k. rewrite D. destruct (filter (fun b => eqb (key b) (key a)) l) as [|b l2]; cbn; [reflexivity|].
    rewrite map_app. reflexivity.
  - rewrite app_nil_r. apply D.
Qed.
Lemma grouped_all {A} (key : A -> K) (val : A -> V) l : forall l0 d, grouped key val l0 d ->
  grouped key val (l0 ++ l) (fold_left (fun d a => dappend eqb d (key a) (val a)) l d).
Proof.
  induction l as [|a l IH]; intros l0 d H; cbn; [rewrite app_nil_r; exact H|].
  change (a :: l) with ([a] ++ l). rewrite app_assoc. apply IH, grouped_snoc, H.
Qed.
Lemma grouped_nil {A} (key : A -> K) (val : A -> V) : grouped key val [] [].
Proof. split; [constructor|reflexivity]. Qed.
End Groups.

Section Init.
Context {B G : Type}.
Variables (expanduser : string -> string) (glob : string -> list string).

Lemma fold_snoc {A} (l acc : list A) : fold_left (fun acc x => acc ++ [x]) l acc = acc ++ l.
Proof.
  revert acc. induction l as [|a l IH]; intros acc; cbn; [rewrite app_nil_r; reflexivity|]. rewrite IH, <- app_assoc. reflexivity.
Qed.
Lemma fold_matches ps : forall acc, exists l, matches glob ps l /\ fold_left (fun acc path => acc ++ glob path) ps acc = acc ++ l.
Proof.
  induction ps as [|p ps IH]; intros acc; cbn.
  - exists []. split; [constructor|rewrite app_nil_r; reflexivity].
  - destruct (IH (acc ++ glob p)) as (l & M & E). exists (glob p ++ l). split; [constructor; exact M|]. rewrite E, app_assoc. reflexivity.
Qed.
Lemma expand_total specs : exists l, expand_nodes specs = Ok l.
Proof.
  induction specs as [|s r (l & E)]; [exists []; reflexivity|]. cbn [expand_nodes].
  destruct (nodelist_ok (nd_name s)) as (ns & ->). cbn [bind]. rewrite E. cbn [bind]. eauto.
Qed.
Lemma init_inv (c : mconfig B G) dp m : init expanduser glob (Ok c) dp = Ok m ->
  exists paths l, (dp = Some paths \/ dp = None /\ mc_paths c = Some paths) /\ matches glob (map expanduser paths) l /\
    m_rundirs m = l /\ m_runs m = None /\ m_project m = None /\
    m_projects m = match mc_projects c with Some ps => ps | None => [] end /\
    m_translators m = pathTranslatorsServerToLocal (match mc_translators c with Some ts => ts | None => [] end) /\
    match mc_cluster c with None => m_cluster m = None | Some specs => exists ns, expand_nodes specs = Ok ns /\ m_cluster m = Some ns end.
Proof.
  unfold init. cbn [bind]. intros H.
  assert (P : exists paths, (dp = Some paths \/ dp = None /\ mc_paths c = Some paths) /\
    match dp with None => match mc_paths c with Some l => Ok l | None => Err KeyError end | Some l => Ok l end = Ok paths).
  { destruct dp as [l|]; [exists l; auto|]. destruct (mc_paths c) as [l|]; [exists l; auto|discriminate]. }
  destruct P as (paths & P & E). rewrite E in H. cbn [bind] in H.
  rewrite fold_snoc in H. destruct (fold_matches (map expanduser paths) []) as (l & M & EL). rewrite EL in H. cbn [app] in H.
  exists paths, l.
  destruct (mc_cluster c) as [specs|].
  - destruct (expand_total specs) as (ns & EN). rewrite EN in H. cbn in H. injection H as <-. cbn. split; [exact P|]. repeat split; auto.
    exists ns. split; [exact EN|reflexivity].
  - cbn in H. injection H as <-. cbn. split; [exact P|]. repeat split; auto.
Qed.
Lemma init_ok (c : mconfig B G) dp : dp <> None \/ mc_paths c <> None -> exists m, init expanduser glob (Ok c) dp = Ok m.
Proof.
  intros H. unfold init. cbn [bind].
  assert (P : exists paths, match dp with None => match mc_paths c with Some l => Ok l | None => Err KeyError end | Some l => Ok l end = Ok paths).
  { destruct dp as [l|]; [eauto|]. destruct (mc_paths c) as [l|]; [eauto|]. destruct H as [H|H]; contradiction. }
  destruct P as (paths & ->). cbn [bind].
  destruct (mc_cluster c) as [specs|]; [|cbn; eauto]. destruct (expand_total specs) as (ns & ->). cbn. eauto.
Qed.

Lemma expand_in specs : forall ns, expand_nodes specs = Ok ns -> forall n,
  In n ns <-> exists s l, In s specs /\ parseSlurmNodeList (nd_name s) = Ok l /\ In (nd_name n) l /\ nd_gpus n = nd_gpus s.
Proof.
  induction specs as [|s r IH]; intros ns E n; cbn [expand_nodes] in E.
  - injection E as <-. split; [intros []|]. intros (s & l & [] & _).
  - destruct (parseSlurmNodeList (nd_name s)) as [l|] eqn:P; [|discriminate]. cbn [bind] in E.
    destruct (expand_nodes r) as [ns'|] eqn:R; [|discriminate]. cbn [bind] in E. injection E as <-.
    rewrite in_app_iff, in_map_iff, (IH ns' eq_refl). split.
    + intros [(x & <- & I)|(s' & l' & I & P' & Q)]; [exists s, l; cbn; auto|exists s', l'; cbn; auto].
    + intros (s' & l' & [<-|I] & P' & I' & G'); [left|right; exists s', l'; auto].
      rewrite P in P'. injection P' as <-. exists (nd_name n). split; [|exact I']. destruct n as [a b]. cbn in *. subst. reflexivity.
Qed.
End Init.

Section Batches.
Variables (cwd : path) (F : fs) (ts : list (string -> string)).
Notation tr := (apply_translators ts).

Lemma place_job r : resolve cwd (r ++ "/input/job.slrm")%string = place cwd r ++ ["input"; "job.slrm"].
Proof. refine (place_input cwd r "job.slrm" _). repeat split; discriminate. Qed.
Lemma size_of r n : hasParentRun cwd F r = false -> getJobBatchSize cwd F ts r = Ok n -> job_size cwd F r n.
Proof.
  intros NP. unfold getJobBatchSize. rewrite NP. cbn [bind].
  destruct (read cwd F (r ++ "/input/job.slrm")) as [t|] eqn:E; [|discriminate]. cbn [bind].
  set (k := List.length _). destruct (Nat.eqb k 0); [discriminate|]. intros H. injection H as <-.
  unfold read in E. rewrite place_job in E.
  exists t. split; [destruct (look F (place cwd r ++ ["input"; "job.slrm"])) as [[]|]; [| |]; congruence|].
  exists (filter (starts "srun") (split "010" t)). split; [|reflexivity].
  refine (selected_iff _ _ _ _ _ (selected_filter (starts "srun") _)). intros a _. apply starts_iff.
Qed.
Lemma size_fun r n n' : job_size cwd F r n -> job_size cwd F r n' -> n = n'.
Proof.
  intros (t & L & ls & Se & ->) (t' & L' & ls' & Se' & ->). rewrite L in L'. injection L' as <-.
  rewrite (selected_fun _ _ _ Se _ Se'). reflexivity.
Qed.
Lemma size_ok r n : hasParentRun cwd F r = false -> job_size cwd F r (S n) -> getJobBatchSize cwd F ts r = Ok (S n).
Proof.
  intros NP (t & L & ls & Se & N). unfold getJobBatchSize. rewrite NP. cbn [bind]. unfold read.
  rewrite place_job. rewrite L. cbn [bind].
  assert (E : filter (starts "srun") (split "010" t) = ls).
  { refine (selected_fun _ _ _ _ _ Se). refine (selected_iff _ _ _ _ _ (selected_filter (starts "srun") _)). intros a _. apply starts_iff. }
  rewrite E, <- N. reflexivity.
Qed.
Lemma parent_iff r : hasParentRun cwd F r = false <-> no_parent cwd F r.
Proof. apply flag_false, file_parent. Qed.
Lemma state_once k r st : hasParentRun cwd F r = false -> getState cwd (S k) F ts r = Ok st <-> state_is cwd F tr (place cwd r) st.
Proof.
  intros NP. rewrite <- state_iff. split.
  - intros E. exists (S k). intros f L. apply (state_fun cwd F (S k) f ts r st E L).
  - intros (fuel & H). specialize (H (S fuel) ltac:(lia)). revert H. cbn [getState]. rewrite NP. auto.
Qed.

(** What the runs of a list contribute. *)
Definition clear (r : string) : Prop :=
  has_file F (place cwd r) ["input"; "parent-job-path.txt"] \/
  (exists st, state_is cwd F tr (place cwd r) st /\ (st = Submitted -> exists n, job_size cwd F r (S n))).

Lemma state_unique r st st' : hasParentRun cwd F r = false ->
  state_is cwd F tr (place cwd r) st -> state_is cwd F tr (place cwd r) st' -> st = st'.
Proof.
  intros NP A C. apply (state_once 0 r _ NP) in A. apply (state_once 0 r _ NP) in C. congruence.
Qed.

Definition by_size (n : nat) (runs l : list string) : Prop := selected (fun r => pending cwd F tr r n) runs l.
Definition good (runs : list string) (d : list (nat * list string)) : Prop :=
  NoDup (dkeys d) /\ forall n l, dget Nat.eqb d n = Some l <-> l <> [] /\ by_size n runs l.
Lemma good_nil : good [] [].
Proof.
  split; [constructor|]. intros n l. cbn. split; [discriminate|]. intros [N H]. inversion H. subst. contradiction.
Qed.
Lemma good_skip runs d r : good runs d -> (forall n, ~ pending cwd F tr r n) -> good (runs ++ [r]) d.
Proof.
  intros [N D] P. split; [exact N|]. intros n l. rewrite D. unfold by_size. split; intros [A C]; split; auto.
  - apply (selected_snoc _ _ _ r C). apply P.
  - assert (Q : exists l0, selected (fun r => pending cwd F tr r n) runs l0).
    { clear - C P. revert l C. induction runs as [|a runs IH]; intros l C; [exists []; constructor|]. cbn in C. inversion C; subst.
      - destruct (IH _ H3) as (l0 & S0). eexists. apply SelKeep; eauto.
      - destruct (IH _ H3) as (l0 & S0). eexists. apply SelSkip; eauto. }
    destruct Q as (l0 & S0). pose proof (proj2 (selected_snoc _ _ _ r S0) (P n)) as S1.
    rewrite (selected_fun _ _ _ C _ S1). exact S0.
Qed.
Lemma selected_pre {A} (P : A -> Prop) l a l' : selected P (l ++ [a]) l' -> exists l0, selected P l l0.
Proof.
  revert l'. induction l as [|b l IH]; intros l' C; [exists []; constructor|]. cbn in C. inversion C; subst.
  - destruct (IH _ H3) as (l0 & S0). eexists. apply SelKeep; eauto.
  - destruct (IH _ H3) as (l0 & S0). eexists. apply SelSkip; eauto.
Qed.
Lemma good_add runs d r n : good runs d -> pending cwd F tr r n -> (forall n', pending cwd F tr r n' -> n' = n) ->
  (exists l0, by_size n runs l0) ->
  good (runs ++ [r]) (dappend Nat.eqb d n r).
Proof.
  intros [N D] P U (l0 & S0). split; [apply (dappend_nodup Nat.eqb Nat.eqb_eq), N|]. intros k l.
  rewrite (dappend_get Nat.eqb Nat.eqb_eq). destruct (Nat.eqb k n) eqn:E.
  - apply Nat.eqb_eq in E. subst k.
    assert (Q : match dget Nat.eqb d n with Some l => l ++ [r] | None => [r] end = l0 ++ [r]).
    { destruct (dget Nat.eqb d n) as [l1|] eqn:G1.
      - apply D in G1. destruct G1 as [_ S1]. rewrite (selected_fun _ _ _ S1 _ S0). reflexivity.
      - destruct l0 as [|x l0]; [reflexivity|]. exfalso. enough (H : dget Nat.eqb d n = Some (x :: l0)) by congruence.
        apply D. split; [discriminate|exact S0]. }
    rewrite Q. pose proof (proj1 (selected_snoc _ _ _ r S0) P) as S1. split.
    + intros H. injection H as <-. split; [destruct l0; discriminate|exact S1].
    + intros [_ S2]. f_equal. apply (selected_fun _ _ _ S1 _ S2).
  - assert (NP : ~ pending cwd F tr r k) by (intros X; apply U in X; subst; rewrite Nat.eqb_refl in E; discriminate).
    rewrite D. unfold by_size. split; intros [A C]; split; auto.
    + apply (selected_snoc _ _ _ r C). exact NP.
    + destruct (selected_pre _ _ _ _ C) as (l1 & S1). pose proof (proj2 (selected_snoc _ _ _ r S1) NP) as S2.
      rewrite (selected_fun _ _ _ C _ S2). exact S1.
Qed.

Lemma pending_dec runs n : (forall r, In r runs -> (exists n, pending cwd F tr r n) \/ forall n, ~ pending cwd F tr r n) ->
  exists l, by_size n runs l.
Proof.
  intros H. induction runs as [|r runs IH]; [exists []; constructor|].
  destruct IH as (l & S0); [intros x I; apply H; now right|].
  destruct (H r (or_introl eq_refl)) as [(k & P)|NP].
  - destruct (Nat.eq_dec k n) as [->|NE]; [exists (r :: l); constructor; auto|].
    exists l. apply SelSkip; auto. intros (A & _ & J). destruct P as (_ & _ & J'). apply NE, (size_fun _ _ _ J' J).
  - exists l. apply SelSkip; auto.
Qed.

Lemma collect_ok k runs : (forall r, In r runs -> clear r) -> forall done d, (forall r, In r done -> (exists n, pending cwd F tr r n) \/ forall n, ~ pending cwd F tr r n) ->
  good done d -> exists d', collect_batches (S k) cwd F ts runs d = Ok d' /\ good (done ++ runs) d'.
Proof.
  induction runs as [|r runs IH]; intros C done d DD GD; cbn [collect_batches].
  - exists d. rewrite app_nil_r. auto.
  - assert (SN : done ++ r :: runs = (done ++ [r]) ++ runs) by (rewrite <- app_assoc; reflexivity).
    assert (DN : ((exists n, pending cwd F tr r n) \/ forall n, ~ pending cwd F tr r n) -> forall x, In x (done ++ [r]) ->
       (exists n, pending cwd F tr x n) \/ forall n, ~ pending cwd F tr x n).
    { intros X x I. apply in_app_iff in I. destruct I as [I|[<-|[]]]; auto. }
    assert (CR : forall x, In x runs -> clear x) by (intros x I; apply C; now right).
    destruct (hasParentRun cwd F r) eqn:HP.
    { assert (NP : forall n, ~ pending cwd F tr r n).
      { intros n (A & _). apply A. apply file_parent, HP. }
      rewrite SN. apply IH; auto. apply good_skip; auto. }
    destruct (C r (or_introl eq_refl)) as [HF|(st & ST & SB)].
    { apply file_parent in HF. rewrite HF in HP. discriminate. }
    rewrite (proj2 (state_once k r st HP) ST). cbn [bind].
    destruct (is_submitted st) eqn:IS; cbn [negb].
    + destruct st; try discriminate. destruct (SB eq_refl) as (n & J). rewrite (size_ok r n HP J). cbn [bind].
      assert (P : pending cwd F tr r (S n)) by (split; [apply parent_iff, HP|auto]).
      rewrite SN. apply IH; auto; [apply DN; left; exists (S n); exact P|].
      apply good_add; auto.
      * intros n' (_ & _ & J'). apply (size_fun r _ _ J' J).
      * apply pending_dec, DD.
    + assert (NP : forall n, ~ pending cwd F tr r n).
      { intros n (_ & A & _). rewrite (state_unique r _ _ HP ST A) in IS. discriminate. }
      rewrite SN. apply IH; auto. apply good_skip; auto.
Qed.
Lemma collect_clear k runs : forall d d', collect_batches (S k) cwd F ts runs d = Ok d' -> forall r, In r runs -> clear r.
Proof.
  induction runs as [|r runs IH]; intros d d' E x I; [destruct I|]. cbn [collect_batches] in E.
  destruct (hasParentRun cwd F r) eqn:HP.
  { destruct I as [<-|I]; [left; apply file_parent, HP|eapply IH; eauto]. }
  destruct (getState cwd (S k) F ts r) as [st|] eqn:ST; [|discriminate]. cbn [bind] in E.
  apply (state_once k r st HP) in ST.
  destruct (is_submitted st) eqn:IS; cbn [negb] in E.
  - destruct (getJobBatchSize cwd F ts r) as [n|] eqn:J; [|discriminate]. cbn [bind] in E.
    destruct I as [<-|I]; [right; exists st; split; [exact ST|]; intros _|eapply IH; eauto].
    pose proof (size_of r n HP J) as JS. unfold getJobBatchSize in J. rewrite HP in J. cbn [bind] in J.
    destruct (read cwd F (r ++ "/input/job.slrm")); [|discriminate]. cbn [bind] in J.
    destruct (Nat.eqb _ 0) eqn:Z; [discriminate|]. injection J as E1. destruct n as [|n]; [|exists n; exact JS].
    apply Nat.eqb_neq in Z. contradiction.
  - destruct I as [<-|I]; [right; exists st; split; [exact ST|]; intros ->; discriminate|eapply IH; eauto].
Qed.
End Batches.

Section Projects.
Context {B G : Type}.
Lemma find_spec (ps : list (project B G)) name i p : find_project ps name = Some (i, p) <->
  nth_error ps i = Some p /\ pj_name p = name /\ forall j q, j < i -> nth_error ps j = Some q -> pj_name q <> name.
Proof.
  revert i p. induction ps as [|q ps IH]; intros i p; cbn.
  - split; [discriminate|]. intros [E _]. destruct i; discriminate.
  - destruct (String.eqb (pj_name q) name) eqn:E.
    + apply String.eqb_eq in E. split.
      * intros H. injection H as <- <-. repeat split; auto. intros j q' L. lia.
      * intros (N & M & A). destruct i as [|i]; [cbn in N; injection N as <-; reflexivity|].
        exfalso. apply (A 0 q); [lia|reflexivity|exact E].
    + apply String.eqb_neq in E. split.
      * destruct (find_project ps name) as [[k q']|] eqn:H; [|discriminate]. intros X. injection X as <- <-.
        destruct (proj1 (IH k q') eq_refl) as (N & M & A). repeat split; auto. intros j q2 L N2.
        destruct j as [|j]; cbn in N2; [injection N2 as <-; exact E|]. apply (A j q2); [lia|exact N2].
      * intros (N & M & A). destruct i as [|i]; cbn in N; [injection N as <-; contradiction|].
        assert (H : find_project ps name = Some (i, p)).
        { apply IH. repeat split; auto. intros j q2 L N2. apply (A (S j) q2); [lia|exact N2]. }
        rewrite H. reflexivity.
Qed.
Lemma find_none (ps : list (project B G)) name : find_project ps name = None <-> forall p, In p ps -> pj_name p <> name.
Proof.
  induction ps as [|q ps IH]; cbn; [split; [intros _ p []|reflexivity]|].
  destruct (String.eqb (pj_name q) name) eqn:E.
  - apply String.eqb_eq in E. split; [discriminate|]. intros H. exfalso. apply (H q); auto.
  - apply String.eqb_neq in E. destruct (find_project ps name) as [[k q']|] eqn:H.
    + split; [discriminate|]. intros X. assert (Y : Some (k, q') = None) by (apply IH; intros p I; apply X; now right). discriminate.
    + split; [|reflexivity]. intros _ p [<-|I]; [exact E|]. apply IH; auto.
Qed.
Lemma set_nth_nth {A} (l : list A) i x y : nth_error l i = Some y -> nth_error (set_nth l i x) i = Some x.
Proof. revert i. induction l as [|a l IH]; intros [|i]; cbn; try discriminate; auto. Qed.
Lemma set_nth_other {A} (l : list A) i x j : j <> i -> nth_error (set_nth l i x) j = nth_error l j.
Proof.
  revert i j. induction l as [|a l IH]; intros [|i] [|j] H; cbn; auto; try lia.
Qed.
Lemma set_nth_same {A} (l : list A) i x : nth_error l i = Some x -> set_nth l i x = l.
Proof. revert i. induction l as [|a l IH]; intros [|i]; cbn; try discriminate; intros E; [congruence|]. f_equal. auto. Qed.
Lemma set_nth_twice {A} (l : list A) i x y : set_nth (set_nth l i x) i y = set_nth l i y.
Proof. revert i. induction l as [|a l IH]; intros [|i]; cbn; try reflexivity. f_equal. auto. Qed.
End Projects.

Lemma substring_all s : substring 0 (String.length s) s = s.
Proof. induction s as [|a s IH]; cbn; [reflexivity|]. f_equal. exact IH. Qed.
Lemma substring_tail a r : substring (String.length a) (String.length (a ++ r) - String.length a) (a ++ r)%string = r.
Proof.
  induction a as [|x a IH]; cbn [String.append String.length substring].
  - rewrite Nat.sub_0_r. apply substring_all.
  - exact IH.
Qed.
