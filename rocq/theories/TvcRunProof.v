(** Proofs about the program that computes transverse velocity correlation functions. *)
From Coq Require Import String Ascii List ZArith Bool Reals Lra Lia Sorting.Sorted.
From Verif Require Import PyBase StrBase VecModel VecSpec VecProof VtfModel VtfSpec VtfPyModel FourModel TvcModel TvcSpec TvcTextProof TvcProof.
Import ListNotations.
Open Scope list_scope.
Open Scope R_scope.

(** * Wave vectors *)
Section Group.
Context {A : Type}.
Lemma push_keys k (x : A) : forall m k', In k' (map fst (map_push k x m)) <-> k' = k \/ In k' (map fst m).
Proof.
  induction m as [|[k0 l] m IH]; intros k'; cbn [map_push map fst In]; [intuition congruence|].
  destruct (vltb k k0) eqn:E1; [cbn [map fst In]; intuition congruence|]. destruct (vltb k0 k) eqn:E2; cbn [map fst In]; [rewrite IH; tauto|].
  destruct (vltb_order k k0 k) as (_ & _ & _ & [T|[T|T]] & _); [congruence| |congruence]. subst k0. intuition congruence.
Qed.
Lemma push_sorted k (x : A) : forall m, StronglySorted lex3 (map fst m) -> StronglySorted lex3 (map fst (map_push k x m)).
Proof.
  induction m as [|[k0 l] m IH]; intros H; cbn [map_push map fst]; [repeat constructor|]. cbn [map fst] in H. inversion H as [|? ? S F]. subst.
  destruct (vltb k k0) eqn:E1.
  - cbn [map fst]. apply vltb_lex in E1. constructor; [exact H|]. constructor; [exact E1|]. rewrite Forall_forall in *. intros y Y. apply (lex3_trans k k0 y E1), F, Y.
  - destruct (vltb k0 k) eqn:E2; cbn [map fst]; [|constructor; assumption]. apply vltb_lex in E2. constructor; [apply IH, S|].
    rewrite Forall_forall in *. intros y Y. apply push_keys in Y. destruct Y as [->|Y]; [exact E2|apply F, Y].
Qed.
Lemma push_content k (x : A) : forall m k' l, StronglySorted lex3 (map fst m) ->
  In (k', l) (map_push k x m) <-> (k' <> k /\ In (k', l) m) \/ (k' = k /\ exists l0, l = l0 ++ [x] /\ (In (k, l0) m \/ (l0 = [] /\ ~ In k (map fst m)))).
Proof.
  induction m as [|[k0 l0] m IH]; intros k' l H; cbn [map_push].
  - cbn [In map]. split.
    + intros [E|[]]. injection E as <- <-. right. split; [reflexivity|]. exists []. auto.
    + intros [(_ & [])|(-> & l1 & -> & [[]|(-> & _)])]. left. reflexivity.
  - cbn [map fst] in H. inversion H as [|? ? S F]. subst. rewrite Forall_forall in F.
    assert (irr : forall a, lex3 a a -> False) by (intros a L; exact (lex3_irrefl a L)).
    destruct (vltb k k0) eqn:E1.
    + apply vltb_lex in E1. assert (NI : ~ In k (map fst ((k0, l0) :: m))).
      { cbn [map fst In]. intros [->|Y]; [exact (irr _ E1)|]. exact (irr k (lex3_trans _ _ _ E1 (F _ Y))). }
      split.
      * intros [E|Y]; [injection E as <- <-; right; split; [reflexivity|]; exists []; auto|]. left. split; [|exact Y]. intros ->. apply NI, (in_map fst _ _ Y).
      * intros [(_ & Y)|(-> & l1 & -> & [Y|(-> & _)])]; [right; exact Y|exfalso; apply NI, (in_map fst _ _ Y)|left; reflexivity].
    + destruct (vltb k0 k) eqn:E2.
      * apply vltb_lex in E2. assert (NE : k0 <> k) by (intros ->; exact (irr _ E2)). cbn [In map fst]. rewrite (IH k' l S). split.
        -- intros [E|[(N & Y)|(-> & l1 & -> & [Y|(-> & Y)])]].
           ++ injection E as <- <-. auto.
           ++ auto.
           ++ right. split; [reflexivity|]. exists l1. auto.
           ++ right. split; [reflexivity|]. exists []. split; [reflexivity|]. right. split; [reflexivity|]. tauto.
        -- intros [(N & [Y|Y])|(-> & l1 & -> & [[Y|Y]|(-> & Y)])].
           ++ auto.
           ++ auto.
           ++ injection Y as Y _. contradiction.
           ++ right. right. split; [reflexivity|]. exists l1. auto.
           ++ right. right. split; [reflexivity|]. exists []. split; [reflexivity|]. right. tauto.
      * assert (k0 = k) by (destruct (vltb_order k k0 k) as (_ & _ & _ & [T|[T|T]] & _); congruence). subst k0. cbn [In map fst]. split.
        -- intros [E|Y]; [injection E as <- <-; right; split; [reflexivity|]; exists l0; auto|]. left. split; [|auto]. intros ->. exact (irr k (F _ (in_map fst _ _ Y))).
        -- intros [(N & [Y|Y])|(-> & l1 & -> & [[Y|Y]|(-> & Y)])].
           ++ injection Y as Y _. congruence.
           ++ auto.
           ++ injection Y as <-. auto.
           ++ exfalso. exact (irr k (F _ (in_map fst _ _ Y))).
           ++ exfalso. apply Y. auto.
Qed.
Definition with_vector (k : vec) (l : list (vec * A)) : list A := map snd (filter (fun p => if vec_dec (fst p) k then true else false) l).
Lemma with_vector_nil k l : with_vector k l = [] <-> ~ In k (map fst l).
Proof.
  unfold with_vector. induction l as [|[k0 x] l IH]; cbn [filter map fst In]; [tauto|]. destruct (vec_dec k0 k) as [->|N].
  - cbn [map]. split; [discriminate|]. tauto.
  - rewrite IH. tauto.
Qed.
Lemma group_all : forall l done m,
  StronglySorted lex3 (map fst m) -> (forall k ys, In (k, ys) m <-> ys <> [] /\ ys = with_vector k done) ->
  let m' := fold_left (fun m p => map_push (fst p) (snd p) m) l m in
  StronglySorted lex3 (map fst m') /\ (forall k ys, In (k, ys) m' <-> ys <> [] /\ ys = with_vector k (done ++ l)).
Proof.
  induction l as [|[k0 x] l IH]; intros done m S C; cbn [fold_left fst snd].
  - rewrite app_nil_r. split; assumption.
  - replace (done ++ (k0, x) :: l) with ((done ++ [(k0, x)]) ++ l) by (rewrite <- app_assoc; reflexivity). apply IH; [apply push_sorted, S|].
    intros k ys. rewrite (push_content k0 x m k ys S).
    assert (K : forall k, In k (map fst m) <-> with_vector k done <> []).
    { intros k'. split.
      - intros H. apply in_map_iff in H. destruct H as ([k1 ys1] & <- & H). apply C in H. destruct H as (N & ->). exact N.
      - intros H. apply (in_map fst m (k', with_vector k' done)). apply C. auto. }
    assert (W : with_vector k (done ++ [(k0, x)]) = with_vector k done ++ (if vec_dec k0 k then [x] else [])).
    { unfold with_vector. rewrite filter_app, map_app. f_equal. cbn [filter fst]. destruct (vec_dec k0 k); reflexivity. }
    rewrite W. destruct (vec_dec k0 k) as [<-|N].
    + split.
      * intros [(N & _)|(_ & l0 & -> & H)]; [congruence|]. split; [destruct l0; discriminate|]. f_equal. destruct H as [H|(-> & H)]; [apply C in H; apply H|].
        rewrite K in H. destruct (with_vector k0 done) eqn:E; [reflexivity|]. exfalso. apply H. discriminate.
      * intros (_ & ->). right. split; [reflexivity|]. exists (with_vector k0 done). split; [reflexivity|]. destruct (with_vector k0 done) eqn:E.
        -- right. split; [reflexivity|]. rewrite K. intros H. apply H. exact E.
        -- left. apply C. rewrite E. split; [discriminate|reflexivity].
    + rewrite app_nil_r. rewrite C. split; [intros [(_ & H)|(-> & _)]; [exact H|congruence]|]. intros H. left. split; [congruence|exact H].
Qed.
End Group.

Lemma rows_no_error (data : nat -> list R) (dt : R) : forall n i c, (forall s, (i <= s < i + n)%nat -> (2 <= length (data s))%nat) ->
  snd (write_rows c (map (fun s => (INR s * dt, data s)) (seq i n))) = None.
Proof.
  induction n as [|n IH]; intros i c A; [reflexivity|]. cbn [seq map write_rows]. destruct (Nat.leb_spec (length (data i)) 1); [specialize (A i); lia|].
  specialize (IH (Datatypes.S i) (if Req_EM_T c 0 then sample_mean (data i) else c) ltac:(intros; apply A; lia)).
  destruct (write_rows (if Req_EM_T c 0 then sample_mean (data i) else c) (map (fun s => (INR s * dt, data s)) (seq (Datatypes.S i) n))). exact IH.
Qed.
Section Program.
Variables (F : Type) (value : F -> R) (show : F -> string) (read : string -> option F).
Hypothesis P : prints show read.
Definition saved (r : F * F * F * list (F * (F * F * F * F * F * F))) : string := saveFourierTransformedVelocities F show (fst r) (snd r).
Lemma vectors_loop runs : forall m, wave_vectors_loop F value read (map saved runs) m
  = Ok (fold_left (fun m p => map_push (fst p) (snd p) m) (map (fun r => (vector_of F value (fst r), saved r)) runs) m).
Proof.
  induction runs as [|r runs IH]; intros m; [reflexivity|]. cbn [map wave_vectors_loop fold_left fst snd]. unfold saved at 1.
  rewrite (header_read F value show read P). cbn [bind]. fold (saved r). rewrite IH. reflexivity.
Qed.
Lemma saved_with k runs : with_vector k (map (fun r => (vector_of F value (fst r), saved r)) runs) = map saved (of_vector F value k runs).
Proof.
  unfold with_vector, of_vector. induction runs as [|r runs IH]; [reflexivity|]. cbn [map filter fst]. destruct (vec_dec (vector_of F value (fst r)) k); cbn [map snd]; rewrite IH; reflexivity.
Qed.
Lemma grouped runs : exists ks, StronglySorted lex3 ks /\ (forall k, In k ks <-> exists r, In r runs /\ vector_of F value (fst r) = k)
  /\ getWaveVectorsAndPaths F value read (map saved runs) = Ok (map (fun k => (k, map saved (of_vector F value k runs))) ks).
Proof.
  unfold getWaveVectorsAndPaths. rewrite vectors_loop. set (l := map (fun r => (vector_of F value (fst r), saved r)) runs).
  destruct (group_all l [] []) as (S & C).
  - constructor.
  - intros k ys. cbn [In]. split; [tauto|]. intros (N & ->). apply N. reflexivity.
  - set (m := fold_left (fun m p => map_push (fst p) (snd p) m) l []) in *. cbv zeta in S, C. cbn [app] in C. exists (map fst m). split; [exact S|]. split.
    + intros k. split.
      * intros H. apply in_map_iff in H. destruct H as ([k' ys] & <- & H). cbn [fst]. apply C in H. destruct H as (N & ->).
        assert (In k' (map fst l)) as I.
        { destruct (in_dec vec_dec k' (map fst l)) as [I|I]; [exact I|]. apply with_vector_nil in I. congruence. }
        subst l. rewrite map_map in I. apply in_map_iff in I. destruct I as (r & E & I). exists r. auto.
      * intros (r & I & E). apply (in_map fst m (k, with_vector k l)). apply C. split; [|reflexivity]. rewrite with_vector_nil. intros N. apply N.
        subst l. rewrite map_map. apply in_map_iff. exists r. auto.
    + f_equal. rewrite map_map. rewrite <- (map_id m) at 1. apply map_ext_in. intros [k ys] H. cbn [fst]. apply C in H. destruct H as (_ & ->).
      subst l. rewrite saved_with. reflexivity.
Qed.
Lemma plot_vector box n : plot_wave_vector box n = wave_vector box n.
Proof. destruct box as [[x y] z]. unfold plot_wave_vector, wave_vector. f_equal; unfold Rdiv; ring. Qed.
Lemma wave_vector_zero box n : nonzero_box box -> wave_vector box n = Vec 0 0 0 <-> n = Vec 0 0 0.
Proof.
  destruct box as [[x y] z], n as [a b c]. cbn [nonzero_box]. intros (X & Y & Z'). unfold wave_vector. cbn [vx vy vz].
  apply not_0_IZR in X, Y, Z'. pose proof PI_neq0 as Pi. split.
  - intros E. injection E as A B C.
    assert (G : forall u w, w <> 0 -> 2 * PI * u / w = 0 -> u = 0).
    { intros u w W E. apply (Rmult_eq_reg_l (2 * PI)); [|intros Q; apply Rmult_integral in Q; destruct Q; lra].
      apply (Rmult_eq_reg_r (/ w)); [|apply Rinv_neq_0_compat, W]. unfold Rdiv in E. rewrite E. ring. }
    rewrite (G _ _ X A), (G _ _ Y B), (G _ _ Z' C). reflexivity.
  - intros E. injection E as -> -> ->. f_equal; unfold Rdiv; ring.
Qed.
Lemma run_rows box m dt n runs k : nonzero_box box -> k <> Vec 0 0 0 ->
  writePlotfile F value read (map saved (of_vector F value k runs)) (complex_vector (plot_wave_vector box k)) m dt n
  = write_rows 0 (map (fun s => (INR s * dt, correlated F value box m runs k s)) (seq 0 n)).
Proof.
  intros B N. rewrite plot_vector. unfold writePlotfile, getTVACFFT. unfold saved.
  rewrite (read_files_all F value show read P) by (rewrite wave_vector_zero; assumption). cbn [bind]. f_equal. apply map_ext. intros s. f_equal.
  rewrite stride_data_lag. unfold correlated. f_equal. rewrite map_map. apply map_ext. intros r. rewrite map_map. reflexivity.
Qed.
Lemma plot_all box m T dt runs : 0 < dt -> nonzero_box box -> forall ks,
  (forall k, In k ks -> k <> Vec 0 0 0 /\ mean_of (correlated F value box m runs k 0) <> 0 /\ complete F value box m T dt runs k) ->
  plot_loop F value read box m dt (max_stride T dt) (map (fun k => (k, map saved (of_vector F value k runs))) ks)
  = (map (fun k => (k, map (fun s => let data := correlated F value box m runs k in
                        Row (INR s * dt) (mean_of (data s) / mean_of (data 0%nat)) (mean_of (data s)) (length (data s))) (seq 0 (max_stride T dt)))) ks, None).
Proof.
  intros D B. induction ks as [|k ks IH]; intros H; [reflexivity|]. cbn [map plot_loop]. destruct (H k (or_introl eq_refl)) as (N & M & C).
  rewrite run_rows by assumption. rewrite rows_start by (try assumption; intros s L; apply C, max_stride_spec; assumption).
  rewrite IH by (intros k' I; apply H; right; exact I). reflexivity.
Qed.
Lemma plot_short box m T dt runs : 0 < dt -> nonzero_box box -> forall ks k0, (forall k, In k ks -> k <> Vec 0 0 0) -> StronglySorted lex3 ks ->
  In k0 ks -> ~ complete F value box m T dt runs k0 ->
  let out := plot_loop F value read box m dt (max_stride T dt) (map (fun k => (k, map saved (of_vector F value k runs))) ks) in
  snd out = Some InvalidCallException /\ (forall k, In k (map fst (fst out)) -> ~ lex3 k0 k).
Proof.
  intros D B. induction ks as [|k ks IH]; intros k0 N S I C; [destruct I|]. inversion S as [|? ? S' F']. subst. rewrite Forall_forall in F'. cbn [map plot_loop].
  rewrite run_rows by (try assumption; apply N; left; reflexivity).
  assert (Q : forall n, (forall s, (s < n)%nat -> (2 <= length (correlated F value box m runs k s))%nat) \/ exists s0, (s0 < n)%nat /\ (length (correlated F value box m runs k s0) < 2)%nat /\ forall s, (s < s0)%nat -> (2 <= length (correlated F value box m runs k s))%nat).
  { induction n as [|n IHn]; [left; lia|]. destruct IHn as [A|(s0 & A & A' & A'')]; [|right; exists s0; split; [lia|auto]].
    destruct (le_lt_dec 2 (length (correlated F value box m runs k n))) as [G|G]; [|right; exists n; auto]. left. intros s Ls. destruct (Nat.eq_dec s n) as [->|]; [exact G|apply A; lia]. }
  set (data := correlated F value box m runs k). fold data in Q.
  destruct (Q (max_stride T dt)) as [A|(s0 & A & A' & A'')].
  - assert (k <> k0) as NE. { intros ->. apply C. intros s H. apply A, max_stride_spec; assumption. }
    assert (I' : In k0 ks) by (destruct I; [congruence|assumption]). specialize (IH k0 (fun k' H => N k' (or_intror H)) S' I' C).
    assert (NS : forall c, snd (write_rows c (map (fun s => (INR s * dt, data s)) (seq 0 (max_stride T dt)))) = None).
    { intros c. apply rows_no_error. intros s H. apply A. lia. }
    specialize (NS 0). destruct (write_rows 0 (map (fun s => (INR s * dt, data s)) (seq 0 (max_stride T dt)))) as [rows e]. cbn [snd] in NS. subst e.
    cbv zeta in IH. destruct (plot_loop F value read box m dt (max_stride T dt) (map (fun k1 => (k1, map saved (of_vector F value k1 runs))) ks)) as [tables e].
    cbv zeta. cbn [fst snd map In] in *. destruct IH as (E & G). split; [exact E|]. intros k' [<-|H]; [|apply G, H]. intros Lx. apply (lex3_irrefl k). exact (lex3_trans _ _ _ (F' _ I') Lx).
  - destruct (rows_short data dt (max_stride T dt) 0 0 s0 ltac:(lia) A' ltac:(intros; apply A''; lia)) as (E & _).
    destruct (write_rows 0 (map (fun s => (INR s * dt, data s)) (seq 0 (max_stride T dt)))) as [rows e]. cbn [snd] in E. subst e. cbv zeta. cbn [fst snd map In].
    split; [reflexivity|]. intros k' [<-|[]] Lx. destruct I as [<-|I]; [exact (lex3_irrefl _ Lx)|]. apply (lex3_irrefl k). exact (lex3_trans _ _ _ (F' _ I) Lx).
Qed.
Lemma read_zero m runs : (exists r, In r runs /\ late F value m (snd r) <> []) ->
  read_files F value read (map saved runs) (complex_vector (Vec 0 0 0)) m = Err ZeroDivisionError.
Proof.
  assert (G : forall l, cpp_lines F value read (complex_vector (Vec 0 0 0)) m (map (sample_line F show) l) = match late F value m l with [] => Ok [] | _ => Err ZeroDivisionError end).
  { induction l as [|[t [[[[[a b] c] d] e] f]] l IH]; [reflexivity|]. cbn [map cpp_lines late filter]. unfold cpp_line.
    rewrite (sample_split F value show read P), (casts_show F value show read P). cbn [length map Nat.eqb negb bind]. unfold late in IH. rewrite IH.
    change (time_of F value (t, (a, b, c, d, e, f))) with (value t). destruct (Rlt_dec (value t) m).
    - cbn [bind app]. match goal with |- context [match ?x with _ => _ end] => destruct x; reflexivity end.
    - rewrite cpp_across_zero. reflexivity. }
  induction runs as [|r runs IH]; intros (r0 & I & L); [destruct I|]. cbn [map read_files]. unfold saved at 1, getDataFromFile. rewrite (file_lines F value show read P). cbn [tl].
  rewrite G. destruct (late F value m (snd r)) eqn:E; [|reflexivity]. cbn [bind]. rewrite IH; [reflexivity|]. exists r0. destruct I as [->|I]; [congruence|auto].
Qed.
Lemma plot_zero box m T dt runs : forall ks, StronglySorted lex3 ks -> In (Vec 0 0 0) ks ->
  (exists r, In r runs /\ vector_of F value (fst r) = Vec 0 0 0 /\ late F value m (snd r) <> []) ->
  let out := plot_loop F value read box m dt (max_stride T dt) (map (fun k => (k, map saved (of_vector F value k runs))) ks) in
  snd out <> None /\ (forall k, In k (map fst (fst out)) -> ~ lex3 (Vec 0 0 0) k).
Proof.
  induction ks as [|k ks IH]; intros S I E; [destruct I|]. inversion S as [|? ? S' F']. subst. rewrite Forall_forall in F'. cbn [map plot_loop].
  destruct (vec_dec k (Vec 0 0 0)) as [->|N].
  - rewrite plot_vector. replace (wave_vector box (Vec 0 0 0)) with (Vec 0 0 0) by (destruct box as [[x y] z]; unfold wave_vector; cbn [vx vy vz]; f_equal; unfold Rdiv; ring).
    unfold writePlotfile, getTVACFFT. rewrite read_zero; [cbn [bind fst snd map In]; split; [discriminate|]; intros k [<-|[]]; apply lex3_irrefl|].
    destruct E as (r & A & B & C). exists r. split; [|exact C]. unfold of_vector. apply filter_In. split; [exact A|]. destruct (vec_dec (vector_of F value (fst r)) (Vec 0 0 0)); [reflexivity|contradiction].
  - assert (I' : In (Vec 0 0 0) ks) by (destruct I; [congruence|assumption]). specialize (IH S' I' E). cbv zeta in *.
    assert (LK : ~ lex3 (Vec 0 0 0) k) by (intros Lx; apply (lex3_irrefl k); exact (lex3_trans _ _ _ (F' _ I') Lx)).
    destruct (writePlotfile _ _ _ _ _ _ _ _) as [rows [e|]]; [cbn [fst snd map In]; split; [discriminate|]; intros k' [<-|[]]; exact LK|].
    destruct (plot_loop _ _ _ _ _ _ _ _) as [tables e]. cbn [fst snd map In] in *. destruct IH as (A & G). split; [exact A|]. intros k' [<-|H]; [exact LK|apply G, H].
Qed.
End Program.
