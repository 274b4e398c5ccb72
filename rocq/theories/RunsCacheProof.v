(** Proofs about the status of specifications and about the cache. *)
From Coq Require Import List ZArith String Ascii Bool Lia Arith Permutation.
From Verif Require Import QcBase PyBase StrBase FsBase ConfModel RunsModel RunsSpec RunsProof RunsJobProof RunsStateProof.
Import ListNotations.
Close Scope Qc_scope.
Open Scope string_scope.
Open Scope nat_scope.
Open Scope list_scope.

(** ** Filters and status *)
Lemma passes_forallb fl c : passes fl c = forallb (fun f => f c) fl.
Proof. induction fl as [|f fl IH]; [reflexivity|]. cbn. rewrite IH. destruct (f c); reflexivity. Qed.
Lemma filtered_spec runs fl : getRunsFilteredByConfig runs fl = filter (fun r => forallb (fun f => f (ru_config r)) fl) runs.
Proof. induction runs as [|r t IH]; [reflexivity|]. cbn. rewrite passes_forallb, IH. reflexivity. Qed.
Lemma matching_spec runs c ts : getRunsWithMatchingConfiguration runs c ts = filter (fun r => equiv ts false (ru_config r) c) runs.
Proof. induction runs as [|r t IH]; [reflexivity|]. cbn. rewrite IH. reflexivity. Qed.

Lemma sweeps_spec runs : getNumberOfSweepsByRuns runs = zsum (map ru_sweeps runs).
Proof.
  unfold getNumberOfSweepsByRuns. assert (H : forall s, fold_left (fun s r => (s + ru_sweeps r)%Z) runs s = (s + zsum (map ru_sweeps runs))%Z).
  { induction runs as [|r t IH]; intros s; cbn; [lia|]. rewrite IH. lia. }
  rewrite H. lia.
Qed.
Lemma zsum_app a b : zsum (a ++ b) = (zsum a + zsum b)%Z.
Proof. induction a as [|x a IH]; cbn; [reflexivity|]. rewrite IH. lia. Qed.
Lemma zsum_perm a b : Permutation a b -> zsum a = zsum b.
Proof. induction 1; cbn; lia. Qed.
Lemma zsum_nonneg l : (forall x, In x l -> (0 <= x)%Z) -> (0 <= zsum l)%Z.
Proof. induction l as [|x l IH]; intros H; cbn; [lia|]. pose proof (H x (or_introl eq_refl)). specialize (IH (fun y HY => H y (or_intror HY))). lia. Qed.


Lemma any_pending_spec rs : (forall r, In r rs -> exists s, ru_state r = Ok s) ->
  exists b, any_pending rs = Ok b /\ (b = true <-> exists r, In r rs /\ waiting r).
Proof.
  induction rs as [|r rs IH]; intros H.
  - exists false. split; [reflexivity|]. split; [discriminate|intros (r & [] & _)].
  - destruct (H r (or_introl eq_refl)) as (s & E). destruct (IH (fun x HX => H x (or_intror HX))) as (b & E2 & B).
    cbn [any_pending]. rewrite E. cbn [bind]. destruct s.
    + exists b. split; [exact E2|]. rewrite B. split.
      * intros (x & HX & W). exists x. split; [right; exact HX|exact W].
      * intros (x & [<-|HX] & W); [destruct W; congruence|exists x; auto].
    + exists true. split; [reflexivity|]. split; [intros _|reflexivity]. exists r. split; [left; reflexivity|right; exact E].
    + exists true. split; [reflexivity|]. split; [intros _|reflexivity]. exists r. split; [left; reflexivity|left; exact E].
    + exists b. split; [exact E2|]. rewrite B. split.
      * intros (x & HX & W). exists x. split; [right; exact HX|exact W].
      * intros (x & [<-|HX] & W); [destruct W; congruence|exists x; auto].
Qed.


Lemma status_completed runs ts c target default t : wanted target default = Some t ->
  (getStatus runs ts c target default = Ok SCompleted <-> (t <= done_sweeps runs ts c)%Z).
Proof.
  intros W. unfold getStatus. rewrite matching_spec, sweeps_spec.
  assert (E : (match target with Some t => Ok t | None => match default with Some d => Ok d | None => Err PyException end end) = Ok t).
  { destruct target as [x|]; [injection W as ->; reflexivity|]. destruct default; [injection W as ->; reflexivity|discriminate]. }
  rewrite E. cbn [bind]. fold (done_sweeps runs ts c).
  destruct (Z.leb_spec t (done_sweeps runs ts c)).
  - split; [intros _; lia|reflexivity].
  - split; [|lia]. destruct (any_pending _) as [b|e]; cbn; [destruct b; discriminate|discriminate].
Qed.
Lemma status_pending runs ts c target default t : wanted target default = Some t ->
  (forall r, In r runs -> equiv ts false (ru_config r) c = true -> exists s, ru_state r = Ok s) ->
  (done_sweeps runs ts c < t)%Z ->
  exists s, getStatus runs ts c target default = Ok s /\ s <> SCompleted /\
    (s = SPending <-> exists r, In r runs /\ equiv ts false (ru_config r) c = true /\ waiting r).
Proof.
  intros W H L. unfold getStatus. rewrite matching_spec, sweeps_spec.
  assert (E : (match target with Some t => Ok t | None => match default with Some d => Ok d | None => Err PyException end end) = Ok t).
  { destruct target as [x|]; [injection W as ->; reflexivity|]. destruct default; [injection W as ->; reflexivity|discriminate]. }
  rewrite E. cbn [bind]. fold (done_sweeps runs ts c). destruct (Z.leb_spec t (done_sweeps runs ts c)); [lia|].
  destruct (any_pending_spec (filter (fun r => equiv ts false (ru_config r) c) runs)) as (b & -> & B).
  { intros r HR. apply filter_In in HR. apply H; apply HR. }
  cbn [bind]. eexists. split; [reflexivity|]. split; [destruct b; discriminate|].
  transitivity (b = true); [destruct b; split; congruence|]. rewrite B. split.
  - intros (r & HR & HW). apply filter_In in HR. exists r. tauto.
  - intros (r & HR & HE & HW). exists r. split; [apply filter_In; tauto|exact HW].
Qed.
Lemma status_no_target runs ts c : getStatus runs ts c None None = Err PyException.
Proof. reflexivity. Qed.

Lemma perm_filter {A} (f : A -> bool) l l' : Permutation l l' -> Permutation (filter f l) (filter f l').
Proof.
  induction 1 as [|x l l' P IH|x y l|l l' l'' P1 IH1 P2 IH2]; cbn.
  - constructor.
  - destruct (f x); [constructor|]; exact IH.
  - destruct (f x), (f y); try constructor; apply Permutation_refl.
  - eapply Permutation_trans; eassumption.
Qed.
Lemma status_monotone runs extra runs' ts c target default : Permutation (runs ++ extra) runs' ->
  (forall r, In r extra -> (0 <= ru_sweeps r)%Z) ->
  getStatus runs ts c target default = Ok SCompleted -> getStatus runs' ts c target default = Ok SCompleted.
Proof.
  intros P N H. destruct (wanted target default) as [t|] eqn:W.
  - apply (status_completed _ _ _ _ _ t W) in H. apply (status_completed _ _ _ _ _ t W).
    assert (E : done_sweeps runs' ts c = (done_sweeps runs ts c + done_sweeps extra ts c)%Z).
    { unfold done_sweeps. rewrite <- zsum_app, <- map_app, <- filter_app. apply zsum_perm, Permutation_map, perm_filter, Permutation_sym, P. }
    rewrite E. assert (0 <= done_sweeps extra ts c)%Z; [|lia].
    apply zsum_nonneg. intros x HX. apply in_map_iff in HX. destruct HX as (r & <- & HR). apply filter_In in HR. apply N, HR.
  - destruct target; [discriminate|]. cbn in W. rewrite W in H. discriminate.
Qed.

Lemma group_spec runs ts default specs g : groupByStatus runs ts default specs = Ok g ->
  g = (with_status runs ts default specs SCompleted, with_status runs ts default specs SPending, with_status runs ts default specs SIncomplete) /\
  Permutation specs (fst (fst g) ++ snd (fst g) ++ snd g).
Proof.
  revert g. induction specs as [|s specs IH]; intros g; cbn [groupByStatus].
  - intros E. injection E as <-. split; [reflexivity|constructor].
  - destruct (getStatus runs ts (fst s) (snd s) default) as [st|e] eqn:S; cbn [bind]; [|discriminate].
    destruct (groupByStatus runs ts default specs) as [((c & p) & i)|e] eqn:G; cbn [bind]; [|discriminate].
    destruct (IH _ eq_refl) as (E & P). injection E as -> -> ->. intros X. injection X as <-.
    unfold with_status. cbn [filter]. rewrite S. destruct st; cbn [status_eqb fst snd] in *; (split; [reflexivity|]).
    + cbn. constructor. exact P.
    + eapply Permutation_trans; [constructor; exact P|]. apply Permutation_middle.
    + eapply Permutation_trans; [constructor; exact P|]. rewrite app_assoc, app_assoc. apply Permutation_middle.
Qed.

(** ** The cache *)
Lemma lines_of_line a r : has_char "010" a = false -> lines_of (a ++ nl1 ++ r)%string = (a ++ nl1)%string :: lines_of r.
Proof.
  induction a as [|c a IH]; intros H.
  - reflexivity.
  - cbn [has_char] in H. apply orb_false_iff in H. destruct H as (H1 & H2). cbn [append lines_of]. rewrite H1.
    rewrite (IH H2). reflexivity.
Qed.
Lemma take_word_word k c r : no_space k -> is_space c = true -> take_word (k ++ String c r)%string = (k, String c r).
Proof.
  intros N C. induction k as [|a k IH]; cbn [append take_word].
  - rewrite C. reflexivity.
  - unfold no_space in N. cbn [all_chars] in N. apply andb_true_iff in N. destruct N as (N1 & N2). apply negb_true_iff in N1. rewrite N1.
    rewrite (IH N2). reflexivity.
Qed.
Lemma split_line_ok k v : key_text_ok k -> value_text_ok v -> split_line (k ++ String "009" v ++ nl1)%string = Ok (k, (v ++ nl1)%string).
Proof.
  intros (NK & K) (V & _). unfold split_line.
  assert (L : lstrip (k ++ String "009" v ++ nl1)%string = (k ++ String "009" v ++ nl1)%string).
  { destruct k as [|a k]; [congruence|]. cbn [append lstrip]. unfold no_space in K. cbn [all_chars] in K. apply andb_true_iff in K. destruct K as (K & _).
    apply negb_true_iff in K. rewrite K. reflexivity. }
  rewrite L. change (String "009" v ++ nl1)%string with (String "009" (v ++ nl1)). rewrite take_word_word by (exact K || reflexivity).
  destruct k as [|a k]; [congruence|]. destruct v as [|b v]; [destruct V|].
  cbn [lstrip]. change (is_space "009") with true. cbn [append lstrip]. rewrite V. reflexivity.
Qed.

Section C.
Variable cwd : path.
Variables (M : Type) (dump : M -> string) (load : string -> option M) (meta_eqb : M -> M -> bool).
Variables (K V : Type) (key_eqb : K -> K -> bool).
Variables (str_k : K -> string) (str_v : V -> string).
Variables (keyI : string -> result K) (valueI : string -> result V).
Hypothesis key_eqb_spec : forall a b, key_eqb a b = true <-> a = b.

Notation store := (storeData cwd M dump K V str_k str_v).
Notation has := (hasData cwd M load meta_eqb).
Notation entry_ok' := (entry_ok K V str_k str_v keyI valueI).
Notation get := (getDataOrderedDict cwd M load meta_eqb K V key_eqb keyI valueI).

Lemma no_space_nl s : no_space s -> has_char "010" s = false.
Proof. intros N. apply (@all_chars_has (fun a => negb (is_space a))); [exact N|reflexivity]. Qed.
Lemma dset_new (d : list (K * V)) k v : ~ In k (map fst d) -> dset key_eqb d k v = d ++ [(k, v)].
Proof.
  induction d as [|(k' & v') d IH]; intros N; [reflexivity|]. cbn in N |- *.
  destruct (key_eqb k k') eqn:E; [apply key_eqb_spec in E; subst; exfalso; apply N; left; reflexivity|].
  rewrite IH by tauto. reflexivity.
Qed.
Lemma read_back d : (forall kv, In kv d -> entry_ok' kv) -> forall acc, NoDup (map fst (acc ++ d)) ->
  read_data K V key_eqb keyI valueI (lines_of (data_text K V str_k str_v d)) acc = Ok (acc ++ d).
Proof.
  induction d as [|(k & v) d IH]; intros H acc N.
  - cbn. rewrite app_nil_r. reflexivity.
  - destruct (H (k, v) (or_introl eq_refl)) as (KT & VT & KI & VI). cbn [fst snd] in *.
    cbn [data_text].
    replace (str_k k ++ String "009" (str_v v) ++ nl1 ++ data_text K V str_k str_v d)%string
      with ((str_k k ++ String "009" (str_v v)) ++ nl1 ++ data_text K V str_k str_v d)%string by (rewrite <- !str_app_assoc; reflexivity).
    rewrite lines_of_line.
    2:{ assert (E : forall a b, has_char "010" (a ++ String "009" b)%string = has_char "010" a || has_char "010" b).
        { induction a as [|c a IHa]; intros b; [reflexivity|]. cbn. rewrite IHa, orb_assoc. reflexivity. }
        rewrite E, (no_space_nl _ (proj2 KT)), (proj2 VT). reflexivity. }
    cbn [read_data]. replace ((str_k k ++ String "009" (str_v v)) ++ nl1)%string with (str_k k ++ String "009" (str_v v) ++ nl1)%string
      by (rewrite <- !str_app_assoc; reflexivity).
    rewrite split_line_ok by assumption. cbn [bind fst snd]. rewrite KI, VI. cbn [bind].
    rewrite map_app in N. cbn [map fst] in N.
    rewrite dset_new.
    + rewrite IH; [rewrite <- app_assoc; reflexivity|intros kv HI; apply H; right; exact HI|].
      rewrite <- app_assoc. rewrite map_app. exact N.
    + apply NoDup_remove_2 in N. intros HI. apply N. apply in_or_app. left. exact HI.
Qed.

Lemma dir_nonempty c b : match ca_write c with Some p => p <> "" | None => True end -> postPath c b <> "".
Proof. unfold postPath. destruct b, (ca_write c) as [p|]; intros H; try exact H; destruct (ca_run c); discriminate. Qed.

Lemma write_look F s t F' : write cwd F s t = Ok F' -> resolve cwd s <> [] ->
  forall q, look F' q = if path_eqb q (resolve cwd s) then Some (File t) else look F q.
Proof.
  unfold write. intros E N q. destruct (look F (resolve cwd s)) as [[|x]|]; [discriminate| |].
  - destruct (look F (removelast _)) as [[|y]|]; try discriminate. injection E as <-. apply look_dset, N.
  - destruct (look F (removelast _)) as [[|y]|]; try discriminate. injection E as <-. apply look_dset, N.
Qed.
Definition only_new_dirs (F F' : fs) : Prop := forall q, look F' q = look F q \/ (look F q = None /\ look F' q = Some Dir).
Lemma makedirs_new rest : forall F pre F', makedirs_from F pre rest = Ok F' -> only_new_dirs F F'.
Proof.
  induction rest as [|n r IH]; intros F pre F'; cbn [makedirs_from].
  - intros E. injection E as <-. intros q. left. reflexivity.
  - destruct (look F (pre ++ [n])) as [[|x]|] eqn:L; [apply IH|discriminate|].
    intros E. apply IH in E. intros q. specialize (E q).
    assert (N : pre ++ [n] <> []) by (intros X; apply app_eq_nil in X; destruct X; discriminate).
    rewrite (look_dset F (pre ++ [n]) Dir q N) in E.
    destruct (path_eqb q (pre ++ [n])) eqn:EQ; [|exact E].
    apply path_eqb_spec in EQ. subst q. right. split; [exact L|]. destruct E as [E|(E & _)]; [exact E|discriminate].
Qed.
Lemma store_inv pr c F f d m F' : storeData_until cwd M dump K V str_k str_v pr c F f d m = Ok F' ->
  match pr with
  | PNothing => F' = F
  | PDirs => only_new_dirs F F'
  | PMeta n => exists F1, only_new_dirs F F1 /\
      write cwd F1 (postPath c true ++ "/" ++ f ++ ".metadata")%string (substring 0 n (dump m)) = Ok F'
  | PData n => exists F1 F2, only_new_dirs F F1 /\
      write cwd F1 (postPath c true ++ "/" ++ f ++ ".metadata")%string (dump m) = Ok F2 /\
      write cwd F2 (postPath c true ++ "/" ++ f)%string (substring 0 n (data_text K V str_k str_v d)) = Ok F'
  | PAll => exists F1 F2, only_new_dirs F F1 /\
      write cwd F1 (postPath c true ++ "/" ++ f ++ ".metadata")%string (dump m) = Ok F2 /\
      write cwd F2 (postPath c true ++ "/" ++ f)%string (data_text K V str_k str_v d) = Ok F'
  end.
Proof.
  unfold storeData_until.
  replace (postPath c true ++ "/" ++ f ++ ".metadata")%string with ((postPath c true ++ "/" ++ f) ++ ".metadata")%string
    by (rewrite <- !str_app_assoc; reflexivity).
  assert (D : forall F1, (if exists_ cwd F (postPath c true) then Ok F else makedirs cwd F (postPath c true)) = Ok F1 -> only_new_dirs F F1).
  { intros F1. destruct (exists_ _ _ _); [intros E; injection E as <-; intros q; left; reflexivity|apply makedirs_new]. }
  destruct pr as [| |n|n|]; [intros E; congruence| | | |];
    destruct (if exists_ cwd F (postPath c true) then Ok F else makedirs cwd F (postPath c true)) as [F1|e]; cbn [bind]; try discriminate;
    specialize (D F1 eq_refl).
  - intros E. injection E as <-. exact D.
  - intros E. exists F1. split; [exact D|exact E].
  - destruct (write cwd F1 _ _) as [F2|e] eqn:W; cbn [bind]; [|discriminate]. intros E. exists F1, F2. auto.
  - destruct (write cwd F1 _ _) as [F2|e] eqn:W; cbn [bind]; [|discriminate]. intros E. exists F1, F2. auto.
Qed.

Lemma path_file dir f : dir <> "" -> name_ok f -> resolve cwd (dir ++ "/" ++ f)%string = resolve cwd dir ++ [f].
Proof. intros N O. apply (resolve_child cwd dir f N O). Qed.
Lemma write_file F dir f t F' : write cwd F (dir ++ "/" ++ f)%string t = Ok F' -> dir <> "" -> name_ok f ->
  forall q, look F' q = if path_eqb q (resolve cwd dir ++ [f]) then Some (File t) else look F q.
Proof.
  intros W N O. rewrite <- (path_file dir f N O). apply write_look; [exact W|]. rewrite path_file by assumption.
  intros X. apply app_eq_nil in X. destruct X. discriminate.
Qed.
Lemma meta_name_ok f : name_ok f -> name_ok (f ++ ".metadata").
Proof.
  intros (N1 & N2 & N3 & N4). destruct f as [|a f]; [congruence|]. split; [discriminate|].
  split; [destruct f; discriminate|]. split; [destruct f as [|b [|c f]]; discriminate|].
  assert (E : forall x, has_char slash (x ++ ".metadata")%string = has_char slash x).
  { induction x as [|y x IH]; [reflexivity|]. cbn. rewrite IH. reflexivity. }
  rewrite E. exact N4.
Qed.
Lemma meta_neq f : (f ++ ".metadata")%string <> f.
Proof. intros E. apply (f_equal String.length) in E. rewrite str_app_length in E. cbn in E. lia. Qed.

(** After storing, the two files. *)
Lemma store_files c F f d m F' : ca_write c = None -> name_ok f -> store c F f d m = Ok F' ->
  (forall q, q <> resolve cwd (postPath c false) ++ [f] -> q <> resolve cwd (postPath c false) ++ [(f ++ ".metadata")%string] ->
     look F' q = look F q \/ (look F q = None /\ look F' q = Some Dir)) /\
  look F' (resolve cwd (postPath c false) ++ [f]) = Some (File (data_text K V str_k str_v d)) /\
  look F' (resolve cwd (postPath c false) ++ [(f ++ ".metadata")%string]) = Some (File (dump m)).
Proof.
  intros W NF S. apply (store_inv PAll) in S. destruct S as (F1 & F2 & D & W1 & W2).
  assert (PE : postPath c true = postPath c false) by (unfold postPath; rewrite W; reflexivity).
  rewrite PE in W1, W2.
  assert (NE : postPath c false <> "") by (apply dir_nonempty; rewrite W; exact I).
  assert (W1' := write_file _ _ _ _ _ W1 NE (meta_name_ok f NF)). assert (W2' := write_file _ _ _ _ _ W2 NE NF).
  clear W1 W2. rename W1' into W1. rename W2' into W2.
  split; [|split].
  - intros q Q1 Q2. rewrite W2, (path_eqb_neq _ _ Q1), W1, (path_eqb_neq _ _ Q2). apply D.
  - rewrite W2, path_eqb_refl. reflexivity.
  - rewrite W2, path_eqb_neq, W1, path_eqb_refl; [reflexivity|].
    intros E. apply app_inv_head in E. injection E as E. exact (meta_neq f E).
Qed.

Lemma has_unfold c F f m : name_ok f -> match ca_write c with Some p => p <> "" | None => True end ->
  has c F f m = match look F (resolve cwd (postPath c false) ++ [(f ++ ".metadata")%string]),
                      look F (resolve cwd (postPath c false) ++ [f]) with
                | Some (File t), Some (File _) => Ok (match load t with Some x => meta_eqb x m | None => false end)
                | _, _ => Ok false
                end.
Proof.
  intros NF W. assert (NE := dir_nonempty c false W). unfold hasData, isfile, read.
  rewrite <- !str_app_assoc. rewrite !path_file by (exact NE || exact NF || apply meta_name_ok, NF).
  destruct (look F (_ ++ [(f ++ ".metadata")%string])) as [[|t]|]; try reflexivity.
  destruct (look F (_ ++ [f])) as [[|u]|]; reflexivity.
Qed.

Lemma store_get c F f d m F' : ca_write c = None -> name_ok f -> load (dump m) = Some m -> meta_eqb m m = true ->
  NoDup (map fst d) -> (forall kv, In kv d -> entry_ok' kv) ->
  store c F f d m = Ok F' -> has c F' f m = Ok true /\ get c F' f m = Ok d.
Proof.
  intros W NF LD ME ND EO S. destruct (store_files c F f d m F' W NF S) as (_ & L1 & L2).
  assert (H : has c F' f m = Ok true).
  { rewrite has_unfold by (exact NF || rewrite W; exact I). rewrite L1, L2, LD, ME. reflexivity. }
  split; [exact H|]. unfold getDataOrderedDict. rewrite H. cbn [bind negb].
  unfold read. rewrite path_file by (exact NF || apply dir_nonempty; rewrite W; exact I). rewrite L1. cbn [bind].
  exact (read_back d EO [] ND).
Qed.
Lemma store_other_meta c F f d m m2 F' : ca_write c = None -> name_ok f -> load (dump m) = Some m -> meta_eqb m m2 = false ->
  store c F f d m = Ok F' -> has c F' f m2 = Ok false.
Proof.
  intros W NF LD ME S. destruct (store_files c F f d m F' W NF S) as (_ & L1 & L2).
  rewrite has_unfold by (exact NF || rewrite W; exact I). rewrite L1, L2, LD, ME. reflexivity.
Qed.
(** Data stored under another name stay. *)
Lemma store_other_name c F f d m g m2 F' : ca_write c = None -> name_ok f -> name_ok g ->
  g <> f -> g <> (f ++ ".metadata")%string -> (g ++ ".metadata")%string <> f ->
  store c F f d m = Ok F' -> has c F' g m2 = has c F g m2 /\ get c F' g m2 = get c F g m2.
Proof.
  intros W NF NG N1 N2 N3 S. destruct (store_files c F f d m F' W NF S) as (D & _ & _).
  assert (N4 : (g ++ ".metadata")%string <> (f ++ ".metadata")%string).
  { intros E. apply N1. clear -E. revert f E. induction g as [|a g IH]; intros [|b f] E.
    - reflexivity.
    - exfalso. apply (f_equal String.length) in E. rewrite !str_app_length in E. cbn in E. lia.
    - exfalso. apply (f_equal String.length) in E. rewrite !str_app_length in E. cbn in E. lia.
    - cbn in E. injection E as -> E. rewrite (IH f E). reflexivity. }
  assert (X : forall a b : string, a <> b -> resolve cwd (postPath c false) ++ [a] <> resolve cwd (postPath c false) ++ [b]).
  { intros a b NAB E. apply app_inv_head in E. congruence. }
  pose proof (D _ (X _ _ N1) (X _ _ N2)) as D1. pose proof (D _ (X _ _ N3) (X _ _ N4)) as D2.
  assert (H : has c F' g m2 = has c F g m2).
  { rewrite !has_unfold by (exact NG || rewrite W; exact I).
    destruct D1 as [->|(-> & ->)], D2 as [->|(-> & ->)]; try reflexivity. }
  split; [exact H|]. unfold getDataOrderedDict. rewrite H. destruct (has c F g m2) as [[]|e]; cbn [bind negb]; try reflexivity.
  unfold read. rewrite path_file by (exact NG || apply dir_nonempty; rewrite W; exact I).
  destruct D1 as [->|(-> & ->)]; reflexivity.
Qed.

(** A process that is killed right after the metadata have been written: if there are data
    stored before under this name, then they are taken for the new data. *)
Lemma crash_meta c F f d0 m0 F0 d m F' : ca_write c = None -> name_ok f -> load (dump m) = Some m -> meta_eqb m m = true ->
  NoDup (map fst d0) -> (forall kv, In kv d0 -> entry_ok' kv) ->
  store c F f d0 m0 = Ok F0 ->
  storeData_until cwd M dump K V str_k str_v (PMeta (String.length (dump m))) c F0 f d m = Ok F' ->
  has c F' f m = Ok true /\ get c F' f m = Ok d0.
Proof.
  intros W NF LD ME ND EO S C. destruct (store_files c F f d0 m0 F0 W NF S) as (_ & L1 & L2).
  apply store_inv in C. destruct C as (F1 & D & W1).
  assert (PE : postPath c true = postPath c false) by (unfold postPath; rewrite W; reflexivity). rewrite PE in W1.
  assert (NE : postPath c false <> "") by (apply dir_nonempty; rewrite W; exact I).
  assert (W1' := write_file _ _ _ _ _ W1 NE (meta_name_ok f NF)). clear W1. rename W1' into W1.
  assert (SUB : substring 0 (String.length (dump m)) (dump m) = dump m).
  { clear. induction (dump m) as [|a s IH]; [reflexivity|]. cbn. rewrite IH. reflexivity. }
  rewrite SUB in W1.
  assert (L3 : look F' (resolve cwd (postPath c false) ++ [f]) = Some (File (data_text K V str_k str_v d0))).
  { rewrite W1, path_eqb_neq.
    - destruct (D (resolve cwd (postPath c false) ++ [f])) as [->|(X & _)]; [exact L1|congruence].
    - intros E. apply app_inv_head in E. injection E as E. apply (meta_neq f). congruence. }
  assert (L4 : look F' (resolve cwd (postPath c false) ++ [(f ++ ".metadata")%string]) = Some (File (dump m))) by (rewrite W1, path_eqb_refl; reflexivity).
  assert (H : has c F' f m = Ok true).
  { rewrite has_unfold by (exact NF || rewrite W; exact I). rewrite L3, L4, LD, ME. reflexivity. }
  split; [exact H|]. unfold getDataOrderedDict. rewrite H. cbn [bind negb].
  unfold read. rewrite path_file by assumption. rewrite L3. cbn [bind]. exact (read_back d0 EO [] ND).
Qed.
(** A process that is killed before the metadata are complete (which then are not taken for
    the metadata), or before it began, does not spoil anything. *)
Lemma crash_before c F f d m F' pr : ca_write c = None -> name_ok f ->
  match pr with PNothing | PDirs => True | PMeta n => load (substring 0 n (dump m)) = None | _ => False end ->
  storeData_until cwd M dump K V str_k str_v pr c F f d m = Ok F' ->
  forall m2, has c F' f m2 = Ok true -> has c F f m2 = Ok true /\ get c F' f m2 = get c F f m2.
Proof.
  intros W NF PR C m2. apply store_inv in C.
  assert (SAME : only_new_dirs F F' -> has c F' f m2 = Ok true -> has c F f m2 = Ok true /\ get c F' f m2 = get c F f m2).
  { intros D H. pose proof (D (resolve cwd (postPath c false) ++ [f])) as D1.
    pose proof (D (resolve cwd (postPath c false) ++ [(f ++ ".metadata")%string])) as D2.
    assert (H2 : has c F f m2 = Ok true).
    { rewrite has_unfold in H |- * by (exact NF || rewrite W; exact I).
      destruct D1 as [E1|(E1 & E1')], D2 as [E2|(E2 & E2')].
      - rewrite E1, E2 in H. exact H.
      - rewrite E2' in H. discriminate.
      - rewrite E2, E1' in H. destruct (look F (_ ++ [(f ++ ".metadata")%string])) as [[|t]|]; discriminate.
      - rewrite E2' in H. discriminate. }
    split; [exact H2|]. unfold getDataOrderedDict. rewrite H, H2. cbn [bind negb].
    unfold read. rewrite path_file by (exact NF || apply dir_nonempty; rewrite W; exact I).
    destruct D1 as [->|(-> & ->)]; reflexivity. }
  destruct pr as [| |n|n|]; [| | |destruct PR|destruct PR].
  - subst F'. intros H. split; [exact H|reflexivity].
  - apply SAME, C.
  - destruct C as (F1 & D & W1).
    assert (PE : postPath c true = postPath c false) by (unfold postPath; rewrite W; reflexivity). rewrite PE in W1.
    assert (NE : postPath c false <> "") by (apply dir_nonempty; rewrite W; exact I).
    assert (W1' := write_file _ _ _ _ _ W1 NE (meta_name_ok f NF)). clear W1. rename W1' into W1.
    intros H. exfalso. rewrite has_unfold in H by (exact NF || rewrite W; exact I).
    rewrite (W1 (_ ++ [(f ++ ".metadata")%string])), path_eqb_refl, PR in H.
    destruct (look F' _) as [[|t]|]; discriminate.
Qed.
End C.
