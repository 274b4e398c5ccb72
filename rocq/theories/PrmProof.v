(** Proofs about tables of settings. *)
From Coq Require Import String Ascii List ZArith Bool Sorted Permutation Qcanon NArith Lia.
From Verif Require Import PyBase DictBase StrBase SortBase ConfModel ConfSpec ConfTreeProof PrmModel PrmSpec.
Import ListNotations.
Open Scope string_scope.
Open Scope list_scope.

Lemma leb_iff a b : String.leb a b = true <-> String.compare a b <> Gt.
Proof. unfold String.leb. destruct (String.compare a b); split; intros; congruence. Qed.
Lemma string_leb_trans a b c : String.leb a b = true -> String.leb b c = true -> String.leb a c = true.
Proof.
  rewrite !leb_iff. revert b c. induction a as [|x a IH]; intros [|y b] [|z c]; cbn; try congruence.
  unfold Ascii.compare. intros H1 H2.
  destruct (N.compare_spec (N_of_ascii x) (N_of_ascii y)) as [E1 | E1 | E1]; [| |congruence];
  destruct (N.compare_spec (N_of_ascii y) (N_of_ascii z)) as [E2 | E2 | E2]; try congruence;
  destruct (N.compare_spec (N_of_ascii x) (N_of_ascii z)) as [E3 | E3 | E3]; try congruence; try lia.
  eapply IH; eassumption.
Qed.
Lemma string_leb_total a b : String.leb a b = true \/ String.leb b a = true.
Proof. destruct (String.leb_total a b); auto. Qed.
Lemma string_compare_refl a : String.compare a a = Eq.
Proof. induction a as [|x a IH]; [reflexivity|]. cbn. unfold Ascii.compare. rewrite N.compare_refl. exact IH. Qed.
Lemma strictly l : NoDup l -> StronglySorted (fun a b => String.leb a b = true) l -> in_order l.
Proof.
  unfold in_order. intros N. induction 1 as [|x l H IH F]; [constructor|]. inversion N as [|? ? N1 N2]; subst.
  constructor; [auto|]. rewrite Forall_forall in *. intros y Hy. specialize (F y Hy). unfold String.leb in F. unfold String.ltb.
  destruct (String.compare x y) eqn:E; try congruence. apply String.compare_eq_iff in E. subst. contradiction.
Qed.
Lemma keys_in_order l : NoDup l -> in_order (isort String.leb l).
Proof.
  intros N. apply strictly.
  - eapply Permutation_NoDup; [apply isort_perm|exact N].
  - apply isort_sorted; [apply string_leb_total|apply string_leb_trans].
Qed.

Definition nodup_keys (d : list (string * option leaf)) : Prop := NoDup (map fst d).
Lemma flat_entry_nodup sub : forall ret key, nodup_keys ret -> nodup_keys (flat_entry ret key sub).
Proof.
  intros ret key N. unfold flat_entry.
  assert (A : forall s r, nodup_keys r -> nodup_keys (fold_left (fun ret kv => sset ret (key ++ String dot (fst kv))%string (snd kv)) s r)).
  { induction s as [|x s IH]; intros r H; [exact H|]. cbn [fold_left]. apply IH. apply (dset_nodup (V := option leaf) String.eqb String.eqb_eq). exact H. }
  destruct sub; [apply (dset_nodup (V := option leaf) String.eqb String.eqb_eq)|]; apply A; exact N.
Qed.
Lemma flat_one_nodup f ret key v : nodup_keys ret -> nodup_keys (flat_one f ret key v).
Proof.
  intros N. destruct v; cbn [flat_one]; try (apply flat_entry_nodup; exact N). apply (dset_nodup (V := option leaf) String.eqb String.eqb_eq). exact N.
Qed.
Lemma flat_nodup c : nodup_keys (flat c).
Proof.
  assert (E : forall xs i r, nodup_keys r -> nodup_keys (flat_elems flat i xs r)).
  { induction xs as [|x xs IH]; intros i r H; [exact H|]. cbn [flat_elems]. apply IH. apply flat_one_nodup. exact H. }
  assert (G : forall xs r, nodup_keys r -> nodup_keys (flat_entries flat xs r)).
  { induction xs as [|[k x] xs IH]; intros r H; [exact H|]. cbn [flat_entries]. apply IH. apply flat_one_nodup. exact H. }
  destruct c; cbn [flat]; first [apply E | apply G | idtac]; constructor.
Qed.

Lemma added additional : forall d, NoDup (map fst additional) -> nodup_keys d -> (forall key v, In (key, v) additional -> sget d key = None) ->
  exists d', add_parameters d additional = Ok d' /\ nodup_keys d' /\ (forall key v, sget d' key = Some v <-> sget d key = Some v \/ In (key, v) additional).
Proof.
  induction additional as [|[k x] additional IH]; intros d N D F; cbn [add_parameters].
  - exists d. split; [reflexivity|split; [exact D|]]. intros. cbn. tauto.
  - rewrite (F k x (or_introl eq_refl)). inversion N as [|? ? N1 N2]; subst.
    destruct (IH (sset d k x)) as (d' & E & D' & V); [exact N2| | |].
    + apply (dset_nodup (V := option leaf) String.eqb String.eqb_eq). exact D.
    + intros key v H. unfold sget, sset. rewrite (dget_dset String.eqb String.eqb_eq).
      destruct (String.eqb_spec key k) as [-> | Hk]; [destruct N1; apply in_map_iff; exists (k, v); auto|]. exact (F key v (or_intror H)).
    + exists d'. split; [exact E|split; [exact D'|]]. intros key v. rewrite (V key v). unfold sget at 1, sset. rewrite (dget_dset String.eqb String.eqb_eq).
      destruct (String.eqb_spec key k) as [-> | Hk].
      * split.
        -- intros [H | H]; right; [left; congruence|right; exact H].
        -- intros [H | [H | H]].
           ++ pose proof (F k x (or_introl eq_refl)). congruence.
           ++ left; congruence.
           ++ right; exact H.
      * split.
        -- intros [H | H]; [left; exact H|right; right; exact H].
        -- intros [H | [H | H]]; [left; exact H|congruence|right; exact H].
Qed.
Lemma not_added additional : forall d key v w, In (key, v) additional -> sget d key = Some w -> NoDup (map fst additional) -> add_parameters d additional = Err AssertionError.
Proof.
  induction additional as [|[k x] additional IH]; intros d key v w H G N; [destruct H|]. cbn [add_parameters]. inversion N as [|? ? N1 N2]; subst.
  destruct (sget d k) eqn:E; [reflexivity|]. destruct H as [H | H]; [congruence|]. eapply IH; [exact H| |exact N2].
  unfold sget, sset. rewrite (dget_dset String.eqb String.eqb_eq). destruct (String.eqb_spec key k) as [-> | Hk]; [congruence|exact G].
Qed.

Section Show.
Variable show : Qc -> string.
Definition column (d : list (string * option leaf)) (key : string) : string * option leaf := (key, match sget d key with Some v => v | None => None end).
Definition texts (c : list (string * option leaf)) : list (string * string) := map (fun kv => (fst kv, value_text show (snd kv))) c.

Lemma app_nonempty a b : a <> "" -> (a ++ b)%string <> "".
Proof. destruct a; [congruence|discriminate]. Qed.
Lemma write_more d keys : forall k h v, h <> "" ->
  write_lines show d (k :: keys) h v = ((h ++ String tab (join tab (map fst (texts (map (column d) (k :: keys))))))%string, (v ++ String tab (join tab (map snd (texts (map (column d) (k :: keys))))))%string).
Proof.
  induction keys as [|k2 keys IH]; intros k h v H.
  - cbn [write_lines]. destruct (String.eqb_spec h "") as [E | _]; [contradiction|]. reflexivity.
  - remember (k2 :: keys) as keys' eqn:Ek. cbn [write_lines]. destruct (String.eqb_spec h "") as [E | _]; [contradiction|]. subst keys'.
    rewrite IH by (apply app_nonempty; exact H). cbn [map texts column fst snd join]. f_equal; rewrite <- !str_app_assoc; reflexivity.
Qed.
Lemma write_all d keys : Forall (fun k => k <> "") keys ->
  write_lines show d keys "" "" = (join tab (map fst (texts (map (column d) keys))), join tab (map snd (texts (map (column d) keys)))).
Proof.
  intros F. destruct keys as [|k keys]; [reflexivity|]. inversion F as [|? ? F1 F2]; subst. destruct keys as [|k2 keys]; [reflexivity|].
  remember (k2 :: keys) as keys' eqn:Ek. cbn [write_lines]. cbn [String.eqb append]. subst keys'. rewrite write_more by exact F1. reflexivity.
Qed.
Lemma columns_texts_fst c : map fst (texts c) = map fst c.
Proof. unfold texts. rewrite map_map. reflexivity. Qed.

Lemma string_keys_some additional : string_keys (map (fun kv => (Some (fst kv), snd kv)) additional) = Some additional.
Proof. induction additional as [|[k x] additional IH]; [reflexivity|]. cbn. rewrite IH. reflexivity. Qed.
Lemma string_keys_none additional v : In (None, v) additional -> string_keys additional = None.
Proof.
  induction additional as [|[[k|] x] additional IH]; intros H; [destruct H| |reflexivity]. destruct H as [H | H]; [congruence|]. cbn. rewrite (IH H). reflexivity.
Qed.

Lemma saved c additional : proper c -> NoDup (map fst additional) ->
  (forall key v w, In (key, v) additional -> ~ has_value c [] key w) ->
  exists columns, in_order (map fst columns) /\ (forall key v, In (key, v) columns <-> has_value c additional key v) /\
    ((forall v, ~ has_value c additional "" v) ->
     saveToParameterFile show c true (Some (map (fun kv => (Some (fst kv), snd kv)) additional)) = Ok (table_text (texts columns))).
Proof.
  intros P N D. destruct (added additional (flat c) N (flat_nodup c)) as (d & E & Nd & V).
  { intros key v H. destruct (sget (flat c) key) as [w|] eqn:G; [|reflexivity]. destruct (D key v w H). left. apply (flat_get c P). exact G. }
  assert (X : forall key v, sget d key = Some v <-> has_value c additional key v).
  { intros key v. rewrite (V key v). unfold has_value. rewrite (flat_get c P). reflexivity. }
  assert (Q : forall key v, In (key, v) (map (column d) (isort String.leb (map fst d))) <-> has_value c additional key v).
  { intros key v. rewrite <- X. split.
    - intros H. apply in_map_iff in H. destruct H as (k & H & I). unfold column in H. apply (Permutation_in _ (Permutation_sym (isort_perm String.leb (map fst d)))) in I.
      destruct (sget d k) eqn:G; [congruence|]. apply (dget_none String.eqb String.eqb_eq) in G. destruct (G I).
    - intros H. apply in_map_iff. exists key. unfold column. rewrite H. split; [reflexivity|]. apply (Permutation_in _ (isort_perm String.leb (map fst d))).
      apply in_map_iff. exists (key, v). split; [reflexivity|]. apply (dget_in String.eqb String.eqb_eq). exact H. }
  exists (map (column d) (isort String.leb (map fst d))). split; [|split; [exact Q|]].
  - rewrite map_map. cbn. rewrite map_id. apply keys_in_order. exact Nd.
  - intros Z. unfold saveToParameterFile. cbn [negb]. rewrite string_keys_some, E. cbn [bind]. rewrite write_all; [reflexivity|].
    apply Forall_forall. intros k I ->. destruct (column d "") as [k' v] eqn:C. apply (Z v). apply Q. apply in_map_iff. exists "". split; [|exact I]. rewrite C. unfold column in C. congruence.
Qed.

Lemma join_plain c l x : has_char c (String x "") = false -> Forall (fun s => has_char c s = false) l -> has_char c (join x l) = false.
Proof.
  intros Hx. cbn in Hx. rewrite orb_false_r in Hx. induction 1 as [|s l H F IH]; [reflexivity|]. cbn [join]. destruct l; [exact H|]. rewrite has_char_app, H. cbn [has_char orb]. rewrite Hx. exact IH.
Qed.
Lemma combine_split_id (A B : Type) (l : list (A * B)) : combine (map fst l) (map snd l) = l.
Proof. induction l as [|[a b] l IH]; [reflexivity|]. cbn. rewrite IH. reflexivity. Qed.
Lemma table_read columns : columns <> [] -> Forall (fun kv => plain_text (fst kv) /\ plain_text (snd kv)) columns ->
  read_table (table_text columns) = Some columns.
Proof.
  intros N F. unfold read_table, table_text. cbn [append].
  assert (Ft : Forall (fun s => has_char tab s = false) (map fst columns) /\ Forall (fun s => has_char eol s = false) (map fst columns) /\
               Forall (fun s => has_char tab s = false) (map snd columns) /\ Forall (fun s => has_char eol s = false) (map snd columns)).
  { repeat split; apply Forall_map; (eapply Forall_impl; [|exact F]); intros a ((? & ?) & (? & ?)); assumption. }
  destruct Ft as (F1 & F2 & F3 & F4).
  rewrite split_cons by (apply join_plain; [reflexivity|exact F2]). rewrite split_none by (apply join_plain; [reflexivity|exact F4]).
  rewrite !split_join; try (apply Forall_forall; exact F1); try (apply Forall_forall; exact F3); try (destruct columns; [congruence|discriminate]).
  rewrite !map_length, Nat.eqb_refl. f_equal. apply combine_split_id.
Qed.

Lemma brace_inj s t : ("{" ++ s ++ "}")%string = ("{" ++ t ++ "}")%string -> s = t.
Proof.
  cbn. intros H. injection H as H. revert t H. induction s as [|x s IH]; intros [|y t] H; cbn in H; try reflexivity.
  - injection H as -> H. destruct t; discriminate.
  - injection H as -> H. destruct s; discriminate.
  - injection H as -> H. f_equal. apply IH. exact H.
Qed.
Lemma number_not z s c : has_char c s = true -> is_digit c = false -> Ascii.eqb c "-" = false -> str_of_Z z <> s.
Proof. intros H D M E. subst s. rewrite (str_of_Z_no c z D M) in H. discriminate. Qed.
Lemma value_text_inj a b : (forall q, a <> Some (LFloat q)) -> (forall q, b <> Some (LFloat q)) -> value_text show a = value_text show b -> a = b.
Proof.
  intros A B.
  assert (NS : forall z s, str_of_Z z <> ("{" ++ s ++ "}")%string) by (intros; apply (number_not z _ "{"); reflexivity).
  assert (NN : forall z, str_of_Z z <> "None") by (intros; apply (number_not z _ "N"); reflexivity).
  assert (NT : forall z, str_of_Z z <> "true") by (intros; apply (number_not z _ "t"); reflexivity).
  assert (NF : forall z, str_of_Z z <> "false") by (intros; apply (number_not z _ "f"); reflexivity).
  destruct a as [[s|z|q|x]|]; destruct b as [[s2|z2|q2|x2]|]; cbn [value_text]; intros H; try reflexivity;
    try (exfalso; eapply A; reflexivity); try (exfalso; eapply B; reflexivity); try (destruct x); try (destruct x2); try reflexivity;
    try discriminate H; try (exfalso; first [eapply NS; exact H | eapply NS; symmetry; exact H | eapply NN; exact H | eapply NN; symmetry; exact H
      | eapply NT; exact H | eapply NT; symmetry; exact H | eapply NF; exact H | eapply NF; symmetry; exact H]).
  - apply brace_inj in H. congruence.
  - pose proof (Z_of_str_of_Z z) as E. rewrite H, Z_of_str_of_Z in E. congruence.
Qed.
End Show.
