(** Proofs about node lists and path translators. *)
From Coq Require Import List ZArith String Ascii Bool Lia Arith Decimal DecimalString.
From Verif Require Import QcBase PyBase StrBase FsBase ConfModel RunsModel RunsSpec RunsProof RunsStateProof.
Import ListNotations.
Close Scope Qc_scope.
Open Scope string_scope.
Open Scope nat_scope.
Open Scope list_scope.

Lemma uint_of_digits s : all_chars is_digit s = true -> exists d, NilEmpty.uint_of_string s = Some d.
Proof.
  induction s as [|a s IH]; intros H; [exists Nil; reflexivity|]. cbn in H. apply andb_true_iff in H. destruct H as (H1 & H2).
  destruct (IH H2) as (d & E). cbn [NilEmpty.uint_of_string]. rewrite E.
  destruct a as [[] [] [] [] [] [] [] []]; cbn in H1; try discriminate; eexists; reflexivity.
Qed.
Lemma Z_of_digits s : s <> "" -> all_chars is_digit s = true -> exists z, Z_of_str s = Some z.
Proof.
  intros N H. unfold Z_of_str, NilZero.int_of_string. destruct s as [|a s]; [congruence|].
  destruct (uint_of_digits (String a s) H) as (d & E).
  assert (M : Ascii.eqb a "-" = false).
  { cbn in H. apply andb_true_iff in H. destruct H as (H & _). destruct (Ascii.eqb_spec a "-"); [subst; discriminate|reflexivity]. }
  destruct (ascii_dec a "-") as [->|NA]; [discriminate|].
  destruct a as [[] [] [] [] [] [] [] []]; try (cbn in H; discriminate); cbn [NilZero.uint_of_string] in *; rewrite E; eexists; reflexivity.
Qed.

Lemma take_digits_spec s d t : take_digits s = (d, t) -> s = (d ++ t)%string /\ all_chars is_digit d = true.
Proof.
  revert d t. induction s as [|a s IH]; intros d t; cbn [take_digits].
  - intros E. injection E as <- <-. split; reflexivity.
  - destruct (is_digit a) eqn:D.
    + destruct (take_digits s) as (d' & t') eqn:E. intros X. injection X as <- <-.
      destruct (IH d' t' eq_refl) as (-> & A). split; [reflexivity|]. cbn. rewrite D, A. reflexivity.
    + intros X. injection X as <- <-. split; reflexivity.
Qed.
Lemma match_here_spec s x y r : match_here s = Some (x, y, r) ->
  s = ("[" ++ x ++ "-" ++ y ++ "]" ++ r)%string /\ x <> "" /\ y <> "" /\ all_chars is_digit x = true /\ all_chars is_digit y = true.
Proof.
  unfold match_here. destruct s as [|c s]; [discriminate|].
  destruct (Ascii.eqb_spec c "["%char) as [->|NC].
  2:{ destruct c as [[] [] [] [] [] [] [] []]; try discriminate; congruence. }
  destruct (take_digits s) as (d & t) eqn:E1. destruct d as [|a d]; [discriminate|].
  destruct t as [|c2 t]; [discriminate|].
  destruct (Ascii.eqb_spec c2 "-"%char) as [->|NC].
  2:{ destruct c2 as [[] [] [] [] [] [] [] []]; try discriminate; congruence. }
  destruct (take_digits t) as (e & u) eqn:E2. destruct e as [|b e]; [discriminate|].
  destruct u as [|c3 u]; [discriminate|].
  destruct (Ascii.eqb_spec c3 "]"%char) as [->|NC].
  2:{ destruct c3 as [[] [] [] [] [] [] [] []]; try discriminate; congruence. }
  intros X. injection X as <- <- <-. apply take_digits_spec in E1, E2. destruct E1 as (-> & D1), E2 as (-> & D2).
  split; [|split; [discriminate|split; [discriminate|split; assumption]]].
  change ("[" ++ String a d ++ "-" ++ String b e ++ "]" ++ u)%string with (String "[" (String a d ++ String "-" (String b e ++ String "]" u)))%string.
  reflexivity.
Qed.
Lemma find_range_spec s p x y r : find_range s = Some (p, x, y, r) ->
  s = (p ++ "[" ++ x ++ "-" ++ y ++ "]" ++ r)%string /\ x <> "" /\ y <> "" /\ all_chars is_digit x = true /\ all_chars is_digit y = true.
Proof.
  revert p x y r. induction s as [|a s IH]; intros p x y r.
  - cbn. discriminate.
  - cbn [find_range]. destruct (match_here (String a s)) as [((x0 & y0) & r0)|] eqn:M.
    + intros E. injection E as <- <- <- <-. apply match_here_spec in M. exact M.
    + destruct (find_range s) as [(((p0 & x0) & y0) & r0)|] eqn:F; [|discriminate].
      intros E. injection E as <- <- <- <-. destruct (IH p0 x0 y0 r0 eq_refl) as (E & Q). split; [|exact Q].
      cbn [append]. rewrite E at 1. reflexivity.
Qed.

Lemma count_app c a b : count_char c (a ++ b)%string = count_char c a + count_char c b.
Proof. induction a as [|x a IH]; [reflexivity|]. cbn. rewrite IH. lia. Qed.
Lemma count_none c s : has_char c s = false -> count_char c s = 0.
Proof.
  induction s as [|a s IH]; [reflexivity|]. cbn. intros H. apply orb_false_iff in H. destruct H as (H1 & H2).
  rewrite H1, (IH H2). reflexivity.
Qed.
Lemma count_some c s : has_char c s = true -> 1 <= count_char c s.
Proof.
  induction s as [|a s IH]; [discriminate|]. cbn. intros H. apply orb_true_iff in H. destruct H as [->|H]; [lia|].
  apply IH in H. lia.
Qed.
Lemma count_split c d s x : In x (split d s) -> count_char c x <= count_char c s.
Proof.
  revert x. induction s as [|a s IH]; intros x; cbn [split].
  - intros [<-|[]]. reflexivity.
  - destruct (Ascii.eqb a d).
    + intros [<-|HI]; [cbn; lia|]. apply IH in HI. cbn. lia.
    + destruct (split d s) as [|h t] eqn:E; [intros [<-|[]]; cbn; lia|].
      intros [<-|HI]; [pose proof (IH h (or_introl eq_refl)); cbn; lia|pose proof (IH x (or_intror HI)); cbn; lia].
Qed.

Lemma concat_res_ok {A B} (f : A -> result (list B)) l : (forall a, In a l -> exists r, f a = Ok r) -> exists r, concat_res (map f l) = Ok r.
Proof.
  induction l as [|a l IH]; intros H; cbn [map concat_res]; [eexists; reflexivity|].
  destruct (H a (or_introl eq_refl)) as (r & ->). cbn [bind].
  destruct IH as (r2 & ->); [intros b HB; apply H; right; exact HB|]. eexists. reflexivity.
Qed.
Lemma concat_res_map {A B} (f : A -> result (list B)) (g : A -> list B) l : (forall a, In a l -> f a = Ok (g a)) ->
  concat_res (map f l) = Ok (flat_map g l).
Proof.
  induction l as [|a l IH]; intros H; cbn [map concat_res flat_map]; [reflexivity|].
  rewrite (H a (or_introl eq_refl)). cbn [bind]. rewrite IH by (intros b HB; apply H; right; exact HB). reflexivity.
Qed.

Lemma parse_total fuel : forall s, count_char "[" s + count_char "," s < fuel -> exists l, parse_nodes fuel s = Ok l.
Proof.
  induction fuel as [|fuel IH]; intros s L; [lia|]. cbn [parse_nodes]. destruct (has_char "," s) eqn:C.
  - apply concat_res_ok. intros p HP. apply IH.
    pose proof (count_split "[" "," s p HP). pose proof (count_some _ _ C).
    apply split_no in HP. rewrite (count_none _ _ HP). lia.
  - destruct (find_range s) as [(((p & x) & y) & r)|] eqn:F; [|eexists; reflexivity].
    apply find_range_spec in F. destruct F as (E & NX & NY & DX & DY).
    destruct (Z_of_digits x NX DX) as (a & ->). destruct (Z_of_digits y NY DY) as (b & ->).
    apply concat_res_ok. intros n HN. apply IH.
    apply count_none in C. rewrite C in L. rewrite E in L, C.
    set (suffix := match find_range r with Some (m, _, _, _) => m | None => r end) in *.
    assert (S : count_char "[" suffix <= count_char "[" r /\ count_char "," suffix <= count_char "," r).
    { unfold suffix. destruct (find_range r) as [(((m & x') & y') & r')|] eqn:F; [|lia].
      apply find_range_spec in F. destruct F as (-> & _). rewrite !count_app. lia. }
    rewrite !count_app in L, C. rewrite !count_app.
    rewrite (count_none "[" (str_of_Z n)) by (apply str_of_Z_no; reflexivity).
    rewrite (count_none "," (str_of_Z n)) by (apply str_of_Z_no; reflexivity).
    change (count_char "[" "[") with 1 in L. lia.
Qed.
Lemma nodelist_ok s : exists l, parseSlurmNodeList s = Ok l.
Proof. apply parse_total. lia. Qed.

(** ** Lists without padding and with at most one range per pattern *)
(** The names that a simple pattern stands for, in order. *)
Definition names (p : list seg) : list string :=
  match p with
  | [Lit a] => [a]
  | [Lit a; Range lo hi; Lit b] =>
    match Z_of_str lo, Z_of_str hi with
    | Some x, Some y => map (fun n => (a ++ str_of_Z n ++ b)%string) (zrange x (y + 1))
    | _, _ => []
    end
  | _ => []
  end.

Lemma has_app c a b : has_char c (a ++ b)%string = has_char c a || has_char c b.
Proof. induction a as [|x a IH]; [reflexivity|]. cbn. rewrite IH, orb_assoc. reflexivity. Qed.
Lemma find_range_none s : has_char "[" s = false -> find_range s = None.
Proof.
  induction s as [|a s IH]; [reflexivity|]. cbn [has_char]. intros H. apply orb_false_iff in H. destruct H as (H1 & H2).
  cbn [find_range]. destruct (match_here (String a s)) as [((x & y) & r)|] eqn:M.
  - apply match_here_spec in M. destruct M as (E & _). injection E as -> _. discriminate.
  - rewrite (IH H2). reflexivity.
Qed.
Lemma all_digits_Z x : (0 <= x)%Z -> all_chars is_digit (str_of_Z x) = true.
Proof.
  intros P. unfold str_of_Z. destruct x as [|p|p]; [reflexivity| |lia]. cbn [Z.to_int].
  unfold NilZero.string_of_int, NilZero.string_of_uint. destruct (Pos.to_uint p); try reflexivity; apply uint_digits.
Qed.
Lemma take_digits_app d c t : all_chars is_digit d = true -> is_digit c = false -> take_digits (d ++ String c t)%string = (d, String c t).
Proof.
  intros D C. induction d as [|a d IH]; cbn [append take_digits].
  - rewrite C. reflexivity.
  - cbn in D. apply andb_true_iff in D. destruct D as (-> & D). rewrite (IH D). reflexivity.
Qed.
Lemma match_here_some x y r : x <> "" -> y <> "" -> all_chars is_digit x = true -> all_chars is_digit y = true ->
  match_here ("[" ++ x ++ "-" ++ y ++ "]" ++ r)%string = Some (x, y, r).
Proof.
  intros NX NY DX DY.
  change ("[" ++ x ++ "-" ++ y ++ "]" ++ r)%string with (String "[" (x ++ String "-" (y ++ String "]" r)))%string.
  unfold match_here. rewrite take_digits_app by (exact DX || reflexivity).
  destruct x as [|a x]; [congruence|]. rewrite take_digits_app by (exact DY || reflexivity).
  destruct y as [|b y]; [congruence|]. reflexivity.
Qed.
Lemma find_range_some a x y r : has_char "[" a = false -> x <> "" -> y <> "" -> all_chars is_digit x = true -> all_chars is_digit y = true ->
  find_range (a ++ "[" ++ x ++ "-" ++ y ++ "]" ++ r)%string = Some (a, x, y, r).
Proof.
  intros A NX NY DX DY. pose proof (match_here_some x y r NX NY DX DY) as M.
  assert (T : exists t, ("[" ++ x ++ "-" ++ y ++ "]" ++ r)%string = String "[" t) by (eexists; reflexivity).
  revert M T. generalize ("[" ++ x ++ "-" ++ y ++ "]" ++ r)%string. intros s M (t & ->).
  induction a as [|c a IH]; cbn [append find_range].
  - rewrite M. reflexivity.
  - cbn [has_char] in A. apply orb_false_iff in A. destruct A as (A1 & A2).
    destruct (match_here (String c (a ++ String "[" t))) as [((x0 & y0) & r0)|] eqn:M2.
    + apply match_here_spec in M2. destruct M2 as (E & _). injection E as -> _. discriminate.
    + rewrite (IH A2). reflexivity.
Qed.
Lemma parse_plain fuel a : plain_name a -> parse_nodes (S fuel) a = Ok [a].
Proof. intros (B & C). cbn [parse_nodes]. rewrite C, find_range_none by exact B. reflexivity. Qed.
Lemma plain_number a n b : plain_name a -> plain_name b -> plain_name (a ++ str_of_Z n ++ b)%string.
Proof.
  intros (A1 & A2) (B1 & B2). split; rewrite !has_app, (str_of_Z_no _ n) by reflexivity; [rewrite A1, B1|rewrite A2, B2]; reflexivity.
Qed.
Lemma parse_simple fuel p : simple p -> 1 <= fuel -> has_char "," (pattern_text p) = false /\ parse_nodes (S fuel) (pattern_text p) = Ok (names p).
Proof.
  intros [(a & -> & P)|(a & x & y & b & -> & PA & PB & X & Y)] F.
  - cbn [pattern_text seg_text]. rewrite str_app_nil. split; [apply P|]. apply parse_plain, P.
  - assert (E : pattern_text [Lit a; Range (str_of_Z x) (str_of_Z y); Lit b] = (a ++ "[" ++ str_of_Z x ++ "-" ++ str_of_Z y ++ "]" ++ b)%string).
    { cbn [pattern_text seg_text]. rewrite str_app_nil. f_equal. rewrite <- !str_app_assoc. reflexivity. }
    assert (C : has_char "," (a ++ "[" ++ str_of_Z x ++ "-" ++ str_of_Z y ++ "]" ++ b)%string = false).
    { rewrite !has_app, (str_of_Z_no _ x), (str_of_Z_no _ y) by reflexivity. destruct PA as (_ & ->). destruct PB as (_ & ->). reflexivity. }
    rewrite E. split; [exact C|]. cbn [parse_nodes]. rewrite C.
    rewrite find_range_some; [|apply PA|apply str_of_Z_nonempty|apply str_of_Z_nonempty|apply all_digits_Z; exact X|apply all_digits_Z; exact Y].
    rewrite find_range_none by apply PB. cbn [names]. rewrite !Z_of_str_of_Z.
    destruct fuel as [|fuel]; [lia|].
    rewrite (concat_res_map _ (fun n => [(a ++ str_of_Z n ++ b)%string])).
    + reflexivity.
    + intros n _. apply parse_plain, plain_number; assumption.
Qed.
Lemma join_has c d l : (forall x, In x l -> has_char c x = false) -> Ascii.eqb d c = false -> has_char c (join d l) = false.
Proof.
  intros H N. induction l as [|x l IH]; [reflexivity|]. destruct l as [|y l]; [apply H; left; reflexivity|].
  change (join d (x :: y :: l)) with (x ++ String d (join d (y :: l)))%string. rewrite has_app. cbn [has_char].
  rewrite N, (H x (or_introl eq_refl)). apply IH. intros z HZ. apply H. right. exact HZ.
Qed.
Lemma count_join l : 2 <= List.length l -> 1 <= count_char "," (join "," l).
Proof.
  destruct l as [|x [|y l]]; cbn [List.length]; try lia. intros _.
  change (join "," (x :: y :: l)) with (x ++ String "," (join "," (y :: l)))%string. rewrite count_app. cbn. lia.
Qed.
Lemma count_join_in c l p : In p l -> count_char c p <= count_char c (join "," l).
Proof.
  induction l as [|x l IH]; [intros []|]. destruct l as [|y l]; [intros [<-|[]]; reflexivity|].
  change (join "," (x :: y :: l)) with (x ++ String "," (join "," (y :: l)))%string. rewrite count_app. cbn [count_char].
  intros [<-|HI]; [lia|]. apply IH in HI. lia.
Qed.

Lemma names_means p t : simple p -> In t (names p) <-> pattern_means p t.
Proof.
  intros [(a & -> & P)|(a & x & y & b & -> & PA & PB & X & Y)].
  - cbn [names In]. split.
    + intros [<-|[]]. rewrite <- (str_app_nil a) at 2. constructor; [reflexivity|constructor].
    + intros M. inversion M as [|g r t0 u G R]; subst. inversion R; subst. cbn in G. subst. rewrite str_app_nil. left. reflexivity.
  - cbn [names]. rewrite !Z_of_str_of_Z. rewrite in_map_iff. unfold zrange.
    assert (LZ : Ascii.eqb (hd_char (str_of_Z x)) "0" && Nat.ltb 1 (String.length (str_of_Z x)) = false).
    { destruct (Ascii.eqb _ _) eqn:H0; [|reflexivity]. cbn [andb]. apply Nat.ltb_ge.
      revert H0. unfold str_of_Z. destruct x as [|p|p]; [cbn; lia| |lia]. cbn [Z.to_int].
      pose proof (DecimalPos.Unsigned.to_uint_nonnil p) as NN. pose proof (DecimalPos.Unsigned.of_to p) as OT.
      pose proof (DecimalPos.Unsigned.to_of (Pos.to_uint p)) as TO. rewrite OT in TO. cbn [N.to_uint] in TO.
      unfold NilZero.string_of_int, NilZero.string_of_uint.
      destruct (Pos.to_uint p) as [|d|d|d|d|d|d|d|d|d|d] eqn:D; cbn; intros H0; try discriminate; try congruence.
      (* a leading zero is impossible unless the numeral is zero *)
      unfold unorm in TO. cbn [nzhead] in TO. destruct d as [|e|e|e|e|e|e|e|e|e|e]; cbn; try lia; exfalso.
      all: cbn [nzhead] in TO; try discriminate.
      pose proof (DecimalFacts.nzhead_nonzero e). destruct (nzhead e) eqn:NZ; try discriminate; try (injection TO as TO; subst; eapply H; reflexivity). }
    split.
    + intros (n & <- & HN). apply in_map_iff in HN. destruct HN as (i & <- & HI). apply in_seq in HI.
      constructor; [reflexivity|]. constructor.
      * cbn [seg_means]. exists x, y, (x + Z.of_nat i)%Z. rewrite LZ, !Z_of_str_of_Z.
        split; [reflexivity|]. split; [reflexivity|]. split; [lia|reflexivity].
      * rewrite <- (str_app_nil b) at 2. constructor; [reflexivity|constructor].
    + intros M. inversion M as [|g r t0 u G R]; subst. inversion R as [|g r t1 u1 G1 R1]; subst.
      inversion R1 as [|g r t2 u2 G2 R2]; subst. inversion R2; subst. cbn [seg_means] in G, G1, G2. subst.
      destruct G1 as (x' & y' & n & E1 & E2 & B & ->). rewrite Z_of_str_of_Z in E1, E2. injection E1 as <-. injection E2 as <-.
      rewrite LZ. exists n. split; [rewrite str_app_nil; reflexivity|]. apply in_map_iff. exists (Z.to_nat (n - x)). split; [lia|]. apply in_seq. lia.
Qed.

Lemma nodelist_simple ps : ps <> [] -> (forall p, In p ps -> simple p) ->
  parseSlurmNodeList (join "," (map pattern_text ps)) = Ok (flat_map names ps).
Proof.
  intros NE S. unfold parseSlurmNodeList. set (s := join "," (map pattern_text ps)).
  assert (C : forall p, In p ps -> has_char "," (pattern_text p) = false).
  { intros p HP. apply (parse_simple 1 p); [apply S, HP|lia]. }
  destruct ps as [|p ps]; [congruence|]. destruct ps as [|q ps].
  - assert (SP : simple p) by (apply S; left; reflexivity). cbn [map join] in s. unfold s. cbn [flat_map]. rewrite app_nil_r.
    destruct SP as [(a & -> & P)|SP].
    + cbn [pattern_text seg_text]. rewrite str_app_nil. rewrite parse_plain by exact P. reflexivity.
    + apply parse_simple; [right; exact SP|]. destruct SP as (a & x & y & b & -> & _).
      cbn [pattern_text seg_text]. rewrite !count_app. change (count_char "[" "[") with 1. lia.
  - assert (HC : has_char "," s = true).
    { unfold s. cbn [map]. change (join "," (pattern_text p :: pattern_text q :: map pattern_text ps)) with
        (pattern_text p ++ String "," (join "," (pattern_text q :: map pattern_text ps)))%string.
      rewrite has_app. cbn [has_char]. rewrite Ascii.eqb_refl. cbn. apply orb_true_r. }
    assert (CC : 1 <= count_char "," s) by (apply count_some, HC).
    set (fuel := count_char "[" s + count_char "," s) in *.
    change (parse_nodes (Datatypes.S fuel) s) with
      (if has_char "," s then concat_res (map (parse_nodes fuel) (split "," s)) else
         match find_range s with
         | None => Ok [s]
         | Some (prefix, x, y, rest) =>
           let suffix := match find_range rest with Some (m, _, _, _) => m | None => rest end in
           match Z_of_str x, Z_of_str y with
           | Some start, Some end_ =>
             concat_res (map (fun n => parse_nodes fuel (prefix ++ str_of_Z n ++ suffix)%string) (zrange start (end_ + 1)))
           | _, _ => Err ValueError
           end
         end).
    rewrite HC. unfold s at 1. rewrite split_join; [|discriminate|].
    2:{ intros x HX. apply in_map_iff in HX. destruct HX as (r & <- & HR). apply C, HR. }
    rewrite map_map. rewrite (concat_res_map _ names); [reflexivity|].
    intros r HR. assert (SR := S r HR).
    destruct SR as [(a & -> & P)|SR].
    + cbn [pattern_text seg_text]. rewrite str_app_nil. destruct fuel as [|f] eqn:EF; [unfold fuel in EF; lia|]. apply parse_plain, P.
    + assert (B : 1 <= count_char "[" s).
      { transitivity (count_char "[" (pattern_text r)).
        - destruct SR as (a & x & y & b & -> & _). cbn [pattern_text seg_text]. rewrite !count_app. change (count_char "[" "[") with 1. lia.
        - apply count_join_in. apply (in_map pattern_text) in HR. exact HR. }
      destruct fuel as [|f] eqn:EF; [unfold fuel in EF; lia|]. apply parse_simple; [right; exact SR|unfold fuel in EF; lia].
Qed.

Lemma nodelist_means ps : ps <> [] -> (forall p, In p ps -> simple p) ->
  exists l, parseSlurmNodeList (join "," (map pattern_text ps)) = Ok l /\ forall t, In t l <-> list_means ps t.
Proof.
  intros NE S. exists (flat_map names ps). split; [apply nodelist_simple; assumption|].
  intros t. rewrite in_flat_map. unfold list_means. split; intros (p & HP & H); exists p; (split; [exact HP|]); apply names_means; auto.
Qed.

Lemma make_join_from l acc : acc <> "" -> fold_left (fun ret node => ((if String.eqb ret "" then ret else ret ++ ",") ++ node)%string) l acc
  = join "," (acc :: l).
Proof.
  revert acc. induction l as [|x l IH]; intros acc N; [reflexivity|]. cbn [fold_left].
  rewrite (proj2 (String.eqb_neq acc "") N). rewrite IH by (destruct acc; [congruence|discriminate]).
  destruct l as [|y l].
  - cbn [join]. rewrite <- str_app_assoc. reflexivity.
  - change (join "," (acc :: x :: y :: l)) with (acc ++ String "," (x ++ String "," (join "," (y :: l))))%string.
    change (join "," (((acc ++ ",") ++ x)%string :: y :: l)) with (((acc ++ ",") ++ x) ++ String "," (join "," (y :: l)))%string.
    rewrite <- !str_app_assoc. reflexivity.
Qed.
Lemma make_parse l : l <> [] -> (forall x, In x l -> x <> "" /\ plain_name x) -> parseSlurmNodeList (makeSlurmNodeList l) = Ok l.
Proof.
  intros NE H. assert (E : makeSlurmNodeList l = join "," (map pattern_text (map (fun x => [Lit x]) l))).
  { rewrite map_map. transitivity (join "," l).
    - destruct l as [|x l]; [congruence|]. unfold makeSlurmNodeList. cbn [fold_left]. change (String.eqb "" "") with true. cbn iota.
      apply (make_join_from l x). apply H. left. reflexivity.
    - f_equal. transitivity (map (fun x : string => x) l); [symmetry; apply map_id|].
      apply map_ext. intros x. cbn. rewrite str_app_nil. reflexivity. }
  rewrite E, nodelist_simple.
  - f_equal. clear. induction l as [|x l IH]; [reflexivity|]. cbn. f_equal. exact IH.
  - destruct l; [congruence|discriminate].
  - intros p HP. apply in_map_iff in HP. destruct HP as (x & <- & HX). left. exists x. split; [reflexivity|]. apply H, HX.
Qed.

(** ** Path translators *)
Lemma replace_skip old new x r : replace_from old new (x ++ r)%string (String.length x) = replace_from old new r 0.
Proof. induction x as [|a x IH]; [reflexivity|]. cbn. apply IH. Qed.
Lemma replace_absent old new s : ~ occurs old s -> replace_from old new s 0 = s.
Proof.
  induction s as [|a s IH]; intros N; [reflexivity|]. cbn [replace_from].
  destruct (starts old (String a s)) eqn:E.
  - apply starts_iff in E. destruct E as (r & E). exfalso. apply N. exists "", r. exact E.
  - f_equal. apply IH. intros (x & y & ->). apply N. exists (String a x), y. reflexivity.
Qed.
Lemma replace_prefix old new rest : old <> "" -> ~ occurs old rest -> replace old new (old ++ rest)%string = (new ++ rest)%string.
Proof.
  intros NE N. unfold replace. destruct old as [|a old]; [congruence|]. cbn [append replace_from].
  assert (S : starts (String a old) (String a (old ++ rest)%string) = true) by (apply starts_iff; exists rest; reflexivity).
  rewrite S. f_equal. replace (String.length (String a old) - 1) with (String.length old) by (cbn; lia).
  rewrite replace_skip. apply replace_absent, N.
Qed.
Lemma translators_last ts i f : nth_error (pathTranslatorsServerToLocal ts) i = Some f ->
  forall s, f s = replace (fst (last ts ("", ""))) (snd (last ts ("", ""))) s.
Proof.
  intros H s. unfold pathTranslatorsServerToLocal in H. apply nth_error_In in H. apply in_map_iff in H.
  destruct H as (t & <- & _). reflexivity.
Qed.
