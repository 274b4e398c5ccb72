From Coq Require Import String Ascii List Bool Lia Permutation Sorted.
From Verif Require Import QcBase PyBase StrBase DictBase EmpModel EmpSpec EmpProof PtsModel PtsSpec PtsProof GnuModel GnuSpec.
Import ListNotations.
Open Scope string_scope.
Open Scope list_scope.

(** ** Tables *)
Section Keys.
Context {K : Type} (eqb : K -> K -> bool) (eqb_spec : forall a b, eqb a b = true <-> a = b).
Definition mem (k : K) (l : list K) : bool := existsb (eqb k) l.
Lemma eqb_refl' a : eqb a a = true. Proof. apply eqb_spec. reflexivity. Qed.
Lemma eqb_false a b : eqb a b = false <-> a <> b.
Proof. rewrite <- eqb_spec. destruct (eqb a b); split; congruence. Qed.
Lemma eqb_swap a b : eqb a b = eqb b a.
Proof. destruct (eqb b a) eqn:E; [apply eqb_spec in E as ->; apply eqb_refl'|]. apply eqb_false in E. apply eqb_false. congruence. Qed.

Section Firsts.
Context {A : Type} (key : A -> K).
Let same (a b : A) := eqb (key a) (key b).
Lemma firsts_in l k : In k (map key (firsts same l)) <-> In k (map key l).
Proof.
  induction l as [|x l IH]; cbn [firsts map]; [reflexivity|]. cbn [In]. split.
  - intros [H|H]; [left; exact H|right]. apply IH. rewrite in_map_iff in *. destruct H as (a & E & I). apply filter_In in I. exists a. tauto.
  - intros [H|H]; [left; exact H|]. apply IH in H. destruct (eqb (key x) k) eqn:E; [left; apply eqb_spec, E|right].
    rewrite in_map_iff in *. destruct H as (a & <- & I). exists a. split; [reflexivity|]. apply filter_In. split; [exact I|]. unfold same. rewrite E. reflexivity.
Qed.
Lemma firsts_nodup l : NoDup (map key (firsts same l)).
Proof.
  induction l as [|x l IH]; cbn [firsts map]; constructor.
  - rewrite in_map_iff. intros (a & E & I). apply filter_In in I as [_ I]. unfold same in I. rewrite E, eqb_refl' in I. discriminate.
  - revert IH. generalize (firsts same l) as l'. clear l. induction l' as [|y l IH]; cbn [filter map]; intros H; [constructor|]. inversion H as [|? ? N D]; subst.
    destruct (negb (same x y)); [|apply IH, D]. cbn [map]. constructor; [|apply IH, D].
    intros I. apply N. rewrite in_map_iff in *. destruct I as (a & E & I). apply filter_In in I. exists a. tauto.
Qed.
Lemma firsts_snoc l x : firsts same (l ++ [x]) = if mem (key x) (map key l) then firsts same l else firsts same l ++ [x].
Proof.
  induction l as [|y l IH]; cbn [firsts app map mem existsb filter]; [reflexivity|]. rewrite IH. unfold mem. rewrite (eqb_swap (key x) (key y)).
  destruct (eqb (key y) (key x)) eqn:E; cbn [orb].
  - destruct (existsb _ _); [reflexivity|]. rewrite filter_app. cbn [filter]. unfold same at 3. rewrite E. cbn [negb]. rewrite app_nil_r. reflexivity.
  - destruct (existsb _ _); [reflexivity|]. rewrite filter_app. cbn [filter]. unfold same at 3. rewrite E. reflexivity.
Qed.
Context {W : Type} (f : A -> W).
Lemma set_there l k w : NoDup (map key l) -> In k (map key l) -> dset eqb (map (fun a => (key a, f a)) l) k w = map (fun a => (key a, if eqb k (key a) then w else f a)) l.
Proof.
  induction l as [|a l IH]; cbn [map dset]; [intros _ []|]. intros N I. inversion N as [|? ? NI D]; subst. destruct (eqb k (key a)) eqn:E.
  - apply eqb_spec in E as ->. f_equal. apply map_ext_in. intros b B. destruct (eqb (key a) (key b)) eqn:E; [|reflexivity].
    apply eqb_spec in E. destruct NI. rewrite E. apply in_map, B.
  - rewrite IH; [reflexivity|exact D|]. destruct I as [I|I]; [|exact I]. apply eqb_false in E. congruence.
Qed.
Lemma set_new l k w : ~ In k (map key l) -> dset eqb (map (fun a => (key a, f a)) l) k w = map (fun a => (key a, f a)) l ++ [(k, w)].
Proof.
  induction l as [|a l IH]; cbn [map dset app]; [reflexivity|]. intros N. destruct (eqb k (key a)) eqn:E; [apply eqb_spec in E; destruct N; left; congruence|].
  rewrite IH; [reflexivity|]. intros I. apply N. right. exact I.
Qed.
Lemma get_there l k a : NoDup (map key l) -> In a l -> key a = k -> dget eqb (map (fun a => (key a, f a)) l) k = Some (f a).
Proof.
  induction l as [|b l IH]; cbn [map dget]; [intros _ []|]. intros N I E. inversion N as [|? ? NI D]; subst. destruct I as [->|I]; [rewrite eqb_refl'; reflexivity|].
  destruct (eqb (key a) (key b)) eqn:Q; [|apply IH; auto]. apply eqb_spec in Q. destruct NI. rewrite <- Q. apply in_map, I.
Qed.
Lemma get_new l k : ~ In k (map key l) -> dget eqb (map (fun a => (key a, f a)) l) k = None.
Proof.
  induction l as [|b l IH]; cbn [map dget]; [reflexivity|]. intros N. destruct (eqb k (key b)) eqn:E; [apply eqb_spec in E; destruct N; left; congruence|].
  apply IH. intros I. apply N. right. exact I.
Qed.
End Firsts.

Lemma mem_in k l : mem k l = true <-> In k l.
Proof. unfold mem. rewrite existsb_exists. split; [intros (x & I & E); apply eqb_spec in E as ->; exact I|intros I; exists k; split; [exact I|apply eqb_refl']]. Qed.
Lemma mem_out k l : mem k l = false <-> ~ In k l.
Proof. rewrite <- mem_in. destruct (mem k l); split; congruence. Qed.

Lemma lasts_snoc {V} k (l : list (K * V)) k' v' : forall v, lasts eqb k (l ++ [(k', v')]) v = if eqb k k' then v' else lasts eqb k l v.
Proof. induction l as [|[a w] l IH]; intros v; cbn [lasts app]; [reflexivity|]. apply IH. Qed.
Lemma table_snoc {V} (l : list (K * V)) k v : table eqb (l ++ [(k, v)]) = dset eqb (table eqb l) k v.
Proof.
  unfold table. rewrite (firsts_snoc fst). cbn [fst]. destruct (mem k (map fst l)) eqn:M.
  - apply mem_in in M. rewrite (set_there fst _ _ _ _ (firsts_nodup fst l)) by (apply (firsts_in fst), M).
    apply map_ext. intros p. rewrite lasts_snoc, (eqb_swap k). reflexivity.
  - apply mem_out in M. rewrite set_new by (rewrite (firsts_in fst); exact M). rewrite map_app. cbn [map fst snd]. rewrite lasts_snoc, eqb_refl'. f_equal.
    apply map_ext_in. intros p I. rewrite lasts_snoc. destruct (eqb (fst p) k) eqn:E; [|reflexivity]. apply eqb_spec in E. destruct M. apply (firsts_in fst). rewrite <- E. apply in_map, I.
Qed.
Lemma firsts_id l : firsts eqb l = firsts (fun a b => eqb ((fun x => x) a) ((fun x => x) b)) l. Proof. reflexivity. Qed.
Lemma curves_snoc {V} (ms : list (K * (K * V))) c x v : curves eqb (ms ++ [(c, (x, v))]) = put eqb (curves eqb ms) c x v.
Proof.
  unfold curves. rewrite map_app. cbn [map fst]. pose proof (firsts_snoc (fun k : K => k) (map fst ms) c) as F. cbn beta in F. rewrite map_id in F.
  change (fun a b => eqb a b) with eqb in F. replace (fun a b : K => eqb a b) with eqb in F by reflexivity. rewrite F. clear F.
  pose proof (firsts_nodup (fun k : K => k) (map fst ms)) as N. pose proof (firsts_in (fun k : K => k) (map fst ms) c) as I. rewrite !map_id in *. cbn beta in N, I.
  set (ks := firsts eqb (map fst ms)) in *. change (firsts (fun a b => eqb a b) (map fst ms)) with ks in *.
  set (f := fun k => table eqb (map snd (filter (fun m => eqb k (fst m)) ms))).
  assert (Fc : table eqb (map snd (filter (fun m => eqb c (fst m)) (ms ++ [(c, (x, v))]))) = dset eqb (f c) x v).
  { rewrite filter_app. cbn [filter fst]. rewrite eqb_refl', map_app. cbn [map snd]. apply table_snoc. }
  assert (Fo : forall k, k <> c -> table eqb (map snd (filter (fun m => eqb k (fst m)) (ms ++ [(c, (x, v))]))) = f k).
  { intros k E. rewrite filter_app. cbn [filter fst]. apply eqb_false in E. rewrite E, app_nil_r. reflexivity. }
  unfold put. destruct (mem c (map fst ms)) eqn:M.
  - apply mem_in in M. apply I in M.
    pose proof (get_there (fun k : K => k) f ks c c) as G. rewrite map_id in G. specialize (G N M eq_refl). cbn beta in G. change (fun k => (k, table eqb (map snd (filter (fun m => eqb k (fst m)) ms)))) with (fun k => (k, f k)). cbv zeta. rewrite !G.
    pose proof (set_there (fun k : K => k) f ks c (dset eqb (f c) x v)) as Q. rewrite map_id in Q. rewrite Q by assumption.
    apply map_ext. intros k. destruct (eqb c k) eqn:E; [apply eqb_spec in E as <-; rewrite Fc; reflexivity|]. apply eqb_false in E. rewrite Fo by congruence. reflexivity.
  - apply mem_out in M. assert (M' : ~ In c ks) by (rewrite I; exact M).
    pose proof (get_new (fun k : K => k) f ks c) as G. rewrite map_id in G. change (fun k => (k, table eqb (map snd (filter (fun m => eqb k (fst m)) ms)))) with (fun k => (k, f k)). cbv zeta. rewrite (G M').
    pose proof (set_new (fun k : K => k) f ks c) as Q. rewrite map_id in Q. rewrite !(Q _ M').
    assert (G2 : dget eqb (map (fun k => (k, f k)) ks ++ [(c, [])]) c = Some []).
    { rewrite <- (Q [] M'). apply dget_dset_same, eqb_spec. }
    rewrite G2. rewrite map_app. cbn [map]. rewrite Fc.
    assert (D : forall (l : list (K * list (K * V))) w w', ~ In c (map fst l) -> dset eqb (l ++ [(c, w)]) c w' = l ++ [(c, w')]).
    { induction l as [|[a b] l IH]; intros w w' H; cbn [dset app map fst] in *; [rewrite eqb_refl'; reflexivity|]. destruct (eqb c a) eqn:E; [apply eqb_spec in E; destruct H; left; congruence|].
      rewrite IH; [reflexivity|]. intros H'. apply H. right. exact H'. }
    rewrite D; [|rewrite map_map; cbn [fst]; rewrite map_id; exact M'].
    assert (E0 : f c = []).
    { unfold f. replace (filter (fun m => eqb c (fst m)) ms) with (@nil (K * (K * V))); [reflexivity|]. symmetry. clear - M eqb_spec.
      induction ms as [|m ms IH]; [reflexivity|]. cbn [filter map] in *. destruct (eqb c (fst m)) eqn:E; [apply eqb_spec in E; destruct M; left; congruence|]. apply IH. intros H. apply M. right. exact H. }
    rewrite E0. f_equal. apply map_ext_in. intros k H. rewrite Fo; [reflexivity|]. intros ->. contradiction.
Qed.
Lemma curves_all {V} (ms : list (K * (K * V))) : fold_left (fun d m => put eqb d (fst m) (fst (snd m)) (snd (snd m))) ms [] = curves eqb ms.
Proof. induction ms as [|[c [x v]] ms IH] using rev_ind; [reflexivity|]. rewrite fold_left_app, IH, curves_snoc. reflexivity. Qed.
End Keys.

(** ** Text *)
Definition cat : list string -> string := fold_right append "".
Definition lined (ls : list string) : string := cat (map (fun l => l ++ eol)%string ls).
Lemma app_assoc_s a b c : ((a ++ b) ++ c = a ++ b ++ c)%string.
Proof. induction a; cbn; congruence. Qed.
Lemma fold_text {A} (f : A -> string) l : forall acc, fold_left (fun t a => (t ++ f a)%string) l acc = (acc ++ cat (map f l))%string.
Proof.
  induction l as [|a l IH]; intros acc; cbn [fold_left map cat fold_right]; [symmetry; apply append_nil_r|]. rewrite IH, app_assoc_s. reflexivity.
Qed.
Lemma split_lined ls b : (forall l, In l ls -> has_char "010" l = false) -> split "010" (lined ls ++ b) = ls ++ split "010" b.
Proof.
  unfold lined. induction ls as [|l ls IH]; intros H; cbn [map cat fold_right app]; [reflexivity|].
  rewrite !app_assoc_s. change (eol ++ ?x)%string with (String "010" x). rewrite split_cons by (apply H; left; reflexivity). f_equal. apply IH. intros m M. apply H. right. exact M.
Qed.
Lemma split_eol a b : has_char "010" a = false -> split "010" (a ++ eol ++ b) = a :: split "010" b.
Proof. intros H. change (eol ++ b)%string with (String "010" b). apply split_cons, H. Qed.
Lemma find_ok ls x r : (forall l, In l ls -> String.prefix "plot " l = false) -> find_plot (ls ++ ("plot " ++ x)%string :: r) = Some (x, r).
Proof.
  induction ls as [|l ls IH]; intros H; cbn [find_plot app].
  - cbn [append String.prefix]. repeat (destruct (ascii_dec _ _) as [_|N]; [|congruence]). destruct x; cbn [String.prefix String.length Nat.sub String.substring]; f_equal; f_equal.
    + assert (S : forall s, String.substring 0 (String.length s) s = s) by (induction s; cbn; congruence). cbn. rewrite S. reflexivity.
  - rewrite (H l) by (left; reflexivity). apply IH. intros m M. apply H. right. exact M.
Qed.
Lemma find_none ls : (forall l, In l ls -> String.prefix "plot " l = false) -> find_plot ls = None.
Proof. induction ls as [|l ls IH]; intros H; cbn [find_plot]; [reflexivity|]. rewrite (H l) by (left; reflexivity). apply IH. intros m M. apply H. right. exact M. Qed.
Lemma block_ok b r : (forall l, In l b -> l <> "e") -> read_block (b ++ "e" :: r) = (b, Some r).
Proof.
  induction b as [|l b IH]; intros H; cbn [read_block app]; [reflexivity|]. destruct (String.eqb_spec l "e") as [E|_]; [destruct (H l); [left; reflexivity|exact E]|].
  rewrite IH; [reflexivity|]. intros m M. apply H. right. exact M.
Qed.
Lemma block_open b : (forall l, In l b -> l <> "e") -> read_block b = (b, None).
Proof.
  induction b as [|l b IH]; intros H; cbn [read_block]; [reflexivity|]. destruct (String.eqb_spec l "e") as [E|_]; [destruct (H l); [left; reflexivity|exact E]|].
  rewrite IH; [reflexivity|]. intros m M. apply H. right. exact M.
Qed.
Lemma blocks_ok bs : forall items more r, length items = length bs -> (forall b l, In b bs -> In l b -> l <> "e") ->
  read_blocks (items ++ more) (flat_map (fun b => b ++ ["e"]) bs ++ r) = (combine items bs ++ fst (read_blocks more r), snd (read_blocks more r)).
Proof.
  induction bs as [|b bs IH]; intros [|i items] more r L H; try discriminate L.
  - cbn. destruct (read_blocks more r); reflexivity.
  - cbn [app flat_map read_blocks combine]. rewrite <- !app_assoc. cbn [app]. rewrite block_ok by (intros l I; apply (H b); [left; reflexivity|exact I]).
    rewrite IH; [reflexivity|injection L as L; exact L|]. intros b' l B I. apply (H b'); [right; exact B|exact I].
Qed.
(** Items, separated by commas. *)
Definition quoted (s : string) : Prop := clean s /\ exists r, s = String "'" r.
Definition later (items : list string) : string := cat (map (fun i => ", " ++ i)%string items).
Lemma later_app a b : later (a ++ b) = (later a ++ later b)%string.
Proof. unfold later. induction a as [|x a IH]; cbn [map app cat fold_right]; [reflexivity|]. fold (cat (map (fun i => ", " ++ i)%string (a ++ b))). rewrite IH, !app_assoc_s. reflexivity. Qed.
Lemma split_items i items : quoted i -> Forall quoted items -> map skip_blank (split "," (i ++ later items)) = i :: items.
Proof.
  intros Q F. revert i Q. induction F as [|j items J F IH]; intros i [[C _] (r & ->)].
  - cbn [later map cat fold_right]. rewrite append_nil_r, split_none by exact C. reflexivity.
  - cbn [later map cat fold_right]. fold (later items). change ((", " ++ j) ++ later items)%string with (String "," (String " " (j ++ later items))).
    rewrite split_cons by exact C. cbn [map skip_blank]. f_equal.
    specialize (IH j J). cbn [split]. change (Ascii.eqb " " ",") with false. cbv iota. destruct (split "," (j ++ later items)) as [|h t] eqn:E; [exfalso; exact (split_nonempty _ _ E)|].
    cbn [map skip_blank] in *. destruct J as [[CJ _] (q & ->)]. 
    assert (H : exists h', h = String "'" h').
    { cbn [append split] in E. change (Ascii.eqb "'" ",") with false in E. cbv iota in E. destruct (split "," (q ++ later items)); injection E as <- _; eexists; reflexivity. }
    destruct H as (h' & ->). exact IH.
Qed.
Lemma items_no_eol i items : quoted i -> Forall quoted items -> has_char "010" ("plot " ++ i ++ later items) = false.
Proof.
  intros [[_ Q] _] F. assert (L : has_char "010" (later items) = false).
  { induction F as [|j items [[_ J] _] F IH]; [reflexivity|]. cbn [later map cat fold_right]. fold (later items). rewrite !has_char_app, J, IH. reflexivity. }
  rewrite !has_char_app, Q, L. reflexivity.
Qed.
(** A command with data. *)
Lemma gnuplot_ok settings i items bs more r : (forall l, In l settings -> has_char "010" l = false /\ String.prefix "plot " l = false) -> quoted i -> Forall quoted items -> Forall quoted more ->
  length (i :: items) = length bs -> (forall b l, In b bs -> In l b -> has_char "010" l = false /\ l <> "e") ->
  gnuplot (lined settings ++ "plot " ++ i ++ later (items ++ more) ++ eol ++ cat (map (fun b => lined b ++ "e" ++ eol) bs) ++ r)%string
  = Some (combine (i :: items) bs ++ fst (read_blocks more (split "010" r)), snd (read_blocks more (split "010" r))).
Proof.
  intros S Q F M L B. unfold gnuplot. rewrite split_lined by (intros l I; apply S, I).
  replace ("plot " ++ i ++ later (items ++ more) ++ eol ++ cat (map (fun b => lined b ++ "e" ++ eol) bs) ++ r)%string with (("plot " ++ i ++ later (items ++ more)) ++ eol ++ cat (map (fun b => lined b ++ "e" ++ eol) bs) ++ r)%string
    by (rewrite !app_assoc_s; reflexivity).
  assert (FM : Forall quoted (items ++ more)) by (apply Forall_app; split; assumption).
  rewrite split_eol by (apply items_no_eol; assumption). rewrite find_ok by (intros l I; apply S, I). rewrite split_items by assumption.
  assert (E : split "010" (cat (map (fun b => lined b ++ "e" ++ eol) bs) ++ r)%string = flat_map (fun b => b ++ ["e"]) bs ++ split "010" r).
  { clear L. induction bs as [|b bs IH]; [reflexivity|]. cbn [map cat fold_right flat_map]. rewrite !app_assoc_s. rewrite split_lined by (intros l I; apply (B b); [left; reflexivity|exact I]).
    rewrite split_eol by reflexivity. rewrite <- !app_assoc. cbn [app]. do 2 f_equal. apply IH. intros b' l I J. apply (B b'); [right; exact I|exact J]. }
  rewrite E. f_equal. apply (blocks_ok bs (i :: items) more); [exact L|]. intros b l I J. apply (B b l I J).
Qed.

(** ** The scripts *)
Lemma items_later {K V} (item : K -> string) (cs : list (K * list (K * V))) : forall cmd, plot_items item false cmd cs = (cmd ++ later (map (fun c => item (fst c)) cs))%string.
Proof.
  induction cs as [|[k v] cs IH]; intros cmd; cbn [plot_items map later cat fold_right fst]; [symmetry; apply append_nil_r|]. rewrite IH, !app_assoc_s. reflexivity.
Qed.
Lemma items_first {K V} (item : K -> string) (c : K * list (K * V)) cs cmd :
  plot_items item true cmd (c :: cs) = (cmd ++ "plot " ++ item (fst c) ++ later (map (fun c => item (fst c)) cs))%string.
Proof. destruct c as [k v]. cbn [plot_items fst]. rewrite items_later, !app_assoc_s. reflexivity. Qed.
Lemma rows_lined {K V} (row : K -> V -> string) ps : rows_text row ps = lined (map (fun p => row (fst p) (snd p)) ps).
Proof. unfold rows_text, lined. rewrite (fold_text (fun p => (row (fst p) (snd p) ++ eol)%string)), map_map. reflexivity. Qed.
Lemma blocks_cat {K V} (row : K -> V -> string) cs : blocks_text row cs = cat (map (fun b => lined b ++ "e" ++ eol)%string (map (fun c : K * list (K * V) => map (fun p => row (fst p) (snd p)) (snd c)) cs)).
Proof.
  unfold blocks_text. rewrite (fold_text (fun c => (rows_text row (snd c) ++ "e" ++ eol)%string)), map_map. cbn [append]. f_equal. apply map_ext. intros c. rewrite rows_lined. reflexivity.
Qed.
Lemma combine_map {A B C} (f : A -> B) (g : A -> C) l : combine (map f l) (map g l) = map (fun a => (f a, g a)) l.
Proof. induction l; cbn; congruence. Qed.
Lemma not_e a b : has_char " " (a ++ String " " b) = true. Proof. rewrite has_char_app. cbn. rewrite orb_true_r. reflexivity. Qed.
(** A table is drawn, possibly with more curves. *)
Lemma table_drawn {K V} (item : K -> string) (row : K -> V -> string) settings c (cs : list (K * list (K * V))) more r :
  (forall l, In l settings -> has_char "010" l = false /\ String.prefix "plot " l = false) -> (forall k, quoted (item k)) -> (forall k v, has_char "010" (row k v) = false /\ row k v <> "e") -> Forall quoted more ->
  gnuplot (((plot_items item true (lined settings) (c :: cs)) ++ later more) ++ eol ++ blocks_text row (c :: cs) ++ r)%string
  = Some (map (fun c => (item (fst c), map (fun p => row (fst p) (snd p)) (snd c))) (c :: cs) ++ fst (read_blocks more (split "010" r)), snd (read_blocks more (split "010" r))).
Proof.
  intros S I R M. rewrite items_first, blocks_cat, !app_assoc_s.
  replace (later (map (fun c => item (fst c)) cs) ++ later more ++ eol ++ cat (map (fun b => lined b ++ "e" ++ eol)%string (map (fun c => map (fun p => row (fst p) (snd p)) (snd c)) (c :: cs))) ++ r)%string
    with (later (map (fun c => item (fst c)) cs ++ more) ++ eol ++ cat (map (fun b => lined b ++ "e" ++ eol)%string (map (fun c => map (fun p => row (fst p) (snd p)) (snd c)) (c :: cs))) ++ r)%string
    by (rewrite later_app, app_assoc_s; reflexivity).
  rewrite gnuplot_ok; [|exact S|apply I| |exact M| |].
  - do 2 f_equal. f_equal. change (item (fst c) :: map (fun c => item (fst c)) cs) with (map (fun c => item (fst c)) (c :: cs)). apply (combine_map (fun c => item (fst c))).
  - apply Forall_forall. intros x H. apply in_map_iff in H as (d & <- & _). apply I.
  - cbn [length map]. rewrite !map_length. reflexivity.
  - intros b l B L. apply in_map_iff in B as (d & <- & _). apply in_map_iff in L as (p & <- & _). apply R.
Qed.

Section Scripts.
Variables (fs : filesystem) (sqrt : Qc -> Qc) (str : Qc -> string) (float : string -> option Qc).
Hypothesis str_clean : forall x, clean (str x).
Section Keyed.
Variables (K : Type) (keqb : K -> K -> bool) (str_key : K -> string) (value : string -> string -> K).
Hypothesis keqb_spec : forall a b, keqb a b = true <-> a = b.
Hypothesis key_clean : forall k, clean (str_key k).
Lemma quoted_title a k b : clean a -> clean b -> (exists r, a = String "'" r) -> quoted (a ++ str_key k ++ b).
Proof.
  intros [A A'] [B B'] (r & ->). destruct (key_clean k) as [C C']. split; [split; rewrite !has_char_app, ?A, ?A', ?B, ?B', ?C, ?C'; reflexivity|]. eexists. reflexivity.
Qed.
Lemma firsts_cons (l : list K) : l <> [] -> exists k ks, firsts keqb l = k :: ks. Proof. destruct l as [|k l]; [congruence|]. intros _. eexists; eexists; reflexivity. Qed.
Lemma curves_cons {V} (ms : list (K * (K * V))) : ms <> [] -> exists c cs, curves keqb ms = c :: cs.
Proof. intros N. unfold curves. destruct (firsts_cons (map fst ms)) as (k & ks & ->); [destruct ms; [congruence|discriminate]|]. eexists; eexists; reflexivity. Qed.

Lemma compare_ok rundirs ms : Forall2 (diffusion_run fs sqrt float value) rundirs ms -> forall d,
  compare_loop fs sqrt float K keqb value rundirs d = Ok (fold_left (fun d m => put keqb d (fst m) (fst (snd m)) (snd (snd m))) ms d).
Proof.
  induction 1 as [|rundir m rundirs ms (data & E & N & ->) F IH]; intros d; [reflexivity|]. cbn [compare_loop fold_left fst snd]. unfold stored in E. rewrite E. cbn [raised bind].
  unfold getArithmeticMean. rewrite deviation_values, mean_values. cbn [pdata]. destruct data as [|p data]; [congruence|]. cbn [bind]. apply IH.
Qed.
Lemma compare_text rundirs ms : rundirs <> [] -> Forall2 (diffusion_run fs sqrt float value) rundirs ms ->
  exists text, compare_script fs sqrt str float K keqb str_key value rundirs = Ok (Some text) /\
    gnuplot text = Some (map (fun c => (("'-' using 1:2:3 with yerrorbars title '" ++ str_key (fst c) ++ "'")%string,
      map (fun p => (str_key (fst p) ++ " " ++ str (fst (snd p)) ++ " " ++ str (snd (snd p)))%string) (snd c))) (curves keqb ms), Some [""]).
Proof.
  intros N F. unfold compare_script. destruct rundirs as [|r0 rs]; [congruence|]. rewrite (compare_ok _ _ F). cbn [bind]. eexists. split; [reflexivity|].
  rewrite curves_all by exact keqb_spec. destruct (curves_cons ms) as (c & cs & E); [inversion F; discriminate|]. rewrite E.
  pose proof (table_drawn (compare_item K str_key) (compare_row str K str_key) ["set terminal wxt persist"; "set xlabel 'shear rate'"; "set ylabel 'self-diffusion coefficient'"] c cs [] "") as D.
  cbn [later map cat fold_right] in D. rewrite !append_nil_r in D. unfold lined in D. cbn [map cat fold_right] in D. rewrite append_nil_r, !app_assoc_s in D. cbn [read_blocks fst snd split app] in D. rewrite app_nil_r in D. apply D.
  - intros l [<-|[<-|[<-|[]]]]; split; reflexivity.
  - intros k. apply quoted_title; [split; reflexivity|split; reflexivity|eexists; reflexivity].
  - intros k [m d]. unfold compare_row. cbn [fst snd]. split.
    + rewrite !has_char_app, (proj2 (key_clean k)), (proj2 (str_clean m)), (proj2 (str_clean d)). reflexivity.
    + intros H. pose proof (not_e (str_key k) (str m ++ " " ++ str d)) as Q. change (String " " ?x) with (" " ++ x)%string in Q. rewrite H in Q. discriminate.
  - constructor.
Qed.

Lemma lengths_ok rundirs ms : Forall2 (bond_run fs sqrt float value) rundirs ms -> forall more d,
  lengths_loop fs sqrt float K keqb value (rundirs ++ more) d = lengths_loop fs sqrt float K keqb value more (fold_left (fun d m => put keqb d (fst m) (fst (snd m)) (snd (snd m))) ms d).
Proof.
  induction 1 as [|rundir m rundirs ms (data & k & E & N & P & K1 & K2 & ->) F IH]; intros more d; [reflexivity|]. cbn [lengths_loop fold_left fst snd app]. unfold stored in E. rewrite E, K1, K2. cbn [raised bind].
  replace (keqb k k) with true by (symmetry; apply keqb_spec; reflexivity). cbn [negb]. rewrite sample_mean_ok. destruct (qeqb (qsum (map snd data)) 0) eqn:Q; [apply qeqb_spec in Q; contradiction|]. cbn [bind].
  destruct (qltb (weighted_mean data) 0) eqn:L; [|apply IH]. apply qltb_spec in L. exfalso. apply (Qclt_not_le _ _ L P).
Qed.
Lemma substring_all s : String.substring 0 (String.length s) s = s. Proof. induction s; cbn; congruence. Qed.
Lemma arguments_ok t rundirs : theory_fits fs t -> (t = None -> match rundirs with [] => True | r :: _ => String.prefix theory_flag r = false end) ->
  length_arguments (theory_args t ++ rundirs) = Ok (match t with None => [] | Some (k, f, _, _) => [(k, f)] end, rundirs).
Proof.
  intros T P. destruct t as [[[[k f] ls] rest]|].
  - cbn [theory_args app]. destruct T as ([C _] & D & _). unfold length_arguments.
    replace (String.prefix theory_flag ("--theory=" ++ k ++ "," ++ f)) with true.
    2: { symmetry. unfold theory_flag. cbn. destruct k; reflexivity. }
    replace (String.substring (String.length theory_flag) (String.length ("--theory=" ++ k ++ "," ++ f) - String.length theory_flag) ("--theory=" ++ k ++ "," ++ f)) with (k ++ String "," f)%string.
    2: { symmetry. change (String.length ("--theory=" ++ k ++ "," ++ f) - String.length theory_flag)%nat with (String.length (k ++ "," ++ f) - 0)%nat. rewrite PeanoNat.Nat.sub_0_r. apply (substring_all (k ++ "," ++ f)). }
    rewrite split_cons, split_none by assumption. reflexivity.
  - cbn [theory_args app]. specialize (P eq_refl). destruct rundirs as [|r rs]; [reflexivity|]. unfold length_arguments. rewrite P. reflexivity.
Qed.
Lemma lines_lined ls rest : EmpSpec.text_of_lines ls rest = (lined ls ++ rest)%string.
Proof. unfold lined, EmpSpec.text_of_lines. induction ls as [|l ls IH]; [reflexivity|]. cbn [map cat fold_right]. fold cat. rewrite IH, !app_assoc_s. reflexivity. Qed.
Definition length_settings := ["set terminal wxt persist"; "set xlabel 'Shear Rate'"; "set ylabel 'Root Mean Square Bond Length'"].
Lemma length_text t rundirs ms : rundirs <> [] -> theory_fits fs t -> (t = None -> forall r rs, rundirs = r :: rs -> String.prefix theory_flag r = false) -> Forall2 (bond_run fs sqrt float value) rundirs ms ->
  exists text, length_script fs sqrt str float K keqb str_key value (theory_args t ++ rundirs) = Ok (Some text) /\
    gnuplot text = Some (map (fun c => (("'-' with linespoints title 'Data k=" ++ str_key (fst c) ++ "'")%string, map (fun p => (str_key (fst p) ++ " " ++ str (snd p))%string) (snd c))) (curves keqb ms) ++ theory_shown t, theory_left t).
Proof.
  intros N T P F. unfold length_script. destruct (theory_args t ++ rundirs) as [|a0 l0] eqn:A; [apply app_eq_nil in A as [_ A]; congruence|]. rewrite <- A. clear A a0 l0.
  rewrite arguments_ok; [|exact T|intros E; destruct rundirs as [|r rs]; [exact I|apply (P E _ _ eq_refl)]]. cbn [bind].
  pose proof (lengths_ok _ _ F [] []) as L. rewrite app_nil_r in L. rewrite L. cbn [lengths_loop bind]. rewrite curves_all by exact keqb_spec.
  destruct (curves_cons ms) as (c & cs & E); [inversion F; congruence|]. rewrite E.
  assert (SE : ("set terminal wxt persist" ++ eol ++ "set xlabel 'Shear Rate'" ++ eol ++ "set ylabel 'Root Mean Square Bond Length'" ++ eol)%string = lined length_settings) by reflexivity.
  rewrite SE.
  assert (S : forall l, In l length_settings -> has_char "010" l = false /\ String.prefix "plot " l = false) by (intros l [<-|[<-|[<-|[]]]]; split; reflexivity).
  assert (Q : forall k, quoted (length_item K str_key k)) by (intros k; apply quoted_title; [split; reflexivity|split; reflexivity|eexists; reflexivity]).
  assert (R : forall k v, has_char "010" (length_row str K str_key k v) = false /\ length_row str K str_key k v <> "e").
  { intros k v. unfold length_row. split; [rewrite !has_char_app, (proj2 (key_clean k)), (proj2 (str_clean v)); reflexivity|].
    intros H. pose proof (not_e (str_key k) (str v)) as X. change (String " " ?x) with (" " ++ x)%string in X. rewrite H in X. discriminate. }
  destruct t as [[[[k f] ls] rest]|].
  - destruct T as (C & _ & FS & LS & RE). cbn [theory_items fold_left fst theory_blocks]. rewrite FS. cbn [bind]. eexists. split; [reflexivity|].
    set (title := ("'-' with lines title 'Theory k=" ++ k ++ "'")%string).
    assert (QT : Forall quoted [title]).
    { constructor; [|constructor]. unfold title. split; [split; rewrite !has_char_app; [rewrite (proj1 C)|rewrite (proj2 C)]; reflexivity|]. eexists; reflexivity. }
    pose proof (table_drawn (length_item K str_key) (length_row str K str_key) length_settings c cs [title] (EmpSpec.text_of_lines ls rest ++ "e" ++ eol)%string S Q R QT) as D.
    unfold later in D. cbn [map cat fold_right] in D. rewrite append_nil_r in D.
    match type of D with gnuplot ?x = _ => match goal with |- gnuplot ?y = _ => replace y with x end end.
    2: { unfold title. rewrite !app_assoc_s. reflexivity. }
    rewrite D. unfold theory_shown, theory_left. fold title. cbn [read_blocks].
    rewrite lines_lined, app_assoc_s, split_lined by (intros l H; apply LS, H).
    destruct (String.eqb_spec rest "") as [->|NE].
    + change ("" ++ "e" ++ eol)%string with ("e" ++ eol ++ "")%string. rewrite split_eol by reflexivity. rewrite block_ok by (intros l H; apply LS, H). reflexivity.
    + assert (X : split "010" (rest ++ "e" ++ eol) = [(rest ++ "e")%string; ""]).
      { rewrite <- app_assoc_s. change ((rest ++ "e") ++ eol)%string with ((rest ++ "e") ++ eol ++ "")%string. rewrite split_eol by (rewrite has_char_app, RE; reflexivity). reflexivity. }
      rewrite X. rewrite block_open; [reflexivity|]. intros l H. apply in_app_or in H as [H|[<-|[<-|[]]]]; [apply LS, H| |discriminate].
      destruct rest as [|ch rest]; [congruence|]. cbn. intros H. injection H as _ H. destruct rest; discriminate.
  - cbn [theory_items fold_left theory_blocks bind]. eexists. split; [reflexivity|].
    pose proof (table_drawn (length_item K str_key) (length_row str K str_key) length_settings c cs [] "" S Q R (Forall_nil _)) as D.
    unfold later in D. cbn [map cat fold_right] in D. rewrite !append_nil_r in D. rewrite app_assoc_s. exact D.
Qed.
(** Only a theory. *)
Lemma length_only k f ls rest : theory_fits fs (Some (k, f, ls, rest)) -> (forall l, In l (ls ++ [(rest ++ "e")%string]) -> String.prefix "plot " l = false) ->
  exists text, length_script fs sqrt str float K keqb str_key value [("--theory=" ++ k ++ "," ++ f)%string] = Ok (Some text) /\ gnuplot text = None.
Proof.
  intros T H. unfold length_script. change [("--theory=" ++ k ++ "," ++ f)%string] with (theory_args (Some (k, f, ls, rest)) ++ []).
  rewrite arguments_ok; [|exact T|discriminate]. cbn [bind lengths_loop plot_items theory_items fold_left fst theory_blocks]. destruct T as (C & _ & FS & LS & RE). rewrite FS. cbn [bind].
  eexists. split; [reflexivity|]. unfold gnuplot. rewrite find_none; [reflexivity|].
  match goal with |- context [split _ ?x] => replace x with (lined (length_settings ++ [(", '-' with lines title 'Theory k=" ++ k ++ "'")%string] ++ ls) ++ (rest ++ "e") ++ eol ++ "")%string end.
  - rewrite split_lined, split_eol.
    + intros l I0. apply in_app_or in I0 as [I0|[<-|[<-|[]]]]; [|apply H, in_or_app; right; left; reflexivity|reflexivity].
      apply in_app_or in I0 as [[<-|[<-|[<-|[]]]]|[<-|I0]]; try reflexivity. apply H, in_or_app. left. exact I0.
    + rewrite has_char_app, RE. reflexivity.
    + intros l I0. apply in_app_or in I0 as [[<-|[<-|[<-|[]]]]|[<-|I0]]; try reflexivity; [|apply LS, I0]. rewrite !has_char_app, (proj2 C). reflexivity.
  - rewrite lines_lined. unfold lined. rewrite !map_app.
    assert (X : forall a b, cat (a ++ b) = (cat a ++ cat b)%string) by (induction a as [|x a IH]; intros b; [reflexivity|cbn [cat fold_right app] in *; rewrite IH, app_assoc_s; reflexivity]).
    rewrite !X. unfold length_settings. cbn [map cat fold_right]. rewrite !app_assoc_s. cbn [append]. rewrite ?append_nil_r. reflexivity.
Qed.
End Keyed.

(** ** Dumbbells *)
Variable setting : string -> string -> Qc * bool.
Variables (ratio : Qc -> result Qc) (mu : Qc -> Qc).
Lemma static_ok rundir name x : static fs float rundir name x -> exists data, static_data fs float rundir = Ok data /\ static_get data name = Ok x.
Proof. intros (text & data & F & R & G). exists data. unfold static_data. rewrite F. split; assumption. Qed.
Lemma weissenberg_ok rundir Wi : weissenberg_number fs float setting rundir Wi -> weissenberg fs float setting rundir = Ok Wi.
Proof.
  intros (tau & there & E & H). unfold weissenberg. rewrite E. cbn [fst snd]. destruct there; [rewrite H; reflexivity|].
  destruct (static_ok _ _ _ H) as (data & -> & G). exact G.
Qed.
Lemma key_out d x : ~ In x (map fst d) -> has_key d x = false.
Proof.
  intros N. unfold has_key. induction d as [|p d IH]; [reflexivity|]. cbn [existsb map In] in *. destruct (qeqb (fst p) x) eqn:E; [apply qeqb_spec in E; destruct N; left; exact E|]. apply IH. tauto.
Qed.
Lemma key_in d x : In x (map fst d) -> has_key d x = true.
Proof. intros I. apply in_map_iff in I as (p & <- & I). apply existsb_exists. exists p. split; [exact I|]. apply qeqb_spec. reflexivity. Qed.
Lemma set_out (d : list (Qc * Qc)) x v : ~ In x (map fst d) -> dset qeqb d x v = d ++ [(x, v)].
Proof.
  induction d as [|[k w] d IH]; cbn [dset map fst app]; [reflexivity|]. intros N. destruct (qeqb x k) eqn:E; [apply qeqb_spec in E; destruct N; left; congruence|]. rewrite IH; [reflexivity|]. cbn in N. tauto.
Qed.
Lemma alignment_ok rundirs ms : Forall2 (aligned_run fs float setting) rundirs ms -> forall d more, NoDup (map fst (d ++ ms)) ->
  alignment_loop fs float setting (rundirs ++ more) d = alignment_loop fs float setting more (d ++ ms).
Proof.
  induction 1 as [|rundir m rundirs ms (W & xx & yy & xy & a & b & c & A & XX & YY & XY & NE & P & T) F IH]; intros d more N; [rewrite app_nil_r; reflexivity|].
  cbn [alignment_loop app]. rewrite (weissenberg_ok _ _ W). cbn [bind].
  assert (NI : ~ In (fst m) (map fst d)).
  { rewrite map_app in N. cbn [map] in N. apply NoDup_remove_2 in N. intros I. apply N, in_or_app. left. exact I. }
  rewrite (key_out _ _ NI), A. cbn [raised bind]. unfold getTan2Chi. rewrite XX, YY, XY. cbn [bind]. destruct (qeqb (a - b) 0) eqn:Q.
  { apply qeqb_spec in Q. destruct NE. rewrite <- (Qcplus_0_l b), <- Q. ring. }
  cbn [bind]. replace (qz 2) with (1 + 1)%Qc by (apply Qc_is_canon; reflexivity).
  set (t := ((1 + 1) * c / (a - b))%Qc) in *.
  assert (E : (if qltb t 0 then t * - (1) else t)%Qc = snd m).
  { destruct (qltb t 0) eqn:L.
    - apply qltb_spec in L. destruct T as [T|T]; rewrite T in *; [exfalso; exact (Qclt_not_le _ _ L P)|ring].
    - apply qltb_false in L. destruct T as [T|T]; rewrite T in *; [reflexivity|]. assert (Z : t = 0%Qc); [|rewrite Z; ring].
      apply Qcle_antisym; [|exact L]. apply Qcopp_le_compat in P. ring_simplify in P. exact P. }
  rewrite E, set_out by exact NI. replace (fst m, snd m) with m by (destruct m; reflexivity). rewrite IH; [|rewrite <- app_assoc; exact N]. rewrite <- app_assoc. reflexivity.
Qed.
Lemma xy_ok rundirs ms : Forall2 (xy_run fs float) rundirs ms -> forall s d more, NoDup (map fst (d ++ ms)) ->
  xy_loop fs float (rundirs ++ more) s d = xy_loop fs float more (match rundirs with [] => s | _ => match static_data fs float (last rundirs "") with Ok s' => s' | Err _ => s end end) (d ++ ms).
Proof.
  induction 1 as [|rundir m rundirs ms (W & data & S & M) F IH]; intros s d more N; [rewrite app_nil_r; reflexivity|].
  cbn [xy_loop app]. destruct (static_ok _ _ _ W) as (sd & SD & G). rewrite SD. cbn [bind]. rewrite G. cbn [bind].
  assert (NI : ~ In (fst m) (map fst d)).
  { rewrite map_app in N. cbn [map] in N. apply NoDup_remove_2 in N. intros I. apply N, in_or_app. left. exact I. }
  rewrite (key_out _ _ NI). unfold stored in S. rewrite S. cbn [raised bind]. rewrite M. cbn [bind]. rewrite set_out by exact NI. replace (fst m, snd m) with m by (destruct m; reflexivity).
  rewrite IH; [|rewrite <- app_assoc; exact N]. rewrite <- app_assoc. cbn [app]. f_equal. destruct rundirs as [|r rs]; [cbn [last]; rewrite SD; reflexivity|].
  change (last (rundir :: r :: rs) "") with (last (r :: rs) ""). inversion F as [|? m2 ? ms2 (W2 & _) F2]; subst.
  assert (L : forall rs' ms', Forall2 (xy_run fs float) rs' ms' -> rs' <> [] -> exists s', static_data fs float (last rs' "") = Ok s').
  { clear. induction 1 as [|r m rs ms (W & _) F IH]; intros N; [congruence|]. destruct rs as [|r' rs]; [destruct (static_ok _ _ _ W) as (s' & E & _); exists s'; exact E|]. apply IH. discriminate. }
  destruct (L _ _ F ltac:(discriminate)) as (s' & ->). reflexivity.
Qed.
Lemma values_lined d : values_text str d = lined (map (fun p => two_values (str (fst p)) (str (snd p))) (sort_pairs d)).
Proof.
  unfold values_text, lined. rewrite (fold_text (fun p => (str (fst p) ++ String "009" "" ++ str (snd p) ++ eol)%string)). cbn [append]. rewrite map_map. f_equal. apply map_ext. intros p. unfold two_values. rewrite !app_assoc_s. reflexivity.
Qed.
Hypothesis ratio_ok : forall Wi, ratio Wi = Ok (mu Wi).
Lemma theory_ok prediction Wis : forall text, theory_text str ratio prediction Wis text = Ok (text ++ lined (map (fun Wi => two_values (str Wi) (prediction Wi (mu Wi))) Wis))%string.
Proof.
  induction Wis as [|Wi Wis IH]; intros text; cbn [theory_text map]; [unfold lined; cbn; rewrite append_nil_r; reflexivity|]. rewrite ratio_ok. cbn [bind]. rewrite IH. unfold lined, two_values. cbn [map cat fold_right]. rewrite !app_assoc_s. reflexivity.
Qed.
Lemma row_fine a b : clean a -> has_char "010" b = false -> has_char "010" (two_values a b) = false /\ two_values a b <> "e".
Proof.
  intros [_ A] B. unfold two_values. split; [rewrite !has_char_app, A, B; reflexivity|]. intros H.
  assert (X : has_char "009" (a ++ String "009" "" ++ b) = true) by (rewrite has_char_app; cbn; apply orb_true_r). rewrite H in X. discriminate.
Qed.
Lemma sample_lin lo hi : linspace lo hi 100 = map (sample lo hi) (seq 0 100).
Proof. unfold linspace. apply map_ext. intros i. unfold sample. change (qn (100 - 1)) with (qz 99). unfold Qcdiv. ring. Qed.
Lemma ends ms : ms <> [] -> NoDup (map fst ms) -> exists p l, sort_pairs ms = p :: l /\ In (fst p) (map fst ms) /\ In (fst (last (p :: l) p)) (map fst ms) /\ forall m, In m ms -> (fst p <= fst m)%Qc /\ (fst m <= fst (last (p :: l) p))%Qc.
Proof.
  intros N D. pose proof (sort_perm ms) as P. pose proof (sort_sorted ms D) as S. destruct (sort_pairs ms) as [|p l]; [apply Permutation_nil in P; congruence|].
  exists p, l. split; [reflexivity|].
  assert (LA : forall (r : list (Qc * Qc)) q d, In (last (q :: r) d) (q :: r)) by (induction r as [|q' r IH]; intros q d; [left; reflexivity|right; apply IH]).
  pose proof (LA l p p) as LI.
  split; [apply in_map, (Permutation_in _ P); left; reflexivity|]. split; [apply in_map, (Permutation_in _ P), LI|].
  intros m I. apply (Permutation_in _ (Permutation_sym P)) in I. split.
  - inversion S as [|? ? S' H]; subst. destruct I as [->|I]; [apply Qcle_refl|]. rewrite Forall_forall in H. apply Qclt_le_weak, H, I.
  - clear - S I LA. unfold increasing in S. generalize p at 2. induction (p :: l) as [|q r IH]; intros d; [destruct I|]. inversion S as [|? ? S' H]; subst. destruct r as [|q' r].
    + destruct I as [->|[]]. apply Qcle_refl.
    + change (last (q :: q' :: r) d) with (last (q' :: r) d). destruct I as [->|I]; [|apply IH; assumption].
      rewrite Forall_forall in H. apply Qclt_le_weak, H, LA.
Qed.
Lemma alignment_text rundirs ms : rundirs <> [] -> NoDup (map fst ms) -> Forall2 (aligned_run fs float setting) rundirs ms ->
  exists text l lo hi, alignment_script fs str float setting ratio rundirs = Ok (Some text) /\ Permutation l ms /\ increasing l /\
    In lo (map fst ms) /\ In hi (map fst ms) /\ (forall m, In m ms -> (lo <= fst m)%Qc /\ (fst m <= hi)%Qc) /\
    gnuplot text = Some ([("'-' with linespoints title 'Data'", map (fun p => two_values (str (fst p)) (str (snd p))) l);
      ("'-' with lines title 'Theory'", map (fun i => let Wi := sample lo hi i in two_values (str Wi) (if qeqb Wi 0 then "inf" else str ((1 + 1) * mu Wi / Wi)%Qc)) (seq 0 100))], Some []).
Proof.
  intros N D F. unfold alignment_script. destruct rundirs as [|r rs]; [congruence|]. pose proof (alignment_ok _ _ F [] [] D) as A. rewrite app_nil_r in A. rewrite A. cbn [alignment_loop bind app].
  destruct (ends ms) as (p & l & E & I1 & I2 & B); [inversion F; discriminate|exact D|].
  unfold theory_between. rewrite E, theory_ok. cbn [bind append]. eexists. exists (p :: l), (fst p), (fst (last (p :: l) p)). split; [reflexivity|].
  split; [rewrite <- E; apply sort_perm|]. split; [rewrite <- E; apply sort_sorted, D|]. split; [exact I1|]. split; [exact I2|]. split; [exact B|].
  rewrite values_lined, E, sample_lin, map_map.
  set (rows := map (fun p => two_values (str (fst p)) (str (snd p))) (p :: l)).
  match goal with |- context [lined (map ?f (seq 0 100))] => set (rows2 := map f (seq 0 100)) end.
  assert (R2 : forall x, In x rows2 -> has_char "010" x = false /\ x <> "e").
  { intros x X. apply in_map_iff in X as (i & <- & _). apply row_fine; [apply str_clean|]. unfold tan_prediction. destruct (qeqb _ 0); [reflexivity|]. apply str_clean. }
  pose proof (gnuplot_ok ["set terminal wxt persist"; "set log"; "set xlabel 'Wi'"; "set ylabel 'abs(tan(2 chi))'"] "'-' with linespoints title 'Data'" [] [rows] ["'-' with lines title 'Theory'"] (lined rows2 ++ "e")%string) as G.
  match type of G with _ -> _ -> _ -> _ -> _ -> _ -> gnuplot ?x = _ => match goal with |- gnuplot ?y = _ => replace y with x end end.
  - rewrite G.
    + cbn [read_blocks combine app]. rewrite split_lined by (intros x X; apply R2, X). change (split "010" "e") with ["e"]. rewrite block_ok by (intros x X; apply R2, X). cbn [fst snd app]. do 5 f_equal.
    + intros x [<-|[<-|[<-|[<-|[]]]]]; split; reflexivity.
    + split; [split; reflexivity|eexists; reflexivity].
    + constructor.
    + constructor; [|constructor]. split; [split; reflexivity|eexists; reflexivity].
    + reflexivity.
    + intros b x [<-|[]] X. apply in_map_iff in X as (q & <- & _). apply row_fine; apply str_clean.
  - change (cat (map (fun b => lined b ++ "e" ++ eol)%string [rows])) with ((lined rows ++ "e" ++ eol) ++ "")%string.
    generalize (lined rows) (lined rows2). intros t1 t2. rewrite append_nil_r, !app_assoc_s. reflexivity.
Qed.
Lemma xy_text rundirs ms len : rundirs <> [] -> NoDup (map fst ms) -> Forall2 (xy_run fs float) rundirs ms -> static fs float (last rundirs "") "dumbbellEquilibriumLength" len -> len <> 0%Qc ->
  exists text l, xy_script fs str float ratio rundirs = Ok (Some text) /\ Permutation l ms /\ increasing l /\
    text = (lined ["set terminal wxt persist"; "set log x"; "set xlabel 'Wi'"; "set ylabel '<Rx Ry>'"; "plot '-' with linespoints notitle "] ++ values_text str ms ++ "e")%string /\
    gnuplot text = Some ([("'-' with linespoints notitle ", map (fun p => two_values (str (fst p)) (str (snd p))) l)], Some []).
Proof.
  intros N D F L NZ. unfold xy_script. destruct rundirs as [|r rs]; [congruence|]. pose proof (xy_ok _ _ F [] [] [] D) as A. rewrite app_nil_r in A. rewrite A. cbn [xy_loop bind app].
  destruct (static_ok _ _ _ L) as (sd & SD & G). rewrite SD, G. cbn [bind].
  destruct (qeqb (len * len) 0) eqn:Q.
  { apply qeqb_spec in Q. apply Qcmult_integral in Q. tauto. }
  destruct (ends ms) as (p & l & E & _); [inversion F; discriminate|exact D|].
  unfold theory_between at 1. rewrite E, theory_ok. cbn [bind]. eexists. exists (p :: l). split; [reflexivity|]. split; [rewrite <- E; apply sort_perm|]. split; [rewrite <- E; apply sort_sorted, D|].
  split; [generalize (values_text str ms); intros t; reflexivity|].
  rewrite values_lined, E. set (rows := map _ (p :: l)).
  assert (R : forall x, In x rows -> has_char "010" x = false /\ x <> "e") by (intros x X; apply in_map_iff in X as (q & <- & _); apply row_fine; apply str_clean).
  assert (T : forall t, (("set terminal wxt persist" ++ eol ++ "set log x" ++ eol ++ "set xlabel 'Wi'" ++ eol ++ "set ylabel '<Rx Ry>'" ++ eol) ++ "plot '-' with linespoints notitle " ++ eol ++ t ++ "e")%string
    = (lined ["set terminal wxt persist"; "set log x"; "set xlabel 'Wi'"; "set ylabel '<Rx Ry>'"] ++ ("plot " ++ "'-' with linespoints notitle ") ++ eol ++ t ++ "e")%string) by reflexivity.
  rewrite T. unfold gnuplot. rewrite split_lined by (intros x [<-|[<-|[<-|[<-|[]]]]]; reflexivity). rewrite split_eol by reflexivity. rewrite find_ok by (intros x [<-|[<-|[<-|[<-|[]]]]]; reflexivity).
  rewrite split_lined by (intros x X; apply R, X). change (split "010" "e") with ["e"]. change (map skip_blank (split "," "'-' with linespoints notitle ")) with ["'-' with linespoints notitle "].
  cbn [read_blocks]. rewrite block_ok by (intros x X; apply R, X). reflexivity.
Qed.
End Scripts.

(** ** What a table has *)
Section Tables.
Context {K V : Type} (eqb : K -> K -> bool) (eqb_spec : forall a b, eqb a b = true <-> a = b).
Lemma table_nodup (l : list (K * V)) : NoDup (map fst (table eqb l)).
Proof. unfold table. rewrite map_map. cbn [fst]. apply (firsts_nodup eqb eqb_spec fst). Qed.
Lemma table_in (l : list (K * V)) x v : In (x, v) (table eqb l) <-> exists before after, l = before ++ (x, v) :: after /\ ~ In x (map fst after).
Proof.
  induction l as [|[k w] l IH] using rev_ind.
  - split; [intros []|]. intros (b & a & E & _). destruct b; discriminate E.
  - rewrite (table_snoc eqb eqb_spec). 
    assert (D : In (x, v) (dset eqb (table eqb l) k w) <-> if eqb x k then v = w else In (x, v) (table eqb l)).
    { pose proof (table_nodup l) as N. split.
      - intros I. apply (in_dget eqb eqb_spec) in I; [|apply (dset_nodup eqb eqb_spec); exact N]. rewrite (dget_dset eqb eqb_spec) in I. destruct (eqb x k); [congruence|]. apply (dget_in eqb eqb_spec), I.
      - intros I. apply (dget_in eqb eqb_spec). rewrite (dget_dset eqb eqb_spec). destruct (eqb x k); [congruence|]. apply (in_dget eqb eqb_spec); assumption. }
    rewrite D. destruct (eqb x k) eqn:E.
    + apply eqb_spec in E as ->. split.
      * intros ->. exists l, []. split; [reflexivity|intros []].
      * intros (b & a & H & N). destruct a as [|[k' w'] a] using rev_ind; [apply app_inj_tail in H as [_ H]; congruence|]. clear IHa.
        rewrite app_comm_cons, app_assoc in H. apply app_inj_tail in H as [_ H]. injection H as <- <-. exfalso. apply N. rewrite map_app. apply in_or_app. right. left. reflexivity.
    + rewrite IH. split.
      * intros (b & a & -> & N). exists b, (a ++ [(k, w)]). split; [rewrite <- app_assoc; reflexivity|]. rewrite map_app. intros I. apply in_app_or in I as [I|[I|[]]]; [contradiction|].
        cbn in I. subst. rewrite (proj2 (eqb_spec x x) eq_refl) in E. discriminate.
      * intros (b & a & H & N). destruct a as [|[k' w'] a] using rev_ind; [apply app_inj_tail in H as [_ H]; injection H as <- <-; rewrite (proj2 (eqb_spec k k) eq_refl) in E; discriminate|]. clear IHa.
        rewrite app_comm_cons, app_assoc in H. apply app_inj_tail in H as [-> _]. exists b, a. split; [reflexivity|]. intros I. apply N. rewrite map_app. apply in_or_app. left. exact I.
Qed.
Lemma filter_split {A} (f : A -> bool) l : forall b x a, filter f l = b ++ x :: a -> exists b' a', l = b' ++ x :: a' /\ filter f a' = a.
Proof.
  induction l as [|y l IH]; intros b x a H; cbn [filter] in H; [destruct b; discriminate|]. destruct (f y) eqn:F.
  - destruct b as [|z b]; [injection H as -> <-; exists [], l; split; reflexivity|]. injection H as -> H. destruct (IH _ _ _ H) as (b' & a' & -> & E). exists (z :: b'), a'. split; [reflexivity|exact E].
  - destruct (IH _ _ _ H) as (b' & a' & -> & E). exists (y :: b'), a'. split; [reflexivity|exact E].
Qed.
Lemma curves_in (ms : list (K * (K * V))) c x v : (exists ps, In (c, ps) (curves eqb ms) /\ In (x, v) ps) <->
  exists before after, ms = before ++ (c, (x, v)) :: after /\ forall m, In m after -> fst m = c -> fst (snd m) <> x.
Proof.
  unfold curves. split.
  - intros (ps & I & P). apply in_map_iff in I as (k & E & _). injection E as -> <-. apply table_in in P as (b & a & E & N).
    assert (EX : exists b' m a', filter (fun m => eqb c (fst m)) ms = b' ++ m :: a' /\ snd m = (x, v) /\ map snd a' = a).
    { clear N. revert b E. generalize (filter (fun m => eqb c (fst m)) ms). induction l as [|m l IH]; intros b E; [destruct b; discriminate|].
      destruct b as [|p b]; cbn [map app] in E; [injection E as E1 E2; exists [], m, l; auto|]. injection E as _ E. destruct (IH b E) as (b' & m' & a' & -> & A & B). exists (m :: b'), m', a'. auto. }
    destruct EX as (b' & m & a' & F & S & A). 
    assert (C : fst m = c).
    { assert (I : In m (filter (fun m => eqb c (fst m)) ms)) by (rewrite F; apply in_or_app; right; left; reflexivity). apply filter_In in I as [_ I]. apply eqb_spec in I. congruence. }
    destruct (filter_split _ _ _ _ _ F) as (b2 & a2 & -> & FA). exists b2, a2. split; [destruct m as [m1 m2]; cbn in *; congruence|].
    intros m' I C' X. apply N. rewrite <- A, <- FA, map_map. apply in_map_iff. exists m'. split; [exact X|]. apply filter_In. split; [exact I|]. apply eqb_spec. congruence.
  - intros (b & a & -> & N). exists (table eqb (map snd (filter (fun m => eqb c (fst m)) (b ++ (c, (x, v)) :: a)))). split.
    + apply in_map_iff. exists c. split; [reflexivity|]. pose proof (firsts_in eqb eqb_spec (fun k : K => k) (map fst (b ++ (c, (x, v)) :: a)) c) as F. rewrite !map_id in F. apply F. rewrite map_app. apply in_or_app. right. left. reflexivity.
    + apply table_in. rewrite filter_app. cbn [filter fst]. rewrite (proj2 (eqb_spec c c) eq_refl), map_app. cbn [map snd]. eexists. eexists. split; [reflexivity|].
      rewrite map_map. intros I. apply in_map_iff in I as (m & E & I). apply filter_In in I as [I C]. apply eqb_spec in C. apply (N m I); [congruence|exact E].
Qed.
Lemma curves_nodup (ms : list (K * (K * V))) : NoDup (map fst (curves eqb ms)) /\ forall c ps, In (c, ps) (curves eqb ms) -> NoDup (map fst ps) /\ ps <> [].
Proof.
  split.
  - unfold curves. rewrite map_map. cbn [fst]. apply (firsts_nodup eqb eqb_spec (fun k => k)).
  - intros c ps I. apply in_map_iff in I as (k & E & I). injection E as -> <-. split; [apply table_nodup|].
    pose proof (firsts_in eqb eqb_spec (fun k : K => k) (map fst ms) c) as F. rewrite !map_id in F. apply F in I. apply in_map_iff in I as (m & E & I).
    assert (J : In m (filter (fun m => eqb c (fst m)) ms)) by (apply filter_In; split; [exact I|apply eqb_spec; congruence]).
    destruct (filter (fun m => eqb c (fst m)) ms) as [|m' l]; [destruct J|]. unfold table. cbn [map firsts]. discriminate.
Qed.
End Tables.
